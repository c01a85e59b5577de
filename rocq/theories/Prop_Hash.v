(** Properties C18-C22: the hash functions and HMAC.

    A hasher object is a state of [hasher_of be n], where [n] names the hash function
    and [be] says whether the target is big-endian.  [obj n be st] says that the arrays
    in the object have the lengths of their Rust types, nothing more: [st] is an
    arbitrary object, whatever it was used for before.  [S_Sha2.SHA256] etc. are the
    functions of FIPS 180-4 on bit strings, [S_Sha3.SHA3_256] etc. those of FIPS 202,
    [on_bytes f] is [f] on byte strings. *)

From Verif Require Import Base M_Word M_Sha2 M_Sha3 M_Hmac S_Hash P_Bits P_Hash.
From Verif Require S_Sha2 S_Sha3.
Open Scope Z_scope.

(** * C18 *)
Theorem C18_sha256 : forall be (st : h_state (hasher_of be Sha256)) m,
  obj Sha256 be st -> bytes m -> Z.of_nat (length m) < 2 ^ 61 ->
  exists st', h_digest (hasher_of be Sha256) st m = Ret (on_bytes S_Sha2.SHA256 m, st').
Proof. exact @sha256_full. Qed.
Print Assumptions C18_sha256.

(** The specification and the model agree with the example of FIPS 180-4 for "abc". *)
Definition abc : list Z := [0x61; 0x62; 0x63].
Example C18_witness :
  be_val (on_bytes S_Sha2.SHA256 abc) = 0xba7816bf8f01cfea414140de5dae2223b00361a396177a9cb410ff61f20015ad /\
  obj Sha256 false sha256_new /\
  exists st', sha256 sha256_new abc = Ret (on_bytes S_Sha2.SHA256 abc, st').
Proof. split; [|split]; [vm_compute; reflexivity|split; reflexivity|eexists; vm_compute; reflexivity]. Qed.

(** * C19 *)
Theorem C19_sha384 : forall be (st : h_state (hasher_of be Sha384)) m,
  obj Sha384 be st -> bytes m -> Z.of_nat (length m) < 2 ^ 61 ->
  exists st', h_digest (hasher_of be Sha384) st m = Ret (on_bytes S_Sha2.SHA384 m, st').
Proof. exact @sha384_full. Qed.
Print Assumptions C19_sha384.

Theorem C19_sha512 : forall be (st : h_state (hasher_of be Sha512)) m,
  obj Sha512 be st -> bytes m -> Z.of_nat (length m) < 2 ^ 61 ->
  exists st', h_digest (hasher_of be Sha512) st m = Ret (on_bytes S_Sha2.SHA512 m, st').
Proof. exact @sha512_full. Qed.
Print Assumptions C19_sha512.

Example C19_witness :
  be_val (on_bytes S_Sha2.SHA384 abc) = 0xcb00753f45a35e8bb5a03d699ac65007272c32ab0eded1631a8b605a43ff5bed8086072ba1e7cc2358baeca134c825a7 /\
  be_val (on_bytes S_Sha2.SHA512 abc) = 0xddaf35a193617abacc417349ae20413112e6fa4e89a97ea20a9eeee64b55d39a2192992a274fc1a836ba3c23a3feebbd454d4423643ce80e2a9ac94fa54ca49f /\
  obj Sha384 false sha384_512_new /\ obj Sha512 false sha384_512_new.
Proof. split; [|split]; [vm_compute; reflexivity|vm_compute; reflexivity|split; split; reflexivity]. Qed.

(** * C20: no bound on the length *)
Theorem C20_sha3_224 : forall be (st : h_state (hasher_of be Sha3_224)) m,
  obj Sha3_224 be st -> bytes m ->
  exists st', h_digest (hasher_of be Sha3_224) st m = Ret (on_bytes_le S_Sha3.SHA3_224 m, st').
Proof. exact @sha3_224_full. Qed.
Print Assumptions C20_sha3_224.

Theorem C20_sha3_256 : forall be (st : h_state (hasher_of be Sha3_256)) m,
  obj Sha3_256 be st -> bytes m ->
  exists st', h_digest (hasher_of be Sha3_256) st m = Ret (on_bytes_le S_Sha3.SHA3_256 m, st').
Proof. exact @sha3_256_full. Qed.
Print Assumptions C20_sha3_256.

Theorem C20_sha3_384 : forall be (st : h_state (hasher_of be Sha3_384)) m,
  obj Sha3_384 be st -> bytes m ->
  exists st', h_digest (hasher_of be Sha3_384) st m = Ret (on_bytes_le S_Sha3.SHA3_384 m, st').
Proof. exact @sha3_384_full. Qed.
Print Assumptions C20_sha3_384.

Theorem C20_sha3_512 : forall be (st : h_state (hasher_of be Sha3_512)) m,
  obj Sha3_512 be st -> bytes m ->
  exists st', h_digest (hasher_of be Sha3_512) st m = Ret (on_bytes_le S_Sha3.SHA3_512 m, st').
Proof. exact @sha3_512_full. Qed.
Print Assumptions C20_sha3_512.

Theorem C20_keccak256 : forall be (st : h_state (hasher_of be Keccak256)) m,
  obj Keccak256 be st -> bytes m ->
  exists st', h_digest (hasher_of be Keccak256) st m = Ret (on_bytes_le S_Sha3.Keccak_256 m, st').
Proof. exact @keccak256_full. Qed.
Print Assumptions C20_keccak256.

(** The model on "abc" and on the empty message: the published digests. *)
Example C20_witness : obj Sha3_256 false sha3_new /\
  (exists d st', sha3_256 false sha3_new abc = Ret (d, st') /\
     be_val d = 0x3a985da74fe225b2045c172d6bd390bd855f086e3e9d525b46bfe24511431532) /\
  (exists d st', keccak256 false sha3_new [] = Ret (d, st') /\
     be_val d = 0xc5d2460186f7233c927e7db2dcc703c0e500b653ca82273b7bfad8045d85a470).
Proof. split; [reflexivity|split]; do 2 eexists; split; vm_compute; reflexivity. Qed.

(** * C21 *)
Theorem C21_hmac : forall n be key text (st : h_state (hasher_of be n)),
  obj n be st -> bytes key -> bytes text -> fits n (length key) -> fits n (block_len n + length text) ->
  exists st', hmac (hasher_of be n) key text st = Ret (HMAC (HASH n) (block_len n) key text, st').
Proof. exact @hmac_full. Qed.
Print Assumptions C21_hmac.

(** RFC 4231, test case 2 (SHA-256): key "Jefe", data "what do ya want for nothing?" *)
Example C21_witness :
  let key := [0x4a; 0x65; 0x66; 0x65] in
  let text := [0x77; 0x68; 0x61; 0x74; 0x20; 0x64; 0x6f; 0x20; 0x79; 0x61; 0x20; 0x77; 0x61; 0x6e; 0x74; 0x20;
               0x66; 0x6f; 0x72; 0x20; 0x6e; 0x6f; 0x74; 0x68; 0x69; 0x6e; 0x67; 0x3f] in
  fits Sha256 (length key) /\ fits Sha256 (block_len Sha256 + length text) /\
  exists d st', hmac (hasher_of false Sha256) key text sha256_new = Ret (d, st') /\
     be_val d = 0x5bdcc146bf60754e6a042426089575c75a003f089d2739839dec58b964ec3843.
Proof. split; [|split]; [reflexivity|reflexivity|]. do 2 eexists. split; vm_compute; reflexivity. Qed.

(** * C22 *)
(** After any history of calls, a digest is the one of a fresh object, and has the
    advertised length. *)
Theorem C22_history : forall n be ms m,
  Forall (fun m => bytes m /\ fits n (length m)) ms -> bytes m -> fits n (length m) ->
  exists st d st1 st2,
    digest_all (hasher_of be n) (h_new (hasher_of be n)) ms = Ret st /\
    h_digest (hasher_of be n) st m = Ret (d, st1) /\
    h_digest (hasher_of be n) (h_new (hasher_of be n)) m = Ret (d, st2) /\
    length d = OUTPUT_BYTE_LENGTH (hasher_of be n).
Proof. exact @history_spec. Qed.
Print Assumptions C22_history.

Example C22_witness : exists st d st1, digest_all (hasher_of false Sha256) sha256_new [abc; []] = Ret st /\
  st <> sha256_new /\ sha256 st abc = Ret (d, st1) /\
  be_val d = 0xba7816bf8f01cfea414140de5dae2223b00361a396177a9cb410ff61f20015ad.
Proof.
  do 3 eexists. split; [vm_compute; reflexivity|]. split; [vm_compute; discriminate|]. split; vm_compute; reflexivity.
Qed.

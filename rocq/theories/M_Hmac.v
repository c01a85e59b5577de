(** Model of the UnkeyedHash trait (src/crypto/hash/core.rs), of its eight
    implementations, and of src/crypto/hash/hmac.rs. *)

From Verif Require Import Base M_Word M_Sha2 M_Sha3.
Open Scope Z_scope.

(** src/crypto/hash/core.rs:7-12, trait UnkeyedHash: the associated constants, the
    state behind [&mut self], and [digest], which returns the digest and the new state *)
Record hasher : Type := {
  INPUT_BLOCK_BYTE_LENGTH : nat;
  OUTPUT_BYTE_LENGTH : nat;
  h_state : Type;
  h_new : h_state;
  h_digest : h_state -> list Z -> outcome (list Z * h_state);
}.

(** the eight implementations in src/crypto/hash *)
Inductive hash_name := Sha256 | Sha384 | Sha512 | Sha3_224 | Sha3_256 | Sha3_384 | Sha3_512 | Keccak256.

(** the impl blocks: sha2/sha256.rs:37-46, sha2/sha384_512.rs:37-52 and 76-91,
    sha3/sha3_224.rs, sha3_256.rs, sha3_384.rs, sha3_512.rs, keccak256.rs:28-46.
    [be]: big-endian target. *)
Definition hasher_of (be : bool) (n : hash_name) : hasher :=
  match n with
  | Sha256 => Build_hasher 64 32 _ sha256_new sha256
  | Sha384 => Build_hasher 128 48 _ sha384_512_new sha384
  | Sha512 => Build_hasher 128 64 _ sha384_512_new sha512
  | Sha3_224 => Build_hasher 144 28 _ sha3_new (sha3_224 be)
  | Sha3_256 => Build_hasher 136 32 _ sha3_new (sha3_256 be)
  | Sha3_384 => Build_hasher 104 48 _ sha3_new (sha3_384 be)
  | Sha3_512 => Build_hasher 72 64 _ sha3_new (sha3_512 be)
  | Keccak256 => Build_hasher 136 32 _ sha3_new (keccak256 be)
  end.

(** src/crypto/hash/hmac.rs:13-68, hmac: the tag and the new state of the hasher *)
Definition hmac (h : hasher) (key message : list Z) (st : h_state h) : outcome (list Z * h_state h) :=
  let B := INPUT_BLOCK_BYTE_LENGTH h in
  '(k0, st) <- (match Nat.compare (length key) B with
                | Lt => Ret (key ++ repeat 0 (B - length key), st)
                | Eq => Ret (key, st)
                | Gt => h_digest h st key
                end) ;;
  let t := repeat 0x36 B in
  let t := zip_xor k0 t in
  let t := t ++ message in
  '(step_6_result, st) <- h_digest h st t ;;
  let t := repeat 0x5c B in
  let t := zip_xor k0 t in
  let t := t ++ step_6_result in
  h_digest h st t.

(** a history: [digest] called on each message of a list, in order *)
Fixpoint digest_all (h : hasher) (st : h_state h) (ms : list (list Z)) : outcome (h_state h) :=
  match ms with
  | [] => Ret st
  | m :: ms' => '(_, st) <- h_digest h st m ;; digest_all h st ms'
  end.

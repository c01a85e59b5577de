(** Property C80: the library on P-256, the curve of its tests of arbitrary curve parameters, with the default options.
    [P256] in S_P256.v lists the parameters of FIPS 186-4, [p] and [n] are its prime and its order; [nist_p256] builds
    them with the functions of the library, the coefficient a as -3.  The rest is as in Prop_Secp.v. *)

From Coq Require Import String.
From Verif Require Import Base M_BigInt M_BigText M_Curve M_Hmac M_Random M_Ecdsa M_Rfc6979 M_Encoding M_P256.
From Verif Require Import S_BigInt S_Curve S_EcModel S_Ecdsa S_Sign S_Encoding S_P256.
From Verif Require P_P256Api P_P256Kat.
Open Scope Z_scope.
Local Open Scope list_scope.

Local Notation p := (ep (e_curve P256)).
Local Notation n := (e_order P256).

(** The parameters are those of the standard, and they are sound: the theorems on arbitrary parameters apply. *)
Theorem C80_parameters : forall cfg : digit_cfg, exists D, nist_p256 = Ret D /\ code_params D /\ params_val D = P256 /\ params_ok P256.
Proof. exact P_P256Api.p256_code. Qed.
Print Assumptions C80_parameters.

(** Signing does return signatures: the key and the message "sample" of RFC 6979, A.2.5, give the signature published there
    (tests/crypto/ecdsa_p256_signing_verifying.rs:17-47), and with the default options, the random source giving 0, 1, ..., 31: *)
Example published_signature : forall (cfg : digit_cfg) be zero rng, rng_ok rng -> exists D dd F, nist_p256 = Ret D /\
  hex_lit "C9AFA9D845BA75166B5C215767B1D6934E50C3DB36E89B127B8A622B120F6721" = Ret dd /\ code_sk (mkSk dd D) /\
  forall fuel, (F <= fuel)%nat -> exists sg id, sign_with_options be fuel P_P256Kat.hash0 (mkSk dd D) (mkSO false true false zero) rng = Ret (Ok (sg, id)) /\
    bi_val (sig_r sg) = 0xefd48b2aacb6a8fd1140dd9cd45e81d69d2c877b56aaf991c34d0ea84eaf3716 /\
    bi_val (sig_s sg) = 0xf7cb1c942d657c41d436c7a1b6e29f65f3e900dbb9aff4064dc4ab2f843acda8.
Proof. exact P_P256Kat.kat_det. Qed.
Example published_hash : forall be, exists st, h_digest (hasher_of be Sha256) (h_new (hasher_of be Sha256)) (ascii_codes "sample") = Ret (P_P256Kat.hash0, st).
Proof. exact P_P256Kat.hash0_code. Qed.
Example default_signature : forall (cfg : digit_cfg) be, exists D dd pk fuel sg id, nist_p256 = Ret D /\
  hex_lit "C9AFA9D845BA75166B5C215767B1D6934E50C3DB36E89B127B8A622B120F6721" = Ret dd /\ code_sk (mkSk dd D) /\
  rng_ok (fun _ => Ret (Ok P_P256Kat.entropy0)) /\ bytes P_P256Kat.hash0 /\ public_key_of (mkSk dd D) = Ret pk /\ encodable pk /\
  bi_val (px (pk_data pk)) = 0x60fed4ba255a9d31c961eb74c6356d68c049b8923b61fa6ce669622e60f29fb6 /\
  bi_val (py (pk_data pk)) = 0x7903fe1008b8bc99a41ae9e95628bc64f2f1b20c2d7e9f5177a3c294d4462299 /\
  sign_default be fuel P_P256Kat.hash0 (mkSk dd D) (fun _ => Ret (Ok P_P256Kat.entropy0)) = Ret (Ok (sg, id)).
Proof. exact P_P256Kat.kat_wire. Qed.

(** A public key is accepted exactly if its coordinates are below p and satisfy the equation; the constructor never panics. *)
Theorem C80_public_key : forall (cfg : digit_cfg) D, nist_p256 = Ret D -> forall P, wf_point P ->
  exists b : bool, public_key_new P D = Ret (if b then Some (mkPk P D) else None) /\
    (b = true <-> 0 <= bi_val (px P) < p /\ 0 <= bi_val (py P) < p /\
       (bi_val (py P) * bi_val (py P)) mod p = (bi_val (px P) * bi_val (px P) * bi_val (px P) - 3 * bi_val (px P) + eb (e_curve P256)) mod p).
Proof. exact @P_P256Api.p256_public_key. Qed.
Print Assumptions C80_public_key.
(** A private key is accepted exactly if it is in [1, n - 1], and then it has a public key, d G, which is accepted. *)
Theorem C80_private_key : forall (cfg : digit_cfg) D, nist_p256 = Ret D -> forall data, wf data ->
  exists b : bool, private_key_new data D = Ret (if b then Some (mkSk data D) else None) /\ (b = true <-> 1 <= bi_val data <= n - 1) /\
    (b = true -> exists pk x y, public_key_of (mkSk data D) = Ret pk /\ pk_params pk = D /\ code_pk pk /\
       emul (e_curve P256) (bi_val data) (e_base P256) = Some (x, y) /\ bi_val (px (pk_data pk)) = x /\ bi_val (py (pk_data pk)) = y).
Proof. exact @P_P256Api.p256_private_key. Qed.
Print Assumptions C80_private_key.

(** Signing never panics; a hash is refused exactly if it is empty, not of 32 bytes, or zero. *)
Theorem C80_sign_gates : forall (cfg : digit_cfg) D, nist_p256 = Ret D -> forall be fuel sk, code_sk sk -> sk_params sk = D ->
  forall rng, rng_ok rng -> forall hash, bytes hash ->
  let out := sign_default be fuel hash sk rng in
  out <> Panic /\
  (out = Ret (Err SEmptyHash) <-> hash = []) /\
  (out = Ret (Err SHashBitLength) <-> hash <> [] /\ length hash <> 32%nat) /\
  (out = Ret (Err SZeroHash) <-> length hash = 32%nat /\ be_val hash = 0).
Proof. exact @P_P256Api.p256_sign_gates. Qed.
Print Assumptions C80_sign_gates.
(** What is returned is in range, has low s, verifies under the public key of the signer, and the signer's key is
    recovered from it: as the only key with the recovery id, as one of the keys without. *)
Theorem C80_signed : forall (cfg : digit_cfg) D, nist_p256 = Ret D -> forall be fuel sk, code_sk sk -> sk_params sk = D ->
  forall rng, rng_ok rng -> forall hash, bytes hash -> forall pk sg id,
  public_key_of sk = Ret pk -> sign_default be fuel hash sk rng = Ret (Ok (sg, id)) ->
  length hash = 32%nat /\ sig_params sg = D /\ code_sig sg /\
  1 <= bi_val (sig_r sg) <= n - 1 /\ 1 <= bi_val (sig_s sg) <= n / 2 /\
  verify hash sg pk = Ret (Ok true) /\
  (exists pk', recover sg hash (Some id) = Ret (Ok [pk']) /\ same_key pk' pk) /\
  (exists ks pk', recover sg hash None = Ret (Ok ks) /\ In pk' ks /\ same_key pk' pk).
Proof. exact @P_P256Api.p256_signed. Qed.
Print Assumptions C80_signed.

(** Verifying never panics; it refuses empty, zero and wrongly long hashes and otherwise answers whether the signature is
    valid for the key and the hash, by the textbook. *)
Theorem C80_verify : forall (cfg : digit_cfg) D, nist_p256 = Ret D -> forall pk sg hash,
  code_pk pk -> pk_params pk = D -> code_sig sg -> sig_params sg = D -> bytes hash ->
  let out := verify hash sg pk in
  (out = Ret (Err VEmptyHash) <-> hash = []) /\
  (out = Ret (Err VHashBitLength) <-> hash <> [] /\ length hash <> 32%nat) /\
  (out = Ret (Err VZeroHash) <-> length hash = 32%nat /\ be_val hash = 0) /\
  (length hash = 32%nat -> be_val hash <> 0 -> exists b : bool, out = Ret (Ok b) /\
     (b = true <-> ecdsa_valid P256 (pt_val (pk_data pk)) (be_val hash) (bi_val (sig_r sg)) (bi_val (sig_s sg)))).
Proof. exact @P_P256Api.p256_verify. Qed.
Print Assumptions C80_verify.

(** Recovery never panics; all recovered keys verify the signature, and without a recovery id all keys that do are recovered. *)
Theorem C80_recover : forall (cfg : digit_cfg) D, nist_p256 = Ret D -> forall sg hash id, code_sig sg -> sig_params sg = D -> bytes hash ->
  let out := recover sg hash id in
  (out = Ret (Err REmptyHash) <-> hash = []) /\
  (out = Ret (Err RHashBitLength) <-> hash <> [] /\ length hash <> 32%nat) /\
  (out = Ret (Err RZeroHash) <-> length hash = 32%nat /\ be_val hash = 0) /\
  (length hash = 32%nat -> be_val hash <> 0 -> exists ks, out = Ret (Ok ks) /\
     (forall pk, In pk ks -> code_pk pk /\ pk_params pk = D /\ verify hash sg pk = Ret (Ok true)) /\
     (id = None -> forall pk, code_pk pk -> pk_params pk = D -> verify hash sg pk = Ret (Ok true) -> exists pk', In pk' ks /\ same_key pk' pk)).
Proof. exact @P_P256Api.p256_recover. Qed.
Print Assumptions C80_recover.

(** Reading a key never panics, and accepts exactly the uncompressed form and a loose compressed form of points of the curve. *)
Theorem C80_decode_key : forall (cfg : digit_cfg) D, nist_p256 = Ret D -> forall data, bytes data ->
  exists r, from_sec1_hex data D = Ret r /\
    match r with
    | Ok pk => code_pk pk /\ pk_params pk = D /\ let x := bi_val (px (pk_data pk)) in let y := bi_val (py (pk_data pk)) in sec1 32 x y false data \/ loose_compressed 32 x y data
    | Err _ => forall x y, 0 <= x < p -> 0 <= y < p -> (y * y) mod p = (x * x * x - 3 * x + eb (e_curve P256)) mod p -> ~ (sec1 32 x y false data \/ loose_compressed 32 x y data)
    end.
Proof. exact @P_P256Api.p256_decode. Qed.
Print Assumptions C80_decode_key.
(** A signature and its key can be sent as texts: what is read at the other end verifies.  (Keys that cannot be written: C37.) *)
Theorem C80_wire : forall (cfg : digit_cfg) D, nist_p256 = Ret D -> forall be fuel sk pk rng hash sg id compressed,
  code_sk sk -> sk_params sk = D -> rng_ok rng -> bytes hash -> public_key_of sk = Ret pk -> encodable pk ->
  sign_default be fuel hash sk rng = Ret (Ok (sg, id)) ->
  exists tk ts pk' sg', to_sec1_hex pk compressed = Ret tk /\ to_p1363_hex sg = Ret ts /\
    length tk = (if compressed then 66 else 130)%nat /\ length ts = 128%nat /\
    from_sec1_hex tk D = Ret (Ok pk') /\ from_p1363_hex ts D = Ret (Ok sg') /\ verify hash sg' pk' = Ret (Ok true).
Proof. exact @P_P256Api.p256_wire. Qed.
Print Assumptions C80_wire.

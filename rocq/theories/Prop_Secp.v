(** Properties C59 - C63: the library on secp256k1, the curve it ships, with the default options.  No hypotheses on
    curves are left here: [SECP256K1] in S_Curve.v lists the parameters of SEC 2, [p] and [n] are its prime and its order.

    [code_pk], [code_sk], [code_sig] (S_Ecdsa.v) are keys and signatures as their constructors return them; [rng_ok]
    (S_Sign.v) is a random source that returns 32 bytes or an error.  The rest is as in Prop_Ecdsa.v and Prop_Encoding.v. *)

From Verif Require Import Base M_BigInt M_BigText M_Curve M_Hmac M_Random M_Ecdsa M_Rfc6979 M_Encoding.
From Verif Require Import S_BigInt S_Curve S_EcModel S_Ecdsa S_Sign S_Encoding.
From Verif Require P_SecpApi P_SecpKat.
Open Scope Z_scope.

Local Notation p := (ep (e_curve SECP256K1)).
Local Notation n := (e_order SECP256K1).

(** Signing does return signatures.  The key 1 signs the SHA-256 hash of "Satoshi Nakamoto": deterministically, with the
    result other implementations publish, and with the default options, the random source giving 0, 1, ..., 31. *)
Example deterministic_signature : forall (cfg : digit_cfg) be zero rng, rng_ok rng -> exists D dd F, secp256k1 = Ret D /\ from_int 1 = Ret dd /\ code_sk (mkSk dd D) /\
  forall fuel, (F <= fuel)%nat -> exists sg id, sign_with_options be fuel P_SecpKat.hash0 (mkSk dd D) (mkSO true true false zero) rng = Ret (Ok (sg, id)) /\
    bi_val (sig_r sg) = 0x934b1ea10a4b3c1757e2b0c017d0b6143ce3c9a7e6a4a49860d7a6ab210ee3d8 /\
    bi_val (sig_s sg) = 0x2442ce9d2b916064108014783e923ec36b49743e2ffa1c4496f01a512aafd9e5 /\ recid_u8 id = 1.
Proof. exact P_SecpKat.kat_det. Qed.
Example default_signature : forall (cfg : digit_cfg) be, exists D dd F, secp256k1 = Ret D /\ from_int 1 = Ret dd /\ code_sk (mkSk dd D) /\
  forall fuel, (F <= fuel)%nat -> exists sg id, sign_default be fuel P_SecpKat.hash0 (mkSk dd D) (fun _ => Ret (Ok P_SecpKat.entropy0)) = Ret (Ok (sg, id)) /\
    bi_val (sig_r sg) = 0x75ab07749ee08aaec97b52ac3e73c3b76cf0e5eed03929d64afecf6405799cac /\
    bi_val (sig_s sg) = 0x53f78c086acf03f16dd417f94b453ddbaa9cb47b5afd524e8ad1352e9116c05d /\ recid_u8 id = 0.
Proof. exact P_SecpKat.kat_default. Qed.

(** * C59 *)
(** A public key is accepted exactly if its coordinates are below p and satisfy the equation; the constructor never panics. *)
Theorem C59_public_key : forall (cfg : digit_cfg) D, secp256k1 = Ret D -> forall P, wf_point P ->
  exists b : bool, public_key_new P D = Ret (if b then Some (mkPk P D) else None) /\
    (b = true <-> 0 <= bi_val (px P) < p /\ 0 <= bi_val (py P) < p /\
       (bi_val (py P) * bi_val (py P)) mod p = (bi_val (px P) * bi_val (px P) * bi_val (px P) + 7) mod p).
Proof. exact @P_SecpApi.secp_public_key. Qed.
Print Assumptions C59_public_key.
(** A private key is accepted exactly if it is in [1, n - 1], and then it has a public key, d G, which is accepted. *)
Theorem C59_private_key : forall (cfg : digit_cfg) D, secp256k1 = Ret D -> forall data, wf data ->
  exists b : bool, private_key_new data D = Ret (if b then Some (mkSk data D) else None) /\ (b = true <-> 1 <= bi_val data <= n - 1) /\
    (b = true -> exists pk x y, public_key_of (mkSk data D) = Ret pk /\ pk_params pk = D /\ code_pk pk /\
       emul (e_curve SECP256K1) (bi_val data) (e_base SECP256K1) = Some (x, y) /\ bi_val (px (pk_data pk)) = x /\ bi_val (py (pk_data pk)) = y).
Proof. exact @P_SecpApi.secp_private_key. Qed.
Print Assumptions C59_private_key.

(** * C60 *)
(** Signing never panics; a hash is refused exactly if it is empty, not of 32 bytes, or zero. *)
Theorem C60_sign_gates : forall (cfg : digit_cfg) D, secp256k1 = Ret D -> forall be fuel sk, code_sk sk -> sk_params sk = D ->
  forall rng, rng_ok rng -> forall hash, bytes hash ->
  let out := sign_default be fuel hash sk rng in
  out <> Panic /\
  (out = Ret (Err SEmptyHash) <-> hash = []) /\
  (out = Ret (Err SHashBitLength) <-> hash <> [] /\ length hash <> 32%nat) /\
  (out = Ret (Err SZeroHash) <-> length hash = 32%nat /\ be_val hash = 0).
Proof. exact @P_SecpApi.secp_sign_gates. Qed.
Print Assumptions C60_sign_gates.
(** What is returned is in range, has low s, verifies under the public key of the signer, and the signer's key is
    recovered from it: as the only key with the recovery id, as one of the keys without. *)
Theorem C60_signed : forall (cfg : digit_cfg) D, secp256k1 = Ret D -> forall be fuel sk, code_sk sk -> sk_params sk = D ->
  forall rng, rng_ok rng -> forall hash, bytes hash -> forall pk sg id,
  public_key_of sk = Ret pk -> sign_default be fuel hash sk rng = Ret (Ok (sg, id)) ->
  length hash = 32%nat /\ sig_params sg = D /\ code_sig sg /\
  1 <= bi_val (sig_r sg) <= n - 1 /\ 1 <= bi_val (sig_s sg) <= n / 2 /\
  verify hash sg pk = Ret (Ok true) /\
  (exists pk', recover sg hash (Some id) = Ret (Ok [pk']) /\ same_key pk' pk) /\
  (exists ks pk', recover sg hash None = Ret (Ok ks) /\ In pk' ks /\ same_key pk' pk).
Proof. exact @P_SecpApi.secp_signed. Qed.
Print Assumptions C60_signed.

(** * C61 *)
(** Verifying never panics; it refuses empty, zero and wrongly long hashes and otherwise answers whether the signature is
    valid for the key and the hash, by the textbook. *)
Theorem C61_verify : forall (cfg : digit_cfg) D, secp256k1 = Ret D -> forall pk sg hash,
  code_pk pk -> pk_params pk = D -> code_sig sg -> sig_params sg = D -> bytes hash ->
  let out := verify hash sg pk in
  (out = Ret (Err VEmptyHash) <-> hash = []) /\
  (out = Ret (Err VHashBitLength) <-> hash <> [] /\ length hash <> 32%nat) /\
  (out = Ret (Err VZeroHash) <-> length hash = 32%nat /\ be_val hash = 0) /\
  (length hash = 32%nat -> be_val hash <> 0 -> exists b : bool, out = Ret (Ok b) /\
     (b = true <-> ecdsa_valid SECP256K1 (pt_val (pk_data pk)) (be_val hash) (bi_val (sig_r sg)) (bi_val (sig_s sg)))).
Proof. exact @P_SecpApi.secp_verify. Qed.
Print Assumptions C61_verify.

(** * C62 *)
(** Recovery never panics; all recovered keys verify the signature, and without a recovery id all keys that do are recovered. *)
Theorem C62_recover : forall (cfg : digit_cfg) D, secp256k1 = Ret D -> forall sg hash id, code_sig sg -> sig_params sg = D -> bytes hash ->
  let out := recover sg hash id in
  (out = Ret (Err REmptyHash) <-> hash = []) /\
  (out = Ret (Err RHashBitLength) <-> hash <> [] /\ length hash <> 32%nat) /\
  (out = Ret (Err RZeroHash) <-> length hash = 32%nat /\ be_val hash = 0) /\
  (length hash = 32%nat -> be_val hash <> 0 -> exists ks, out = Ret (Ok ks) /\
     (forall pk, In pk ks -> code_pk pk /\ pk_params pk = D /\ verify hash sg pk = Ret (Ok true)) /\
     (id = None -> forall pk, code_pk pk -> pk_params pk = D -> verify hash sg pk = Ret (Ok true) -> exists pk', In pk' ks /\ same_key pk' pk)).
Proof. exact @P_SecpApi.secp_recover. Qed.
Print Assumptions C62_recover.

(** * C63 *)
(** Reading a key never panics, and accepts exactly the uncompressed form and a loose compressed form of points of the curve. *)
Theorem C63_decode_key : forall (cfg : digit_cfg) D, secp256k1 = Ret D -> forall data, bytes data ->
  exists r, from_sec1_hex data D = Ret r /\
    match r with
    | Ok pk => code_pk pk /\ pk_params pk = D /\ let x := bi_val (px (pk_data pk)) in let y := bi_val (py (pk_data pk)) in sec1 32 x y false data \/ loose_compressed 32 x y data
    | Err _ => forall x y, 0 <= x < p -> 0 <= y < p -> (y * y) mod p = (x * x * x + 7) mod p -> ~ (sec1 32 x y false data \/ loose_compressed 32 x y data)
    end.
Proof. exact @P_SecpApi.secp_decode. Qed.
Print Assumptions C63_decode_key.
(** A signature and its key can be sent as texts: what is read at the other end verifies.  (Keys that cannot be written: C37.) *)
Theorem C63_wire : forall (cfg : digit_cfg) D, secp256k1 = Ret D -> forall be fuel sk pk rng hash sg id compressed,
  code_sk sk -> sk_params sk = D -> rng_ok rng -> bytes hash -> public_key_of sk = Ret pk -> encodable pk ->
  sign_default be fuel hash sk rng = Ret (Ok (sg, id)) ->
  exists tk ts pk' sg', to_sec1_hex pk compressed = Ret tk /\ to_p1363_hex sg = Ret ts /\
    length tk = (if compressed then 66 else 130)%nat /\ length ts = 128%nat /\
    from_sec1_hex tk D = Ret (Ok pk') /\ from_p1363_hex ts D = Ret (Ok sg') /\ verify hash sg' pk' = Ret (Ok true).
Proof. exact @P_SecpApi.secp_wire. Qed.
Print Assumptions C63_wire.
(** The hypotheses hold together: the key 1 and its signature of the hash above. *)
Example wire_case : forall (cfg : digit_cfg) be, exists D dd pk fuel sg id, secp256k1 = Ret D /\ from_int 1 = Ret dd /\ code_sk (mkSk dd D) /\
  rng_ok (fun _ => Ret (Ok P_SecpKat.entropy0)) /\ bytes P_SecpKat.hash0 /\ public_key_of (mkSk dd D) = Ret pk /\ encodable pk /\
  sign_default be fuel P_SecpKat.hash0 (mkSk dd D) (fun _ => Ret (Ok P_SecpKat.entropy0)) = Ret (Ok (sg, id)).
Proof. exact P_SecpKat.kat_wire. Qed.

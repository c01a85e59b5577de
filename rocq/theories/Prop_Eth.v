(** Properties C49, C50 and the public keys of C52: signed transactions, and accounts.

    What is signed ([PREIMAGE]), the address ([ADDRESS]) and what it is to identify the
    sender ([identifies]) are in S_Eoa.v; [matching] (the public key of a private key) and
    the assumptions on curves are in S_Ecdsa.v and S_Sign.v. *)

From Verif Require Import Base M_BigInt M_Curve M_Hmac M_Random M_Ecdsa M_Rfc6979 M_Rlp M_EthTypes M_Tx M_Eoa M_TxSign.
From Verif Require Import S_BigInt S_Curve S_EcModel S_Ecdsa S_Sign S_Hash S_Rlp S_EthTypes S_Tx S_Eoa.
From Verif Require P_Eoa P_TxSign P_TxEx P_TxEx2 P_RlpInj.
Open Scope Z_scope.

(** * C52

    The address of a public key is the last 20 bytes of the hash of its coordinates. *)
Theorem C52_address_of_key : forall (cfg : digit_cfg) be D pk x y,
  secp256k1 = Ret D -> pk_params pk = D -> code_pk pk -> bi_val (px (pk_data pk)) = x -> bi_val (py (pk_data pk)) = y ->
  eoa_address be pk = Ret (ADDRESS x y) /\ bytes (ADDRESS x y) /\ length (ADDRESS x y) = 20%nat.
Proof. exact @P_Eoa.address_of_key. Qed.
Print Assumptions C52_address_of_key.

(** The private key of an account: 32 bytes, accepted exactly when the number is in [1, n - 1]. *)
Theorem C52_account : forall (cfg : digit_cfg) data, bytes data -> length data = 32%nat ->
  (1 <= be_val data <= e_order SECP256K1 - 1 -> exists D sk pk, secp256k1 = Ret D /\ eoa_private_key_new data = Ret (Some sk) /\
     code_sk sk /\ sk_params sk = D /\ bi_val (sk_data sk) = be_val data /\ eoa_public_key sk = Ret pk /\ matching sk pk /\ code_pk pk) /\
  (~ 1 <= be_val data <= e_order SECP256K1 - 1 -> eoa_private_key_new data = Ret None).
Proof. exact @P_Eoa.account_spec. Qed.
Print Assumptions C52_account.

Example C52_key_one : forall (cfg : digit_cfg) be, exists sk pk,
  eoa_private_key_new (repeat 0 31 ++ [1]) = Ret (Some sk) /\ eoa_public_key sk = Ret pk /\
  eoa_address be pk = Ret [0x7e; 0x5f; 0x45; 0x52; 0x09; 0x1a; 0x69; 0x12; 0x5d; 0x5d; 0xfc; 0xb7; 0xb8; 0xc2; 0x65; 0x90; 0x29; 0x39; 0x5b; 0xdf].
Proof. exact @P_TxEx.address_of_one. Qed.

(** * C49

    Signing a payload signs the hash of its pre-image, with the options given; the
    transaction has the payload, the r and s of that signature and the parity of its
    recovery id.  It fails, or does not return, exactly as signing that hash does. *)
Theorem C49_signed : forall (cfg : digit_cfg) be fuel rng, rng_ok rng ->
  forall sk, code_sk sk -> nbits (order (sk_params sk)) < 2 ^ 60 -> forall o p m, payload_ok p -> PREIMAGE p = Some m ->
  let out := sign_payload be fuel rng p sk o in
  match sign_with_options be fuel (KECCAK256 m) sk o rng with
  | Ret (Ok (sg, id)) => exists t, out = Ret (Ok t) /\ tx_payload t = p /\ tx_r t = sig_r sg /\ tx_s t = sig_s sg /\ has_parity t (recid_u8 id mod 2) /\ tx_ok t
  | Ret (Err e) => out = Ret (Err (SigningError e))
  | Panic => out = Panic
  | OutOfFuel => out = OutOfFuel
  end.
Proof. exact @P_TxSign.sign_payload_spec. Qed.
Print Assumptions C49_signed.

(** On a small curve a payload is signed, whatever the source of randomness. *)
Example C49_witness : forall (cfg : digit_cfg) be low rng, rng_ok rng -> exists sk pk p m fuel t,
  code_sk sk /\ public_key_of sk = Ret pk /\ nbits (order (sk_params sk)) < 2 ^ 60 /\ recoverable (sk_params sk) /\ covers (sk_params sk) /\ d_cofactor (sk_params sk) = 1 /\
  payload_ok p /\ PREIMAGE p = Some m /\ sign_payload be fuel rng p sk (mkSO low false false false) = Ret (Ok t).
Proof. exact @P_TxEx.toy3_signs70. Qed.

(** * C50

    On any curve with cofactor 1: from the hash, r, s and a recovery id with the parity
    of the transaction comes the sender's key.  The parity is the recovery id unless
    r < p - n.  Missing: for those r, which of the two ids it is. *)
Theorem C50_any_curve_partial : forall (cfg : digit_cfg) be fuel rng p sk o m pk t r s ro,
  code_sk sk -> public_key_of sk = Ret pk -> rng_ok rng -> let D := sk_params sk in
  nbits (order D) < 2 ^ 60 -> recoverable D -> covers D -> d_cofactor D = 1 -> (ro_strict ro = true -> strict_ok (order D) (KECCAK256 m)) ->
  payload_ok p -> PREIMAGE p = Some m -> so_zero o = false -> sign_payload be fuel rng p sk o = Ret (Ok t) ->
  wf r -> wf s -> bi_val r = bi_val (tx_r t) -> bi_val s = bi_val (tx_s t) ->
  exists sg id pk', signature_new r s D = Ret (Some sg) /\ has_parity t (recid_u8 id mod 2) /\
    (bi_val (c_p (d_curve D)) - order D <= bi_val (tx_r t) -> recid_u8 id < 2) /\
    recover_with_options sg (KECCAK256 m) (Some id) ro = Ret (Ok [pk']) /\
    pk_params pk' = D /\ code_pk pk' /\ pt_val (pk_data pk') = pt_val (pk_data pk).
Proof. exact @P_TxSign.sender_any. Qed.
Print Assumptions C50_any_curve_partial.

(** On secp256k1, with the address. *)
Theorem C50_sender_partial : forall (cfg : digit_cfg) be fuel rng p sk o m D pk t,
  secp256k1 = Ret D -> code_sk sk -> sk_params sk = D -> public_key_of sk = Ret pk -> rng_ok rng ->
  payload_ok p -> PREIMAGE p = Some m -> so_zero o = false -> sign_payload be fuel rng p sk o = Ret (Ok t) ->
  identifies be D t pk.
Proof. exact @P_TxSign.sender_of. Qed.
Print Assumptions C50_sender_partial.

(** Also after the transaction has been encoded and decoded, except for EIP-155, where
    decoding gives another chain id (C48). *)
Theorem C50_decoded_partial : forall (cfg : digit_cfg) dbg be fuel rng p sk o m D pk t s,
  secp256k1 = Ret D -> code_sk sk -> sk_params sk = D -> public_key_of sk = Ret pk -> rng_ok rng ->
  payload_ok p -> PREIMAGE p = Some m -> so_zero o = false -> sign_payload be fuel rng p sk o = Ret (Ok t) ->
  RLP (tx_item t) = Some s -> Z.of_nat (length s) < 2 ^ 63 -> kind_of p <> K155 ->
  encode_transaction t = Ret s /\
  exists t', decode_transaction dbg (kind_of p) s = Ret (Ok t') /\ PREIMAGE (tx_payload t') = Some m /\ identifies be D t' pk.
Proof. exact @P_TxSign.decoded_sender. Qed.
Print Assumptions C50_decoded_partial.

(** For r < p - n the transaction does not tell who sent it: on a curve of 181 points modulo 199, here is a signed transaction
    whose parity, taken as the recovery id, leads to a key, but not to the sender's. *)
Theorem C50_refuted : forall (cfg : digit_cfg) be rng, rng_ok rng -> exists sk pk p m fuel t sg,
  code_sk sk /\ public_key_of sk = Ret pk /\ d_cofactor (sk_params sk) = 1 /\
  payload_ok p /\ PREIMAGE p = Some m /\ sign_payload be fuel rng p sk (mkSO true false false false) = Ret (Ok t) /\
  signature_new (tx_r t) (tx_s t) (sk_params sk) = Ret (Some sg) /\
  (exists id, has_parity t (recid_u8 id)) /\
  (forall id, has_parity t (recid_u8 id) -> exists ks, recover_with_options sg (KECCAK256 m) (Some id) (mkRO false) = Ret (Ok ks) /\
     ks <> [] /\ forall pk', In pk' ks -> pt_val (pk_data pk') <> pt_val (pk_data pk)).
Proof. exact P_TxEx2.parity_misleads. Qed.
Print Assumptions C50_refuted.

(** * C64

    What is signed determines the transaction: two payloads have the same pre-image exactly if they are of the same
    kind and agree in every field, the chain id included (a legacy payload has none, and is not signed as any other kind). *)
Theorem C64_preimage : forall (cfg : digit_cfg) p q m m', payload_ok p -> payload_ok q -> PREIMAGE p = Some m -> PREIMAGE q = Some m' ->
  (m = m' <-> payload_same p q).
Proof. exact @P_RlpInj.preimage_iff. Qed.
Print Assumptions C64_preimage.
(** The same payment on chains 1 and 5. *)
Example C64_witness : forall cfg : digit_cfg, let p := P_RlpInj.payload_on 1 in let q := P_RlpInj.payload_on 5 in
  payload_ok p /\ payload_ok q /\ ~ payload_same p q /\ exists m m', PREIMAGE p = Some m /\ PREIMAGE q = Some m' /\ length m = 32%nat.
Proof. exact P_RlpInj.payload_on_ok. Qed.

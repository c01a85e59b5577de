(** Properties C35 - C38 and the decoding part of C27: keys in SEC 1 form and signatures in P1363 form, as hexadecimal text.

    S_Encoding.v gives the formats: [hex_number L s v] says that the text [s] is [L] bytes in hexadecimal with value [v],
    [sec1 L x y compressed t] that [t] is the SEC 1 text of (x, y), [p1363 L r s t] that [t] is r followed by s.
    [nbytes n] is the number of bytes of the order. *)

From Verif Require Import Base M_BigInt M_Curve M_Ecdsa M_Encoding S_BigInt S_Curve S_EcModel S_Ecdsa S_Encoding.
From Verif Require P_EncodingProp.
Open Scope Z_scope.

(** The hypotheses hold for the base point of secp256k1; and here are some texts, for (5, 1) on a curve of 19 points:
    "0305", "040501", and "03+05", which is accepted too. *)
Example secp256k1_key : forall cfg : digit_cfg, exists D pk, secp256k1 = Ret D /\ pk_params pk = D /\ code_pk pk /\ encodable pk /\ no_order_two D /\ nbytes (order D) = 32%nat.
Proof. exact P_EncodingProp.example_secp_base. Qed.
Example small_key : forall cfg : digit_cfg, exists D pk, code_params D /\ no_order_two D /\ code_pk pk /\ encodable pk /\ pk_params pk = D /\
  to_sec1_hex pk true = Ret [48; 51; 48; 53] /\ to_sec1_hex pk false = Ret [48; 52; 48; 53; 48; 49] /\
  from_sec1_hex [48; 51; 43; 48; 53] D = Ret (Ok pk).
Proof. exact P_EncodingProp.example_small_texts. Qed.

(** * C35 *)
Theorem C35_sec1_roundtrip : forall (cfg : digit_cfg) pk compressed, code_pk pk -> encodable pk ->
  let L := nbytes (order (pk_params pk)) in let P := pk_data pk in
  exists t pk', to_sec1_hex pk compressed = Ret t /\ sec1 L (bi_val (px P)) (bi_val (py P)) compressed t /\ lower_case t /\
    length t = (if compressed then 2 + 2 * L else 2 + 4 * L)%nat /\
    from_sec1_hex t (pk_params pk) = Ret (Ok pk') /\ same_key pk' pk.
Proof. exact @P_EncodingProp.sec1_roundtrip. Qed.
Print Assumptions C35_sec1_roundtrip.

(** * C36 *)
(** Where decoding does not panic, it accepts exactly the uncompressed form and a loose compressed form of valid keys.
    Missing: the exact length of the compressed form; the panics. *)
Theorem C36_decode_partial : forall (cfg : digit_cfg) D data, code_params D -> bytes data ->
  let L := nbytes (order D) in
  (sec1_panics (params_val D) data -> from_sec1_hex data D = Panic) /\
  (~ sec1_panics (params_val D) data -> exists r, from_sec1_hex data D = Ret r /\
    match r with
    | Ok pk => code_pk pk /\ pk_params pk = D /\
        exists x y, bi_val (px (pk_data pk)) = x /\ bi_val (py (pk_data pk)) = y /\ (sec1 L x y false data \/ loose_compressed L x y data)
    | Err _ => forall x y, valid_public (params_val D) x y -> ~ (sec1 L x y false data \/ loose_compressed L x y data)
    end).
Proof. exact @P_EncodingProp.sec1_decode_all. Qed.
Print Assumptions C36_decode_partial.
(** Exactly when decoding panics: a point of order two turns up ([sec1_panics] in S_Encoding.v); so never on a curve without. *)
Theorem C36_panics : forall (cfg : digit_cfg) D data, code_params D -> bytes data -> (from_sec1_hex data D = Panic <-> sec1_panics (params_val D) data).
Proof. exact @P_EncodingProp.sec1_panic_iff. Qed.
Print Assumptions C36_panics.
Theorem C36_no_panic_partial : forall (cfg : digit_cfg) D data, code_params D -> no_order_two D -> bytes data -> from_sec1_hex data D <> Panic.
Proof. exact @P_EncodingProp.sec1_no_panic. Qed.
Print Assumptions C36_no_panic_partial.
(** Among the texts of the right length, each key has one compressed form, up to case. *)
Theorem C36_right_length_partial : forall (cfg : digit_cfg) D data pk, code_params D -> bytes data ->
  let L := nbytes (order D) in length data = (2 + 2 * L)%nat -> from_sec1_hex data D = Ret (Ok pk) ->
  sec1 L (bi_val (px (pk_data pk))) (bi_val (py (pk_data pk))) true data.
Proof. exact @P_EncodingProp.sec1_exact_length. Qed.
Print Assumptions C36_right_length_partial.
Theorem C36_one_form_partial : forall (cfg : digit_cfg) D t t' pk pk', code_params D -> bytes t -> bytes t' ->
  let L := nbytes (order D) in length t = (2 + 2 * L)%nat -> length t' = (2 + 2 * L)%nat ->
  from_sec1_hex t D = Ret (Ok pk) -> from_sec1_hex t' D = Ret (Ok pk') -> same_key pk pk' -> to_lower t = to_lower t'.
Proof. exact @P_EncodingProp.sec1_one_form. Qed.
Print Assumptions C36_one_form_partial.
(** But every encodable key is also accepted with any number of superfluous zero bytes before the abscissa. *)
Theorem C36_length_refuted : forall (cfg : digit_cfg) pk, code_pk pk -> encodable pk -> forall k, exists t pk',
  to_sec1_hex pk true = Ret (firstn 2 t ++ skipn (2 + 2 * k) t) /\ length t = (2 + 2 * (nbytes (order (pk_params pk)) + k))%nat /\
  from_sec1_hex t (pk_params pk) = Ret (Ok pk') /\ same_key pk' pk.
Proof. exact @P_EncodingProp.sec1_many_forms. Qed.
Print Assumptions C36_length_refuted.
(** And on a curve with the point (3, 0) of order two, decoding the text "0203" panics, ... *)
Theorem C36_panic_refuted : forall cfg : digit_cfg, exists D, code_params D /\ from_sec1_hex [48; 50; 48; 51] D = Panic.
Proof. exact P_EncodingProp.example_decode_panics. Qed.
Print Assumptions C36_panic_refuted.
(** ... as does decoding "040300" and "02-0e" (p is 17); "0204" is decoded. *)
Example C36_witness : forall cfg : digit_cfg, exists D pk, code_params D /\ ~ no_order_two D /\ from_sec1_hex [48; 50; 48; 52] D = Ret (Ok pk) /\
  from_sec1_hex [48; 52; 48; 51; 48; 48] D = Panic /\ from_sec1_hex [48; 50; 45; 48; 101] D = Panic.
Proof. exact P_EncodingProp.example_decode_two. Qed.

(** * C37 *)
(** A valid key can be encoded if both coordinates are in [1, n - 1].  Missing: the other valid keys, on which encoding panics. *)
Theorem C37_encode_partial : forall (cfg : digit_cfg) pk compressed, code_pk pk ->
  (encodable pk -> exists t, to_sec1_hex pk compressed = Ret t) /\ (~ encodable pk -> to_sec1_hex pk compressed = Panic).
Proof. exact @P_EncodingProp.sec1_encode_iff. Qed.
Print Assumptions C37_encode_partial.
(** There are such keys on secp256k1 itself. *)
Theorem C37_refuted : forall cfg : digit_cfg, exists D pk, secp256k1 = Ret D /\ public_key_new (pk_data pk) D = Ret (Some pk) /\ code_pk pk /\
  forall compressed, to_sec1_hex pk compressed = Panic.
Proof. exact P_EncodingProp.example_encode_panics. Qed.
Print Assumptions C37_refuted.

(** * C38 *)
Theorem C38_p1363_roundtrip : forall (cfg : digit_cfg) sg, code_sig sg ->
  let L := nbytes (order (sig_params sg)) in
  exists t sg', to_p1363_hex sg = Ret t /\ p1363 L (bi_val (sig_r sg)) (bi_val (sig_s sg)) t /\ lower_case t /\ length t = (4 * L)%nat /\
    from_p1363_hex t (sig_params sg) = Ret (Ok sg') /\ same_signature sg' sg.
Proof. exact @P_EncodingProp.p1363_roundtrip. Qed.
Print Assumptions C38_p1363_roundtrip.
Theorem C38_p1363_decode : forall (cfg : digit_cfg) D data, code_params D -> bytes data ->
  exists res, from_p1363_hex data D = Ret res /\
    match res with
    | Ok sg => code_sig sg /\ sig_params sg = D /\ p1363 (nbytes (order D)) (bi_val (sig_r sg)) (bi_val (sig_s sg)) data
    | Err _ => forall r s, p1363 (nbytes (order D)) r s data -> ~ (1 <= r <= order D - 1 /\ 1 <= s <= order D - 1)
    end.
Proof. exact @P_EncodingProp.p1363_accepts. Qed.
Print Assumptions C38_p1363_decode.

(** * C27, decoding *)
Theorem C27_decoding : forall (cfg : digit_cfg) D data, code_params D -> bytes data ->
  exists res, from_p1363_hex data D = Ret res /\
    match res with
    | Ok sg => code_sig sg /\ sig_params sg = D /\ p1363 (nbytes (order D)) (bi_val (sig_r sg)) (bi_val (sig_s sg)) data
    | Err _ => forall r s, p1363 (nbytes (order D)) r s data -> ~ (1 <= r <= order D - 1 /\ 1 <= s <= order D - 1)
    end.
Proof. exact @P_EncodingProp.p1363_accepts. Qed.
Print Assumptions C27_decoding.

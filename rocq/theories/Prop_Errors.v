(** C79: errors say what is wrong.

    [good_messages possible message]: the messages of the possible errors are printable, not empty, and tell the errors apart.
    [fails_with message call m]: the call returns an error whose message is [m].  S_Errors.v says, in words, what is wrong with
    a text that is not decoded. *)

From Coq Require Import String.
From Verif Require Import Base M_Codec M_BigInt M_BigText M_Random M_Curve M_Ecdsa M_Hmac M_Rfc6979 M_Encoding M_Rlp M_Ssz M_Tx M_TxSign M_Examples M_Errors
  S_BigInt S_Codec S_EcModel S_Hash S_Ecdsa S_Rfc6979 S_Sign S_Encoding S_Display S_Errors.
From Verif Require P_Hash P_Errors.
Open Scope Z_scope.
Local Open Scope list_scope.

Theorem C79_messages :
  good_messages (fun _ => True) codecs_error_display /\ good_messages (fun _ => True) parse_int_error_display /\
  good_messages (fun _ => True) point_error_display /\ good_messages (fun _ => True) signature_error_display /\
  good_messages (fun _ => True) verifying_error_display /\ good_messages (fun _ => True) recovery_error_display /\
  good_messages (fun _ => True) decoding_error_display /\ good_messages (fun _ => True) ssz_error_display /\
  good_messages random_error_ok random_error_display /\ good_messages nonce_error_ok nonce_error_display /\
  good_messages signing_error_ok signing_error_display /\ good_messages building_error_ok building_error_display.
Proof.
  exact (conj P_Errors.codecs_messages (conj P_Errors.parse_messages (conj P_Errors.point_messages (conj P_Errors.signature_messages
    (conj P_Errors.verifying_messages (conj P_Errors.recovery_messages (conj P_Errors.rlp_messages (conj P_Errors.ssz_messages
    (conj P_Errors.random_messages (conj P_Errors.nonce_messages (conj P_Errors.signing_messages P_Errors.building_messages))))))))))).
Qed.
Print Assumptions C79_messages.
(** The other texts that can be pinned down, and errors inside of errors. *)
Theorem C79_wrapped :
  (forall e, nonce_error_display (FailedToGenerateRandomBytes e) = ascii "Failed to generate random bytes: " ++ random_error_display e) /\
  (forall e, signing_error_display (SFailedToGenerateNonce e) = ascii "Failed to generate deterministic nonce: " ++ nonce_error_display e) /\
  (forall e, building_error_display (inr (SigningError e)) = ascii "Signing error: " ++ signing_error_display e) /\
  building_error_display (inl MissingFields) = ascii "Some fields are missing" /\
  ssz_error_display SszInvalidFormat = ascii "Invalid format".
Proof. exact P_Errors.wrapped. Qed.
Print Assumptions C79_wrapped.

Theorem C79_hex : forall (cfg : digit_cfg) s m, bytes s -> (fails_with parse_int_error_display (bi_from_hex s) m <-> hex_error s m).
Proof. exact @P_Errors.from_hex_error. Qed.
Print Assumptions C79_hex.
Theorem C79_unsigned_hex : forall (cfg : digit_cfg) s m, bytes s -> (fails_with parse_int_error_display (bu_from_hex s) m <-> unsigned_hex_error s m).
Proof. exact @P_Errors.bu_hex_error. Qed.
Print Assumptions C79_unsigned_hex.
(** [reads_as]: see C08. *)
Theorem C79_radix : forall (cfg : digit_cfg) s radix m, 0 <= radix < 256 -> 2 <= radix <= 36 \/ debug_checks cfg = false ->
  (fails_with parse_int_error_display (bi_from_str_radix s radix) m <-> m = ascii "Invalid input" /\ forall v, ~ reads_as radix s v).
Proof. exact @P_Errors.radix_error. Qed.
Print Assumptions C79_radix.
(** [sec1_panics]: see C36. *)
Theorem C79_keys : forall (cfg : digit_cfg) D, code_params D -> forall data m, bytes data ->
  (fails_with point_error_display (from_sec1_hex data D) m <-> sec1_error (params_val D) data m /\ ~ sec1_panics (params_val D) data).
Proof. exact @P_Errors.sec1_error_iff. Qed.
Print Assumptions C79_keys.
Theorem C79_signatures : forall (cfg : digit_cfg) D, code_params D -> forall data m, bytes data ->
  (fails_with signature_error_display (from_p1363_hex data D) m <-> p1363_error (order D) data m).
Proof. exact @P_Errors.p1363_error_iff. Qed.
Print Assumptions C79_signatures.

(** Hashes that are refused; [strict_usable] as in C33. *)
Theorem C79_sign : forall (cfg : digit_cfg) be nm sk fuel hash o rng (st : h_state (hasher_of be nm)),
  code_sk sk -> nbits (order (sk_params sk)) < 2 ^ 60 -> bytes hash -> rng_ok rng -> obj nm be st ->
  (so_strict o = true -> strict_usable cfg (order (sk_params sk))) ->
  let fails := fails_with signing_error_display (sign_with_hasher (hasher_of be nm) fuel hash sk o rng st) in
  let n := order (sk_params sk) in let right_length := 8 * Z.of_nat (length hash) = nbits n in
  (fails (ascii "Empty hash is not allowed") <-> hash = []) /\
  (fails (ascii "Hash length in bits doesn't equal to the order of the base point in bits") <-> hash <> [] /\ so_strict o = true /\ ~ right_length) /\
  (fails (ascii "Zero hash is not allowed") <-> hash <> [] /\ (so_strict o = true -> right_length) /\ so_zero o = false /\ hash_int n hash = 0).
Proof. exact @P_Errors.sign_messages. Qed.
Print Assumptions C79_sign.
Theorem C79_verify : forall (cfg : digit_cfg) pk sg hash o, code_pk pk -> code_sig sg -> sig_params sg = pk_params pk -> bytes hash ->
  (vo_strict o = true -> strict_usable cfg (order (pk_params pk))) ->
  let fails := fails_with verifying_error_display (verify_with_options hash sg pk o) in
  let n := order (pk_params pk) in let right_length := 8 * Z.of_nat (length hash) = nbits n in let low := bi_val (sig_s sg) <= n / 2 in
  (fails (ascii "Empty hash is not allowed") <-> hash = []) /\
  (fails (ascii "A ""high s"" is found when ""low s"" is enforced") <-> hash <> [] /\ vo_low_s o = true /\ ~ low) /\
  (fails (ascii "Hash length in bits doesn't equal to the order of the base point in bits") <-> hash <> [] /\ (vo_low_s o = true -> low) /\ vo_strict o = true /\ ~ right_length) /\
  (fails (ascii "Zero hash is not allowed") <-> hash <> [] /\ (vo_low_s o = true -> low) /\ (vo_strict o = true -> right_length) /\ hash_int n hash = 0).
Proof. exact @P_Errors.verify_messages. Qed.
Print Assumptions C79_verify.
(** Recovery never says "Invalid Signature". *)
Theorem C79_recover : forall (cfg : digit_cfg) sg hash id o, code_sig sg -> 0 <= d_cofactor (sig_params sg) < 2 ^ 32 -> bytes hash ->
  (ro_strict o = true -> strict_usable cfg (order (sig_params sg))) ->
  let fails := fails_with recovery_error_display (recover_with_options sg hash id o) in
  let n := order (sig_params sg) in let right_length := 8 * Z.of_nat (length hash) = nbits n in
  (fails (ascii "Empty hash is not allowed") <-> hash = []) /\
  (fails (ascii "Hash length in bits doesn't equal to the order of the base point in bits") <-> hash <> [] /\ ro_strict o = true /\ ~ right_length) /\
  (fails (ascii "Zero hash is not allowed") <-> hash <> [] /\ (ro_strict o = true -> right_length) /\ hash_int n hash = 0) /\
  ~ fails (ascii "Invalid Signature").
Proof. exact @P_Errors.recover_messages. Qed.
Print Assumptions C79_recover.

(** All of the errors of the decoders, on a curve of 19 points; an error of the operating system on its way out.  For keys,
    signatures and hashers that meet the other hypotheses see C27 and C33. *)
Example C79_witness : forall cfg : digit_cfg, exists D, code_params D /\ nbytes (order D) = 1%nat /\
  let key t := fails_with point_error_display (from_sec1_hex (ascii t) D) in
  let sig t := fails_with signature_error_display (from_p1363_hex (ascii t) D) in
  let num t := fails_with parse_int_error_display (bi_from_hex (ascii t)) in
  key "0405"%string (ascii "Invalid format") /\ key "04+501"%string (ascii "Invalid x") /\ key "0405-1"%string (ascii "Invalid y") /\ key "0201"%string (ascii "Y not found") /\
  key "040502"%string (ascii "Invalid point") /\ key "0316"%string (ascii "Invalid point") /\ sig "05"%string (ascii "Invalid format") /\ sig "0500"%string (ascii "Invalid signature") /\
  num "-"%string (ascii "Invalid input") /\ num "-123"%string (ascii "Codecs error: Not 1-byte aligned") /\ num "0x"%string (ascii "Codecs error: Invalid char found").
Proof. exact P_Errors.example_errors. Qed.
Example C79_witness_os : signing_error_display (SFailedToGenerateNonce (FailedToGenerateRandomBytes (LinuxGetRandom 38))) =
    ascii "Failed to generate deterministic nonce: Failed to generate random bytes: getrandom failed with errno 38" /\
  signing_error_ok (SFailedToGenerateNonce (FailedToGenerateRandomBytes (LinuxGetRandom 38))).
Proof. exact P_Errors.example_os_errors. Qed.

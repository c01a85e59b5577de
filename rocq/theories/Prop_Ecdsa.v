(** Properties C25 - C34: keys, signing, verification, public key recovery and the deterministic nonce.

    S_Ecdsa.v is the textbook ([ecdsa_sign], [ecdsa_valid], [hash_int]: the leftmost bits of the hash) and says what the
    program's values denote: [code_params] sound curve parameters, [code_sk], [code_pk], [code_sig] valid keys and
    signatures on them.  S_Rfc6979.v is the RFC.  S_Sign.v has the remaining words: [rng_ok] a random source that
    returns 32 bytes or an error, [recoverable] no points of order two, [covers] p <= (h + 1) n.
    [be] is the byte order of the machine, [nm] the hash function of the HMAC, [obj] any state a hasher object can be in.
    [fuel] bounds the number of rounds of the unbounded loops by 2^fuel. *)

From Verif Require Import Base M_BigInt M_Curve M_Hmac M_Random M_Ecdsa M_Rfc6979 S_BigInt S_Curve S_EcModel S_Hash S_Sha2 S_Ecdsa S_Recover S_Rfc6979 S_Sign.
From Verif Require P_EcdsaProp P_EcdsaProp2 P_EcdsaEx P_EcdsaSecp P_EcEx P_SignExact P_RecoverNoDup P_RecoverEx.
Open Scope Z_scope.

(** The hypotheses on parameters hold for secp256k1 (with 32-byte hashes) and for a curve of 137 points. *)
Example secp256k1_params : forall cfg : digit_cfg, exists D, secp256k1 = Ret D /\ code_params D /\ nbits (order D) < 2 ^ 60 /\ recoverable D /\ covers D /\
  (forall hash, length hash = 32%nat -> strict_ok (order D) hash).
Proof. exact P_EcdsaSecp.secp_sign_ok. Qed.
(** Signing, verifying and recovering do take place: the key 5 signs the hash [137] there. *)
Example small_signature : forall (cfg : digit_cfg) be h low zero rng, h = 137 \/ (h = 0 /\ zero = true) -> rng_ok rng ->
  exists sk pk, code_sk sk /\ public_key_of sk = Ret pk /\ nbits (order (sk_params sk)) < 2 ^ 60 /\ recoverable (sk_params sk) /\ covers (sk_params sk) /\
    strict_ok (order (sk_params sk)) [h] /\ hash_int (order (sk_params sk)) [h] = h /\
    exists fuel sg id, sign_with_options be fuel [h] sk (mkSO low true false zero) rng = Ret (Ok (sg, id)).
Proof. exact P_EcdsaEx.toy3_signs. Qed.

(** * C25 *)
(** With cofactor 1, on any curve parameters at all. *)
Theorem C25_public_key_new : forall (cfg : digit_cfg) D P, wf_curve (d_curve D) -> wf_point P -> d_cofactor D = 1 ->
  exists b : bool, public_key_new P D = Ret (if b then Some (mkPk P D) else None) /\
    (b = true <-> valid_public (params_val D) (bi_val (px P)) (bi_val (py P))).
Proof. exact @P_EcdsaProp.public_key_new1. Qed.
Print Assumptions C25_public_key_new.
(** With any cofactor.  Missing: points P of the curve such that P, 2P, 4P, ... (the factors up to n) has a point of order
    two ([doubles_two] in S_Recover.v). *)
Theorem C25_public_key_new_partial : forall (cfg : digit_cfg) D P, code_params D -> wf_point P ->
  ~ (d_cofactor D <> 1 /\ on_curve (curve_val (d_curve D)) (pt_val P) /\ doubles_two (curve_val (d_curve D)) (order D) (pt_val P)) ->
  exists b : bool, public_key_new P D = Ret (if b then Some (mkPk P D) else None) /\
    (b = true <-> valid_public (params_val D) (bi_val (px P)) (bi_val (py P))).
Proof. exact @P_EcdsaProp.public_key_newh. Qed.
Print Assumptions C25_public_key_new_partial.
(** On those, and no others, the constructor panics. *)
Theorem C25_panics : forall (cfg : digit_cfg) D P, code_params D -> wf_point P ->
  (public_key_new P D = Panic <-> d_cofactor D <> 1 /\ on_curve (curve_val (d_curve D)) (pt_val P) /\ doubles_two (curve_val (d_curve D)) (order D) (pt_val P)).
Proof. exact @P_EcdsaProp.public_key_panics. Qed.
Print Assumptions C25_panics.
(** There are such points. *)
Theorem C25_refuted : forall cfg : digit_cfg, exists D P, code_params D /\ wf_point P /\ public_key_new P D = Panic.
Proof. exact P_EcdsaEx.example_key_panics. Qed.
Print Assumptions C25_refuted.

(** * C26 *)
Theorem C26_private_key_new : forall (cfg : digit_cfg) D data, wf data -> wf (d_order D) ->
  exists b : bool, private_key_new data D = Ret (if b then Some (mkSk data D) else None) /\ (b = true <-> 1 <= bi_val data <= order D - 1).
Proof. exact @P_EcdsaProp.private_key_new_full. Qed.
Print Assumptions C26_private_key_new.
Theorem C26_public_key : forall (cfg : digit_cfg) sk, code_sk sk -> exists pk, public_key_of sk = Ret pk /\ matching sk pk /\ code_pk pk.
Proof. exact @P_EcdsaProp.public_key_of_full. Qed.
Print Assumptions C26_public_key.

(** * C27 *)
Theorem C27_signing : forall (cfg : digit_cfg) be nm sk fuel hash o rng (st : h_state (hasher_of be nm)) sg id,
  code_sk sk -> nbits (order (sk_params sk)) < 2 ^ 60 -> bytes hash -> rng_ok rng -> obj nm be st ->
  sign_with_hasher (hasher_of be nm) fuel hash sk o rng st = Ret (Ok (sg, id)) ->
  sig_params sg = sk_params sk /\ 1 <= bi_val (sig_r sg) <= order (sk_params sk) - 1 /\ 1 <= bi_val (sig_s sg) <= order (sk_params sk) - 1 /\
  (so_low_s o = true -> bi_val (sig_s sg) <= order (sk_params sk) / 2).
Proof. exact @P_EcdsaProp.sign_ranges. Qed.
Print Assumptions C27_signing.
(** They are the ECDSA signature and recovery id for the nonce of RFC 6979 (with the additional data of the attempt, if any)
    and the leftmost bits of the hash, s being replaced by n - s if low s is asked for and s > n/2. *)
Theorem C27_made_from : forall (cfg : digit_cfg) be nm sk fuel hash o rng (st : h_state (hasher_of be nm)) sg id,
  code_sk sk -> nbits (order (sk_params sk)) < 2 ^ 60 -> bytes hash -> rng_ok rng -> obj nm be st ->
  sign_with_hasher (hasher_of be nm) fuel hash sk o rng st = Ret (Ok (sg, id)) ->
  exists i k, nonce_of_attempt nm (order (sk_params sk)) (bi_val (sk_data sk)) hash o rng i k /\
    signature_of (params_val (sk_params sk)) (so_low_s o) (bi_val (sk_data sk)) (hash_int (order (sk_params sk)) hash) k
      (bi_val (sig_r sg)) (bi_val (sig_s sg)) (recid_u8 id).
Proof. exact @P_EcdsaProp2.sign_made_from. Qed.
Print Assumptions C27_made_from.
Theorem C27_signature_new : forall (cfg : digit_cfg) D r s, wf r -> wf s -> wf (d_order D) ->
  exists b : bool, signature_new r s D = Ret (if b then Some (mkSig r s D) else None) /\
    (b = true <-> (1 <= bi_val r <= order D - 1 /\ 1 <= bi_val s <= order D - 1)).
Proof. exact @P_EcdsaProp.signature_new_full. Qed.
Print Assumptions C27_signature_new.

(** * C28 *)
Theorem C28_sign_verify : forall (cfg : digit_cfg) be fuel hash sk pk rng sg id,
  code_sk sk -> public_key_of sk = Ret pk -> nbits (order (sk_params sk)) < 2 ^ 60 -> bytes hash -> rng_ok rng ->
  sign_default be fuel hash sk rng = Ret (Ok (sg, id)) -> verify hash sg pk = Ret (Ok true).
Proof. exact @P_EcdsaProp.sign_verify_default. Qed.
Print Assumptions C28_sign_verify.
(** Any options on both sides that agree.  Missing from the full property: hashes that are zero. *)
Theorem C28_options_partial : forall (cfg : digit_cfg) be nm sk pk fuel hash o vo rng (st : h_state (hasher_of be nm)) sg id,
  code_sk sk -> matching sk pk -> nbits (order (sk_params sk)) < 2 ^ 60 -> bytes hash -> rng_ok rng -> obj nm be st ->
  sign_with_hasher (hasher_of be nm) fuel hash sk o rng st = Ret (Ok (sg, id)) ->
  hash_int (order (sk_params sk)) hash <> 0 ->
  (vo_low_s vo = true -> so_low_s o = true) -> (vo_strict vo = true -> strict_ok (order (sk_params sk)) hash) ->
  accepted hash sg pk vo.
Proof. exact @P_EcdsaProp.sign_verify. Qed.
Print Assumptions C28_options_partial.
(** A zero hash can be signed (with the option for it), but no options make the signature acceptable. *)
Theorem C28_zero_hash_refuted : forall (cfg : digit_cfg) be low rng vo, rng_ok rng -> exists sk pk fuel sg id,
  code_sk sk /\ public_key_of sk = Ret pk /\ sign_with_options be fuel [0] sk (mkSO low true false true) rng = Ret (Ok (sg, id)) /\
  ~ accepted [0] sg pk vo.
Proof. exact P_EcdsaEx.example_zero_hash. Qed.
Print Assumptions C28_zero_hash_refuted.

(** * C29 *)
Theorem C29_verify : forall (cfg : digit_cfg) pk sg hash o, code_pk pk -> code_sig sg -> sig_params sg = pk_params pk -> bytes hash ->
  let n := order (pk_params pk) in
  accepted hash sg pk o <->
    (hash <> [] /\ (vo_low_s o = true -> bi_val (sig_s sg) <= n / 2) /\ (vo_strict o = true -> strict_ok n hash) /\ hash_int n hash <> 0 /\
     ecdsa_valid (params_val (pk_params pk)) (pt_val (pk_data pk)) (hash_int n hash) (bi_val (sig_r sg)) (bi_val (sig_s sg))).
Proof. exact @P_EcdsaProp.verify_true. Qed.
Print Assumptions C29_verify.

(** * C30 *)
Theorem C30_malleability : forall (cfg : digit_cfg) pk sg sg' hash o, code_pk pk -> code_sig sg -> code_sig sg' -> sig_params sg = pk_params pk -> sig_params sg' = pk_params pk ->
  bytes hash -> bi_val (sig_r sg') = bi_val (sig_r sg) -> bi_val (sig_s sg') = order (pk_params pk) - bi_val (sig_s sg) ->
  (vo_low_s o = false -> verify_with_options hash sg' pk o = verify_with_options hash sg pk o) /\
  (vo_low_s o = true -> hash <> [] ->
     (exists hi lo, (hi = sg /\ lo = sg' \/ hi = sg' /\ lo = sg) /\ order (pk_params pk) / 2 < bi_val (sig_s hi) /\ bi_val (sig_s lo) <= order (pk_params pk) / 2 /\
        verify_with_options hash hi pk o = Ret (Err VStrictHighS) /\
        verify_with_options hash lo pk o = verify_with_options hash sg pk (mkVO false (vo_strict o)))) /\
  (vo_low_s o = true -> ~ (accepted hash sg pk o /\ accepted hash sg' pk o)).
Proof. exact @P_EcdsaProp.malleable_full. Qed.
Print Assumptions C30_malleability.

(** * C31 *)
(** Every key returned accepts the signature. (The cofactor is a u32.) *)
Theorem C31_sound : forall (cfg : digit_cfg) sg hash id o ks pk, code_sig sg -> 0 <= d_cofactor (sig_params sg) < 2 ^ 32 -> bytes hash ->
  recover_with_options sg hash id o = Ret (Ok ks) -> In pk ks -> code_pk pk /\ pk_params pk = sig_params sg /\ accepted hash sg pk (mkVO false (ro_strict o)).
Proof. exact @P_EcdsaProp.recover_sound. Qed.
Print Assumptions C31_sound.
(** Without a recovery id every key that accepts the signature is returned. *)
Theorem C31_complete : forall (cfg : digit_cfg) sg hash o ks pk, code_sig sg -> 0 <= d_cofactor (sig_params sg) < 2 ^ 32 -> covers (sig_params sg) -> bytes hash ->
  recover_with_options sg hash None o = Ret (Ok ks) -> code_pk pk -> pk_params pk = sig_params sg ->
  accepted hash sg pk (mkVO false (ro_strict o)) -> exists pk', In pk' ks /\ pt_val (pk_data pk') = pt_val (pk_data pk).
Proof. exact @P_EcdsaProp.recover_all. Qed.
Print Assumptions C31_complete.
(** Without a recovery id, on a curve that its base point generates, the result is exactly the keys that accept the
    signature, each once, and there are at most four; ... *)
Theorem C31_exactly : forall (cfg : digit_cfg) sg hash o ks, code_sig sg -> d_cofactor (sig_params sg) = 1 -> covers (sig_params sg) -> bytes hash ->
  recover_with_options sg hash None o = Ret (Ok ks) ->
  NoDup (map (fun pk => pt_val (pk_data pk)) ks) /\ (length ks <= 4)%nat /\
  forall pk, code_pk pk -> pk_params pk = sig_params sg ->
    (In (pt_val (pk_data pk)) (map (fun pk => pt_val (pk_data pk)) ks) <-> accepted hash sg pk (mkVO false (ro_strict o))).
Proof. exact @P_RecoverNoDup.recover_exactly. Qed.
Print Assumptions C31_exactly.
(** ... four is possible. *)
Example C31_four : forall cfg : digit_cfg, exists sg ks, code_sig sg /\ d_cofactor (sig_params sg) = 1 /\ covers (sig_params sg) /\
  recover_with_options sg [99] None (mkRO true) = Ret (Ok ks) /\ length ks = 4%nat.
Proof. exact P_RecoverEx.example_recover_four. Qed.
(** With the recovery id that signing returned, the signer's key is returned; and it alone, if the cofactor is 1 or the
    id is one of the first two.  Missing: signatures for which recovery panics.  There are none if the id is one of the
    first two or no point of the curve has order two. *)
Theorem C31_signer_partial : forall (cfg : digit_cfg) be nm sk pk, code_sk sk -> matching sk pk -> nbits (order (sk_params sk)) < 2 ^ 60 ->
  forall hash, bytes hash -> forall o rng, rng_ok rng -> forall fuel (st : h_state (hasher_of be nm)), obj nm be st -> forall sg id,
  sign_with_hasher (hasher_of be nm) fuel hash sk o rng st = Ret (Ok (sg, id)) ->
  forall ro, hash_int (order (sk_params sk)) hash <> 0 -> (ro_strict ro = true -> strict_ok (order (sk_params sk)) hash) ->
  0 <= d_cofactor (sk_params sk) < 2 ^ 32 -> covers (sk_params sk) ->
  let panics := recovery_panics (params_val (sk_params sk)) (Some id) (hash_int (order (sk_params sk)) hash) (bi_val (sig_r sg)) (bi_val (sig_s sg)) in
  (id = LowXEvenY \/ id = LowXOddY \/ recoverable (sk_params sk) -> ~ panics) /\
  (panics -> recover_with_options sg hash (Some id) ro = Panic) /\
  (~ panics -> exists ks, recover_with_options sg hash (Some id) ro = Ret (Ok ks) /\
    (exists pk', In pk' ks /\ pt_val (pk_data pk') = pt_val (pk_data pk)) /\
    (id = LowXEvenY \/ id = LowXOddY \/ d_cofactor (sk_params sk) = 1 -> exists pk', ks = [pk'] /\ pk_params pk' = sk_params sk /\ pt_val (pk_data pk') = pt_val (pk_data pk))).
Proof. exact @P_EcdsaProp.recover_signer_all. Qed.
Print Assumptions C31_signer_partial.
(** Exactly when recovery panics: in strict mode on an order that is not of whole bytes (C33), or when a point of order two
    turns up ([recovery_panics] in S_Recover.v). *)
Theorem C31_panics : forall (cfg : digit_cfg) sg hash id o, code_sig sg -> 0 <= d_cofactor (sig_params sg) < 2 ^ 32 -> bytes hash ->
  let n := order (sig_params sg) in
  (recover_with_options sg hash id o = Panic <->
   hash <> [] /\ ((ro_strict o = true /\ ~ strict_usable cfg n) \/
     ((ro_strict o = true -> strict_ok n hash) /\ hash_int n hash <> 0 /\
      recovery_panics (params_val (sig_params sg)) id (hash_int n hash) (bi_val (sig_r sg)) (bi_val (sig_s sg))))).
Proof. exact @P_EcdsaProp.recover_panic_iff. Qed.
Print Assumptions C31_panics.
(** A curve with a point of order two, where recovery succeeds, ... *)
Example C31_witness : forall cfg : digit_cfg, exists sg ks, code_sig sg /\ d_cofactor (sig_params sg) = 2 /\ covers (sig_params sg) /\ ~ recoverable (sig_params sg) /\
  recover_with_options sg [255] None (mkRO false) = Ret (Ok ks) /\ length ks = 2%nat.
Proof. exact P_EcdsaEx.example_recover_two. Qed.
(** ... and where it panics. *)
Theorem C31_refuted : forall cfg : digit_cfg, exists sg, code_sig sg /\ covers (sig_params sg) /\ hash_int (order (sig_params sg)) [255] <> 0 /\
  forall id, id = None \/ id = Some LowXEvenY -> recover_with_options sg [255] id (mkRO false) = Panic.
Proof. exact P_EcdsaEx.example_recover_panics. Qed.
Print Assumptions C31_refuted.
(** On a curve with another cofactor the id does not single out the signer: here is a signature, with the id that goes
    with its nonce, from which another key is recovered as well.  (No point of this curve has order two.) *)
Theorem C31_other_key_refuted : forall cfg : digit_cfg, exists sk pk h k sg id k1 k2,
  code_sk sk /\ covers (sk_params sk) /\ recoverable (sk_params sk) /\ public_key_of sk = Ret pk /\ wf h /\ bi_val h = hash_int (order (sk_params sk)) [32] /\
  sk_sign sk h k = Ret (Some (sg, id)) /\
  recover_with_options sg [32] (Some id) (mkRO false) = Ret (Ok [k1; k2]) /\
  pt_val (pk_data k1) = pt_val (pk_data pk) /\ pt_val (pk_data k2) <> pt_val (pk_data pk).
Proof. exact P_RecoverEx.example_recover_other. Qed.
Print Assumptions C31_other_key_refuted.

(** * C32 *)
(** Whatever is generated is the nonce of the RFC, which is unique, ... *)
Theorem C32_nonce : forall (cfg : digit_cfg) be nm sk, wf (d_order (sk_params sk)) -> 2 < order (sk_params sk) -> nbits (order (sk_params sk)) < 2 ^ 60 ->
  wf (sk_data sk) -> 1 <= bi_val (sk_data sk) <= order (sk_params sk) - 1 -> forall hash, bytes hash -> hash <> [] ->
  forall extra random ex, (if (extra : bool) then random = Ret (Ok ex) else ex = []) -> bytes ex -> (length ex <= 32)%nat ->
  forall st : h_state (hasher_of be nm), obj nm be st -> forall fuel k st',
  (rf <- rfc6979_new (d_order (sk_params sk)) extra ;; generate_nonce (hasher_of be nm) fuel rf hash sk random st) = Ret (Ok (k, st')) ->
  wf k /\ 1 <= bi_val k <= order (sk_params sk) - 1 /\ RFC6979 nm (order (sk_params sk)) (bi_val (sk_data sk)) hash ex (bi_val k).
Proof. exact @P_EcdsaProp2.gen_sound. Qed.
Print Assumptions C32_nonce.
Theorem C32_unique : forall nm q x h1 ex k k', RFC6979 nm q x h1 ex k -> RFC6979 nm q x h1 ex k' -> k = k'.
Proof. exact P_EcdsaProp2.nonce_unique. Qed.
Print Assumptions C32_unique.
(** ... if the RFC has a nonce it is generated, ... *)
Theorem C32_generated : forall (cfg : digit_cfg) be nm sk, wf (d_order (sk_params sk)) -> 2 < order (sk_params sk) -> nbits (order (sk_params sk)) < 2 ^ 60 ->
  wf (sk_data sk) -> 1 <= bi_val (sk_data sk) <= order (sk_params sk) - 1 -> forall hash, bytes hash -> hash <> [] ->
  forall extra random ex, (if (extra : bool) then random = Ret (Ok ex) else ex = []) -> bytes ex -> (length ex <= 32)%nat ->
  forall st : h_state (hasher_of be nm), obj nm be st -> forall k, RFC6979 nm (order (sk_params sk)) (bi_val (sk_data sk)) hash ex k ->
  exists F, forall fuel, (F <= fuel)%nat -> exists k' st',
    (rf <- rfc6979_new (d_order (sk_params sk)) extra ;; generate_nonce (hasher_of be nm) fuel rf hash sk random st) = Ret (Ok (k', st')) /\ bi_val k' = k.
Proof. exact @P_EcdsaProp2.gen_complete. Qed.
Print Assumptions C32_generated.
(** ... and nothing else happens. *)
Theorem C32_no_panic : forall (cfg : digit_cfg) be nm sk, wf (d_order (sk_params sk)) -> 2 < order (sk_params sk) -> nbits (order (sk_params sk)) < 2 ^ 60 ->
  wf (sk_data sk) -> 1 <= bi_val (sk_data sk) <= order (sk_params sk) - 1 -> forall hash, bytes hash -> hash <> [] ->
  forall extra random ex, (if (extra : bool) then random = Ret (Ok ex) else ex = []) -> bytes ex -> (length ex <= 32)%nat ->
  forall st : h_state (hasher_of be nm), obj nm be st -> forall fuel,
  (exists k st', (rf <- rfc6979_new (d_order (sk_params sk)) extra ;; generate_nonce (hasher_of be nm) fuel rf hash sk random st) = Ret (Ok (k, st'))) \/
  (rf <- rfc6979_new (d_order (sk_params sk)) extra ;; generate_nonce (hasher_of be nm) fuel rf hash sk random st) = OutOfFuel.
Proof. exact @P_EcdsaProp2.gen_never_panics. Qed.
Print Assumptions C32_no_panic.
Example C32_example : RFC6979 Sha256 137 1 [25] [] 26 /\ RFC6979 Sha256 137 5 [137] [] 113.
Proof. exact (conj P_EcdsaEx.toy3_nonce_25 P_EcdsaEx.toy3_nonce_137). Qed.

(** * C33 *)
(** The gates, exactly.  Missing: in debug builds, strict mode on an order whose bit length is not a multiple of 8. *)
Theorem C33_sign_partial : forall (cfg : digit_cfg) be nm sk fuel hash o rng (st : h_state (hasher_of be nm)),
  code_sk sk -> nbits (order (sk_params sk)) < 2 ^ 60 -> bytes hash -> rng_ok rng -> obj nm be st ->
  (so_strict o = true -> strict_usable cfg (order (sk_params sk))) ->
  let out := sign_with_hasher (hasher_of be nm) fuel hash sk o rng st in
  (out = Ret (Err SEmptyHash) <-> hash = []) /\
  (out = Ret (Err SHashBitLength) <-> hash <> [] /\ so_strict o = true /\ 8 * Z.of_nat (length hash) <> nbits (order (sk_params sk))) /\
  (out = Ret (Err SZeroHash) <-> hash <> [] /\ (so_strict o = true -> 8 * Z.of_nat (length hash) = nbits (order (sk_params sk))) /\
     so_zero o = false /\ hash_int (order (sk_params sk)) hash = 0).
Proof. exact @P_EcdsaProp2.sign_gates. Qed.
Print Assumptions C33_sign_partial.
Theorem C33_verify_partial : forall (cfg : digit_cfg) pk sg hash o, code_pk pk -> code_sig sg -> sig_params sg = pk_params pk -> bytes hash ->
  (vo_strict o = true -> strict_usable cfg (order (pk_params pk))) ->
  let n := order (pk_params pk) in
  let out := verify_with_options hash sg pk o in
  (out = Ret (Err VEmptyHash) <-> hash = []) /\
  (out = Ret (Err VStrictHighS) <-> hash <> [] /\ vo_low_s o = true /\ n / 2 < bi_val (sig_s sg)) /\
  (out = Ret (Err VHashBitLength) <-> hash <> [] /\ (vo_low_s o = true -> bi_val (sig_s sg) <= n / 2) /\ vo_strict o = true /\ 8 * Z.of_nat (length hash) <> nbits n) /\
  (out = Ret (Err VZeroHash) <-> hash <> [] /\ (vo_low_s o = true -> bi_val (sig_s sg) <= n / 2) /\ (vo_strict o = true -> 8 * Z.of_nat (length hash) = nbits n) /\ hash_int n hash = 0) /\
  (exists r, out = Ret r).
Proof. exact @P_EcdsaProp2.verify_gates. Qed.
Print Assumptions C33_verify_partial.
Theorem C33_recover_partial : forall (cfg : digit_cfg) sg hash id o, code_sig sg -> 0 <= d_cofactor (sig_params sg) < 2 ^ 32 -> bytes hash ->
  (ro_strict o = true -> strict_usable cfg (order (sig_params sg))) ->
  let n := order (sig_params sg) in
  let out := recover_with_options sg hash id o in
  (out = Ret (Err REmptyHash) <-> hash = []) /\
  (out = Ret (Err RHashBitLength) <-> hash <> [] /\ ro_strict o = true /\ 8 * Z.of_nat (length hash) <> nbits n) /\
  (out = Ret (Err RZeroHash) <-> hash <> [] /\ (ro_strict o = true -> 8 * Z.of_nat (length hash) = nbits n) /\ hash_int n hash = 0) /\
  (recoverable (sig_params sg) -> exists r, out = Ret r) /\ out <> Ret (Err RInvalidSignature) /\ out <> OutOfFuel.
Proof. exact @P_EcdsaProp2.recover_gates. Qed.
Print Assumptions C33_recover_partial.
(** A longer hash counts with its leftmost bits: [hash_int] is what they write, and verification and the nonce depend on
    nothing else (for signing see C27_made_from). *)
Theorem C33_leftmost_bits : forall n hash, 0 < n -> bytes hash -> hash_int n hash = Z_of_bits (firstn (Z.to_nat (nbits n)) (bits_of_bytes hash)).
Proof. exact P_EcdsaProp2.hash_int_bits. Qed.
Print Assumptions C33_leftmost_bits.
Theorem C33_verify_truncates : forall (cfg : digit_cfg) pk sg hash hash' o, code_pk pk -> code_sig sg -> sig_params sg = pk_params pk -> bytes hash -> bytes hash' -> hash <> [] -> hash' <> [] ->
  vo_strict o = false -> hash_int (order (pk_params pk)) hash = hash_int (order (pk_params pk)) hash' ->
  verify_with_options hash sg pk o = verify_with_options hash' sg pk o.
Proof. exact @P_EcdsaProp2.verify_same_bits. Qed.
Print Assumptions C33_verify_truncates.
Theorem C33_nonce_truncates : forall nm n d hash hash' ex k, hash_int n hash = hash_int n hash' -> RFC6979 nm n d hash ex k -> RFC6979 nm n d hash' ex k.
Proof. exact P_EcdsaProp2.nonce_same_bits. Qed.
Print Assumptions C33_nonce_truncates.
(** With an order of 5 bits strict mode, the default, panics in debug builds and rejects every hash in release builds. *)
Theorem C33_refuted : forall (cfg : digit_cfg) be fuel rng hash, bytes hash -> hash <> [] -> exists sk pk sg,
  code_sk sk /\ public_key_of sk = Ret pk /\ code_sig sg /\ sig_params sg = sk_params sk /\
  if debug_checks cfg then sign_default be fuel hash sk rng = Panic /\ verify hash sg pk = Panic /\ recover sg hash None = Panic
  else sign_default be fuel hash sk rng = Ret (Err SHashBitLength) /\ verify hash sg pk = Ret (Err VHashBitLength) /\ recover sg hash None = Ret (Err RHashBitLength).
Proof. exact P_EcdsaEx.example_strict. Qed.
Print Assumptions C33_refuted.
(** For every such order and every hash that is not empty. *)
Theorem C33_strict_panics : forall (cfg : digit_cfg) be nm sk pk sg fuel hash rng (st : h_state (hasher_of be nm)) so vo ro id,
  code_sk sk -> code_pk pk -> code_sig sg -> sig_params sg = pk_params pk -> pk_params pk = sk_params sk -> bytes hash -> hash <> [] ->
  ~ strict_usable cfg (order (sk_params sk)) ->
  (so_strict so = true -> sign_with_hasher (hasher_of be nm) fuel hash sk so rng st = Panic) /\
  (vo_strict vo = true -> (vo_low_s vo = true -> bi_val (sig_s sg) <= order (pk_params pk) / 2) -> verify_with_options hash sg pk vo = Panic) /\
  (ro_strict ro = true -> recover_with_options sg hash id ro = Panic).
Proof. exact @P_EcdsaProp2.strict_panics. Qed.
Print Assumptions C33_strict_panics.
Theorem C33_strict_rejects : forall (cfg : digit_cfg) be nm sk pk sg fuel hash rng (st : h_state (hasher_of be nm)) so vo ro id,
  debug_checks cfg = false ->
  code_sk sk -> code_pk pk -> code_sig sg -> sig_params sg = pk_params pk -> pk_params pk = sk_params sk -> bytes hash -> hash <> [] ->
  nbits (order (sk_params sk)) mod 8 <> 0 ->
  (so_strict so = true -> sign_with_hasher (hasher_of be nm) fuel hash sk so rng st = Ret (Err SHashBitLength)) /\
  (vo_strict vo = true -> (vo_low_s vo = true -> bi_val (sig_s sg) <= order (pk_params pk) / 2) -> verify_with_options hash sg pk vo = Ret (Err VHashBitLength)) /\
  (ro_strict ro = true -> recover_with_options sg hash id ro = Ret (Err RHashBitLength)).
Proof. exact @P_EcdsaProp2.strict_rejects. Qed.
Print Assumptions C33_strict_rejects.

(** * C34 *)
(** Signing returns if some attempt has a nonce that can sign, or has no randomness, and every attempt before it a nonce. *)
Theorem C34_returns_partial : forall (cfg : digit_cfg) be nm sk, code_sk sk -> nbits (order (sk_params sk)) < 2 ^ 60 ->
  forall hash, bytes hash -> hash <> [] -> forall o rng, rng_ok rng -> forall st : h_state (hasher_of be nm), obj nm be st ->
  (so_strict o = true -> strict_usable cfg (order (sk_params sk))) -> forall i,
  let attempt := nonce_of_attempt nm (order (sk_params sk)) (bi_val (sk_data sk)) hash o rng in
  (forall j, (j <= i)%nat -> no_randomness o rng j \/ exists k, attempt j k) ->
  (no_randomness o rng i \/ exists k, attempt i k /\
     ecdsa_sign (params_val (sk_params sk)) (bi_val (sk_data sk)) (hash_int (order (sk_params sk)) hash) k <> None) ->
  exists F, forall fuel, (F <= fuel)%nat -> exists r, sign_with_hasher (hasher_of be nm) fuel hash sk o rng st = Ret r.
Proof. exact @P_EcdsaProp.sign_terminates. Qed.
Print Assumptions C34_returns_partial.
Theorem C34_no_panic_partial : forall (cfg : digit_cfg) be nm sk, code_sk sk -> nbits (order (sk_params sk)) < 2 ^ 60 ->
  forall hash, bytes hash -> hash <> [] -> forall o rng, rng_ok rng -> forall st : h_state (hasher_of be nm), obj nm be st ->
  (so_strict o = true -> strict_usable cfg (order (sk_params sk))) -> forall fuel,
  sign_with_hasher (hasher_of be nm) fuel hash sk o rng st <> Panic.
Proof. exact @P_EcdsaProp.sign_no_panic. Qed.
Print Assumptions C34_no_panic_partial.
(** Without additional random data every attempt uses the same nonce: if that nonce cannot sign, signing never returns, ... *)
Theorem C34_deterministic_loops : forall (cfg : digit_cfg) be nm sk, code_sk sk -> nbits (order (sk_params sk)) < 2 ^ 60 ->
  forall hash, bytes hash -> hash <> [] -> forall o rng, rng_ok rng -> forall st : h_state (hasher_of be nm), obj nm be st ->
  (so_strict o = true -> strict_usable cfg (order (sk_params sk))) -> forall k,
  so_extra o = false -> RFC6979 nm (order (sk_params sk)) (bi_val (sk_data sk)) hash [] k ->
  ecdsa_sign (params_val (sk_params sk)) (bi_val (sk_data sk)) (hash_int (order (sk_params sk)) hash) k = None ->
  (so_strict o = true -> 8 * Z.of_nat (length hash) = nbits (order (sk_params sk))) -> (so_zero o = false -> hash_int (order (sk_params sk)) hash <> 0) ->
  forall fuel, sign_with_hasher (hasher_of be nm) fuel hash sk o rng st = OutOfFuel.
Proof. exact @P_EcdsaProp.sign_loops. Qed.
Print Assumptions C34_deterministic_loops.
(** ... and there are such a key and hash. *)
Theorem C34_refuted : forall (cfg : digit_cfg) be low zero rng, rng_ok rng -> exists sk, code_sk sk /\ hash_int (order (sk_params sk)) [25] <> 0 /\
  strict_ok (order (sk_params sk)) [25] /\ forall fuel, sign_with_options be fuel [25] sk (mkSO low true false zero) rng = OutOfFuel.
Proof. exact P_EcdsaEx.example_loops. Qed.
Print Assumptions C34_refuted.
(** When signing returns, exactly: for a hash that is not refused, if and only if some attempt has no randomness or a nonce
    that can sign, and all attempts before it have a nonce that cannot; ... *)
Theorem C34_returns_exactly : forall (cfg : digit_cfg) be nm sk, code_sk sk -> nbits (order (sk_params sk)) < 2 ^ 60 ->
  forall hash, bytes hash -> hash <> [] -> forall o,
  (so_strict o = true -> strict_ok (order (sk_params sk)) hash) -> (so_zero o = false -> hash_int (order (sk_params sk)) hash <> 0) ->
  forall rng, rng_ok rng -> forall st : h_state (hasher_of be nm), obj nm be st ->
  let attempt := nonce_of_attempt nm (order (sk_params sk)) (bi_val (sk_data sk)) hash o rng in
  let signs k := ecdsa_sign (params_val (sk_params sk)) (bi_val (sk_data sk)) (hash_int (order (sk_params sk)) hash) k in
  (exists fuel r, sign_with_hasher (hasher_of be nm) fuel hash sk o rng st = Ret r) <->
  exists i, (forall j, (j < i)%nat -> exists k, attempt j k /\ signs k = None) /\ (no_randomness o rng i \/ exists k, attempt i k /\ signs k <> None).
Proof. exact @P_SignExact.returns_exactly. Qed.
Print Assumptions C34_returns_exactly.
(** ... otherwise it goes on for ever; ... *)
Theorem C34_loops_exactly : forall (cfg : digit_cfg) be nm sk, code_sk sk -> nbits (order (sk_params sk)) < 2 ^ 60 ->
  forall hash, bytes hash -> hash <> [] -> forall o,
  (so_strict o = true -> strict_ok (order (sk_params sk)) hash) ->
  forall rng, rng_ok rng -> forall st : h_state (hasher_of be nm), obj nm be st ->
  (forall fuel, sign_with_hasher (hasher_of be nm) fuel hash sk o rng st = OutOfFuel) <->
  ~ exists fuel r, sign_with_hasher (hasher_of be nm) fuel hash sk o rng st = Ret r.
Proof. exact @P_SignExact.loops_exactly. Qed.
Print Assumptions C34_loops_exactly.
(** ... and without additional random data it returns if and only if the one nonce of RFC 6979 can sign. *)
Theorem C34_deterministic_exactly : forall (cfg : digit_cfg) be nm sk, code_sk sk -> nbits (order (sk_params sk)) < 2 ^ 60 ->
  forall hash, bytes hash -> hash <> [] -> forall o,
  (so_strict o = true -> strict_ok (order (sk_params sk)) hash) -> (so_zero o = false -> hash_int (order (sk_params sk)) hash <> 0) ->
  forall rng, rng_ok rng -> forall st : h_state (hasher_of be nm), obj nm be st -> so_extra o = false ->
  (exists fuel r, sign_with_hasher (hasher_of be nm) fuel hash sk o rng st = Ret r) <->
  exists k, RFC6979 nm (order (sk_params sk)) (bi_val (sk_data sk)) hash [] k /\
    ecdsa_sign (params_val (sk_params sk)) (bi_val (sk_data sk)) (hash_int (order (sk_params sk)) hash) k <> None.
Proof. exact @P_SignExact.deterministic_exactly. Qed.
Print Assumptions C34_deterministic_exactly.

(** Properties C69 and C70: where a signature's randomness comes from, and that results are the same on every machine.

    S_Sign.v: [RFC6979] the nonce of the RFC for the given additional data, [rng_ok] a source that returns 32 bytes or an
    error.  S_Ecdsa.v: [ecdsa_sign] the textbook, [signature_of] with recovery id and low s.
    S_Portable.v: [SIGNING] what signing returns, in terms of numbers, [sign_val] the numbers in a result.
    Digits have 64 or 8 bits ([cfg]), machines are little or big endian ([be]). *)

From Verif Require Import Base M_BigInt M_Curve M_Hmac M_Random M_Ecdsa M_Rfc6979 S_BigInt S_Curve S_EcModel S_Hash S_Sha2 S_Ecdsa S_Rfc6979 S_Sign S_Encoding S_Portable.
From Verif Require P_SignRand P_Portable P_SecpKat P_PortableEx.
Open Scope Z_scope.

(** * C69 *)
(** With the default options the nonce is the RFC's for 32 bytes the random source returned; if several attempts were
    made, each used bytes of its own, and the earlier nonces could not sign. *)
Theorem C69_default : forall (cfg : digit_cfg) be sk fuel hash rng sg id, code_sk sk -> nbits (order (sk_params sk)) < 2 ^ 60 -> bytes hash -> rng_ok rng ->
  sign_default be fuel hash sk rng = Ret (Ok (sg, id)) ->
  let n := order (sk_params sk) in let d := bi_val (sk_data sk) in let e := hash_int n hash in let D := params_val (sk_params sk) in
  exists i ex k, rng i = Ret (Ok ex) /\ RFC6979 Sha256 n d hash ex k /\
    signature_of D true d e k (bi_val (sig_r sg)) (bi_val (sig_s sg)) (recid_u8 id) /\
    forall j, (j < i)%nat -> exists ex' k', rng j = Ret (Ok ex') /\ RFC6979 Sha256 n d hash ex' k' /\ ecdsa_sign D d e k' = None.
Proof. exact @P_SignRand.sign_default_from. Qed.
Print Assumptions C69_default.
(** If the source is needed and fails at once, its error is returned and no signature, ... *)
Theorem C69_unavailable : forall (cfg : digit_cfg) be nm sk fuel hash o rng (st : h_state (hasher_of be nm)) e,
  code_sk sk -> nbits (order (sk_params sk)) < 2 ^ 60 -> bytes hash -> hash <> [] -> rng_ok rng -> obj nm be st ->
  (so_strict o = true -> strict_ok (order (sk_params sk)) hash) -> (so_zero o = false -> hash_int (order (sk_params sk)) hash <> 0) ->
  so_extra o = true -> rng O = Ret (Err e) ->
  sign_with_hasher (hasher_of be nm) fuel hash sk o rng st = Ret (Err (SFailedToGenerateNonce (FailedToGenerateRandomBytes e))).
Proof. exact @P_SignRand.sign_unavailable. Qed.
Print Assumptions C69_unavailable.
(** ... and this error is returned only if the source was needed, and failed with it. *)
Theorem C69_error : forall (cfg : digit_cfg) be nm sk fuel hash o rng (st : h_state (hasher_of be nm)) err,
  code_sk sk -> nbits (order (sk_params sk)) < 2 ^ 60 -> bytes hash -> rng_ok rng -> obj nm be st ->
  sign_with_hasher (hasher_of be nm) fuel hash sk o rng st = Ret (Err (SFailedToGenerateNonce err)) ->
  so_extra o = true /\ exists i e, rng i = Ret (Err e) /\ err = FailedToGenerateRandomBytes e /\
    forall j, (j < i)%nat -> exists ex k, rng j = Ret (Ok ex) /\ RFC6979 nm (order (sk_params sk)) (bi_val (sk_data sk)) hash ex k /\
      ecdsa_sign (params_val (sk_params sk)) (bi_val (sk_data sk)) (hash_int (order (sk_params sk)) hash) k = None.
Proof. exact @P_SignRand.sign_error_from. Qed.
Print Assumptions C69_error.
(** Without additional data the source is not consulted: whatever it would do (panic, for one), signing does the same. *)
Theorem C69_not_consulted : forall (cfg : digit_cfg) h fuel hash sk o rng rng' st, so_extra o = false ->
  sign_with_hasher h fuel hash sk o rng st = sign_with_hasher h fuel hash sk o rng' st.
Proof. exact @P_SignRand.sign_ignores. Qed.
Print Assumptions C69_not_consulted.
(** Then a key has one signature of a hash: on any machine, whatever the other options and the state of the hasher. *)
Theorem C69_deterministic : forall (cfg cfg' : digit_cfg) be be' nm sk sk' fuel fuel' hash o o' rng rng'
    (st : h_state (hasher_of be nm)) (st' : h_state (hasher_of be' nm)) sg id sg' id',
  @code_sk cfg sk -> @code_sk cfg' sk' -> nbits (@order cfg (sk_params sk)) < 2 ^ 60 -> bytes hash -> obj nm be st -> obj nm be' st' ->
  @params_val cfg (sk_params sk) = @params_val cfg' (sk_params sk') -> @bi_val cfg (sk_data sk) = @bi_val cfg' (sk_data sk') ->
  so_extra o = false -> so_extra o' = false -> so_low_s o = so_low_s o' ->
  @sign_with_hasher cfg (hasher_of be nm) fuel hash sk o rng st = Ret (Ok (sg, id)) ->
  @sign_with_hasher cfg' (hasher_of be' nm) fuel' hash sk' o' rng' st' = Ret (Ok (sg', id')) ->
  @bi_val cfg (sig_r sg) = @bi_val cfg' (sig_r sg') /\ @bi_val cfg (sig_s sg) = @bi_val cfg' (sig_s sg') /\ recid_u8 id = recid_u8 id'.
Proof. exact P_SignRand.sign_everywhere. Qed.
Print Assumptions C69_deterministic.
(** The key 1 on secp256k1: signs when the source gives 0, 1, ..., 31 (see also default_signature in Prop_Secp.v, and
    deterministic_signature for signing without additional data), and reports a failing source. *)
Example C69_case : forall (cfg : digit_cfg) be, exists D dd pk fuel sg id, secp256k1 = Ret D /\ from_int 1 = Ret dd /\ code_sk (mkSk dd D) /\
  rng_ok (fun _ => Ret (Ok P_SecpKat.entropy0)) /\ bytes P_SecpKat.hash0 /\ public_key_of (mkSk dd D) = Ret pk /\ encodable pk /\
  sign_default be fuel P_SecpKat.hash0 (mkSk dd D) (fun _ => Ret (Ok P_SecpKat.entropy0)) = Ret (Ok (sg, id)).
Proof. exact P_SecpKat.kat_wire. Qed.
Example C69_case_error : forall (cfg : digit_cfg) be fuel e, exists D dd, secp256k1 = Ret D /\ from_int 1 = Ret dd /\ code_sk (mkSk dd D) /\
  sign_default be fuel P_SecpKat.hash0 (mkSk dd D) (fun _ => Ret (Err e)) = Ret (Err (SFailedToGenerateNonce (FailedToGenerateRandomBytes e))).
Proof. exact P_PortableEx.failing. Qed.

(** * C70 *)
(** [SIGNING] says what signing returns: nothing else is returned, ... *)
Theorem C70_signing_sound : forall (cfg : digit_cfg) be nm sk, code_sk sk -> nbits (order (sk_params sk)) < 2 ^ 60 -> forall hash, bytes hash ->
  forall o rng, rng_ok rng -> forall st : h_state (hasher_of be nm), obj nm be st -> forall fuel r,
  sign_with_hasher (hasher_of be nm) fuel hash sk o rng st = Ret r ->
  SIGNING nm (params_val (sk_params sk)) (bi_val (sk_data sk)) hash o rng (sign_val r).
Proof. exact @P_Portable.signing_sound. Qed.
Print Assumptions C70_signing_sound.
(** ... it is returned as soon as the loops may run long enough (in debug builds strict mode on an order without whole bytes panics: C33), ... *)
Theorem C70_signing_complete : forall (cfg : digit_cfg) be nm sk, code_sk sk -> nbits (order (sk_params sk)) < 2 ^ 60 -> forall hash, bytes hash ->
  forall o rng, rng_ok rng -> forall st : h_state (hasher_of be nm), obj nm be st -> forall v,
  (so_strict o = true -> strict_usable cfg (order (sk_params sk))) ->
  SIGNING nm (params_val (sk_params sk)) (bi_val (sk_data sk)) hash o rng v ->
  exists F, forall fuel, (F <= fuel)%nat -> exists r, sign_with_hasher (hasher_of be nm) fuel hash sk o rng st = Ret r /\ sign_val r = v.
Proof. exact @P_Portable.signing_complete. Qed.
Print Assumptions C70_signing_complete.
(** ... and it is one thing. *)
Theorem C70_signing_function : forall nm D d hash o rng v v', SIGNING nm D d hash o rng v -> SIGNING nm D d hash o rng v' -> v = v'.
Proof. exact P_Portable.SIGNING_fun. Qed.
Print Assumptions C70_signing_function.
(** The bound on the loops is an artefact: what signing does with one bound (return, fail, panic), it does with every larger one. *)
Theorem C70_bound : forall (cfg : digit_cfg) h fuel fuel' hash sk o rng st, (fuel <= fuel')%nat -> sign_with_hasher h fuel hash sk o rng st <> OutOfFuel ->
  sign_with_hasher h fuel' hash sk o rng st = sign_with_hasher h fuel hash sk o rng st.
Proof. exact @P_SignRand.sign_fuel. Qed.
Print Assumptions C70_bound.
(** Two machines, each with digits of its own and built for debugging or for release: given the same random bytes, what one returns the other returns. With
    one exception: where the bits of the order do not make whole bytes, strict mode panics in a debug build and rejects in a release build (C33). So in strict
    mode the two are taken to be alike in this: [strict_alike] holds for every pair of builds of the same kind, and for all builds if the bits do make bytes. *)
Theorem C70_sign : forall (cfg cfg' : digit_cfg) be be' nm sk sk' hash o rng (st : h_state (hasher_of be nm)) (st' : h_state (hasher_of be' nm)),
  @code_sk cfg sk -> @code_sk cfg' sk' -> nbits (@order cfg (sk_params sk)) < 2 ^ 60 -> bytes hash -> rng_ok rng -> obj nm be st -> obj nm be' st' ->
  @params_val cfg (sk_params sk) = @params_val cfg' (sk_params sk') -> @bi_val cfg (sk_data sk) = @bi_val cfg' (sk_data sk') ->
  (so_strict o = true -> strict_alike cfg cfg' (@order cfg (sk_params sk))) ->
  forall fuel r, @sign_with_hasher cfg (hasher_of be nm) fuel hash sk o rng st = Ret r ->
  exists F, forall fuel', (F <= fuel')%nat -> exists r', @sign_with_hasher cfg' (hasher_of be' nm) fuel' hash sk' o rng st' = Ret r' /\
    @sign_val cfg r = @sign_val cfg' r'.
Proof. exact P_Portable.sign_portable. Qed.
Print Assumptions C70_sign.
(** Verification does the same on both: the same answer, the same error or a panic. *)
Theorem C70_verify : forall (cfg cfg' : digit_cfg) pk pk' sg sg' hash o,
  @code_pk cfg pk -> @code_pk cfg' pk' -> @code_sig cfg sg -> @code_sig cfg' sg' -> sig_params sg = pk_params pk -> sig_params sg' = pk_params pk' -> bytes hash ->
  @params_val cfg (pk_params pk) = @params_val cfg' (pk_params pk') -> @pt_val cfg (pk_data pk) = @pt_val cfg' (pk_data pk') ->
  @bi_val cfg (sig_r sg) = @bi_val cfg' (sig_r sg') -> @bi_val cfg (sig_s sg) = @bi_val cfg' (sig_s sg') ->
  (vo_strict o = true -> strict_alike cfg cfg' (@order cfg (pk_params pk))) ->
  @verify_with_options cfg hash sg pk o = @verify_with_options cfg' hash sg' pk' o.
Proof. exact P_Portable.verify_portable. Qed.
Print Assumptions C70_verify.
(** Recovery gives the same keys. *)
Theorem C70_recover : forall (cfg cfg' : digit_cfg) sg sg' hash id o,
  @code_sig cfg sg -> @code_sig cfg' sg' -> 0 <= d_cofactor (sig_params sg) < 2 ^ 32 -> bytes hash ->
  @params_val cfg (sig_params sg) = @params_val cfg' (sig_params sg') -> @bi_val cfg (sig_r sg) = @bi_val cfg' (sig_r sg') -> @bi_val cfg (sig_s sg) = @bi_val cfg' (sig_s sg') ->
  (ro_strict o = true -> strict_alike cfg cfg' (@order cfg (sig_params sg))) ->
  match @recover_with_options cfg sg hash id o, @recover_with_options cfg' sg' hash id o with
  | Ret (Ok ks), Ret (Ok ks') => same_keys cfg cfg' ks ks'
  | Ret (Err e), Ret (Err e') => e = e'
  | Panic, Panic => True
  | _, _ => False
  end.
Proof. exact P_Portable.recover_portable. Qed.
Print Assumptions C70_recover.
Theorem C70_alike : forall (cfg cfg' : digit_cfg) n, (nbits n mod 8 = 0 -> strict_alike cfg cfg' n) /\ (debug_checks cfg = debug_checks cfg' -> strict_alike cfg cfg' n) /\
  (nbits n mod 8 <> 0 -> debug_checks cfg <> debug_checks cfg' -> ~ strict_alike cfg cfg' n).
Proof. exact P_Portable.alike. Qed.
Print Assumptions C70_alike.
Theorem C70_public_key : forall (cfg cfg' : digit_cfg) sk sk', @code_sk cfg sk -> @code_sk cfg' sk' ->
  @params_val cfg (sk_params sk) = @params_val cfg' (sk_params sk') -> @bi_val cfg (sk_data sk) = @bi_val cfg' (sk_data sk') ->
  exists pk pk', @public_key_of cfg sk = Ret pk /\ @public_key_of cfg' sk' = Ret pk' /\ @pt_val cfg (pk_data pk) = @pt_val cfg' (pk_data pk').
Proof. exact P_Portable.public_key_portable. Qed.
Print Assumptions C70_public_key.
(** Two machines with secp256k1 and the key 1, on the first of which it has signed. *)
Example C70_case : forall (cfg cfg' : digit_cfg) be, exists D D' dd dd' fuel sg id, @secp256k1 cfg = Ret D /\ @secp256k1 cfg' = Ret D' /\
  @code_sk cfg (mkSk dd D) /\ @code_sk cfg' (mkSk dd' D') /\ nbits (@order cfg D) < 2 ^ 60 /\ @params_val cfg D = @params_val cfg' D' /\ @bi_val cfg dd = @bi_val cfg' dd' /\
  strict_alike cfg cfg' (@order cfg D) /\ bytes P_SecpKat.hash0 /\ rng_ok (fun _ => Ret (Ok P_SecpKat.entropy0)) /\
  @sign_default cfg be fuel P_SecpKat.hash0 (mkSk dd D) (fun _ => Ret (Ok P_SecpKat.entropy0)) = Ret (Ok (sg, id)).
Proof. exact P_PortableEx.two_machines. Qed.

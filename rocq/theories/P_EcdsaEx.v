(** Concrete keys and signatures on small curves: witnesses for the hypotheses, and counterexamples. *)

From Coq Require Import Lia.
From Verif Require Import Base M_BigInt M_Modular M_Curve M_Loop M_Hmac M_Random M_Ecdsa M_Rfc6979
  S_BigInt S_Curve S_EcModel S_Hash S_Ecdsa S_Rfc6979 S_Sign
  P_NumTheory P_Modular P_Curve P_EcModel P_Order P_EcLaws P_EcEx P_Hash P_Ecdsa1 P_Ecdsa2 P_Ecdsa3 P_Rfc6979 P_Sign P_EcdsaProp P_EcdsaProp2 P_EcFast.
From Verif Require P_ToyNonce.
Open Scope Z_scope.

(** y^2 = x^3 + x + 9 modulo 131: 137 points, generated by (0, 3); the order has one byte *)
Definition TOY3 : eparams := mkEP (mkE 1 9 131) (Some (0, 3)) 137 1.
Definition no2b (C : ecurve) : bool := forallb (fun x => negb ((x * x * x + ea C * x + eb C) mod ep C =? 0)) (upto (ep C)).
Lemma no2b_ok C : 0 <= ep C -> no2b C = true -> no_two_torsion C.
Proof.
  intros H0 H P HP (x & ->). destruct HP as (Hx & _ & E). unfold no2b in H. rewrite forallb_forall in H.
  specialize (H x (proj2 (upto_in _ _ H0) Hx)). rewrite Z.mul_0_l, Zmod_0_l in E. rewrite <- E in H. discriminate.
Qed.
Lemma toy3_ok : params_ok TOY3.
Proof.
  assert (OK : curve_ok (e_curve TOY3)).
  { split; [apply primeb_ok; vm_compute; reflexivity|]. split; [reflexivity|]. vm_compute. discriminate. }
  assert (HG : on_curve (e_curve TOY3) (e_base TOY3)) by (apply on_curveb_ok; vm_compute; reflexivity).
  assert (HN : prime 137) by (apply primeb_ok; vm_compute; reflexivity).
  assert (NG : emul (e_curve TOY3) 137 (e_base TOY3) = None) by (rewrite <- femul_ok by reflexivity; vm_compute; reflexivity).
  split; [exact OK|]. split; [exact HN|]. split; [reflexivity|]. split; [exact HG|]. split; [discriminate|]. split; [exact NG|].
  intros P HP _. change (e_order TOY3) with 137.
  refine (generated (e_curve TOY3) OK (e_base TOY3) 137 HG _ HN NG eq_refl _ _ P HP); [discriminate| |reflexivity].
  apply no2b_ok; [discriminate|]. vm_compute. reflexivity.
Qed.
Lemma toy3_code : forall cfg : digit_cfg, exists D, small_params 1 9 131 0 3 137 1 = Ret D /\ code_params D /\ params_val D = TOY3.
Proof.
  intros []; (eexists; split; [vm_compute; reflexivity|]; split; [split; [apply wfb_params_ok; vm_compute; reflexivity|split; [exact toy3_ok|vm_compute; discriminate]]|reflexivity]).
Qed.

(** The nonces of RFC 6979 with SHA-256 for two keys and hashes. *)
Lemma toy3_nonce_25 : RFC6979 Sha256 137 1 [25] [] 26.
Proof. exact P_ToyNonce.nonce_25. Qed.
Lemma toy3_nonce_137 : RFC6979 Sha256 137 5 [137] [] 113.
Proof. exact P_ToyNonce.nonce_137. Qed.
(** 137 modulo the order is 0: the zero hash has the same nonce *)
Lemma toy3_nonce_0 : RFC6979 Sha256 137 5 [0] [] 113.
Proof.
  assert (E : BITS2OCTETS 137 [0] = BITS2OCTETS 137 [137]) by (vm_compute; reflexivity).
  destruct toy3_nonce_137 as (i & H). exists i. unfold NONCE, SETUP in *. rewrite E. exact H.
Qed.

Lemma toy3_sk : forall (cfg : digit_cfg) d, 1 <= d <= 136 -> exists sk, code_sk sk /\ params_val (sk_params sk) = TOY3 /\ bi_val (sk_data sk) = d.
Proof.
  intros cfg d Hd. destruct (toy3_code cfg) as (D & ED & HD & VD).
  destruct (P_BigInt3.from_i128_spec d) as (dd & E & W & V). { change (2 ^ 127) with 170141183460469231731687303715884105728. lia. }
  exists (mkSk dd D). split; [|split; [exact VD|exact V]]. split; [exact HD|]. split; [exact W|]. cbn [sk_data sk_params]. rewrite V.
  change (order D) with (e_order (params_val D)). rewrite VD. cbn [TOY3 e_order]. lia.
Qed.
Lemma toy3_order {cfg : digit_cfg} sk : params_val (sk_params sk) = TOY3 -> order (sk_params sk) = 137.
Proof. intros H. change (order (sk_params sk)) with (e_order (params_val (sk_params sk))). now rewrite H. Qed.

(** Signing [137] and, where it is allowed, [0], with the key 5. *)
Lemma toy3_signs : forall (cfg : digit_cfg) be h low zero rng, h = 137 \/ (h = 0 /\ zero = true) -> rng_ok rng ->
  exists sk pk, code_sk sk /\ public_key_of sk = Ret pk /\ nbits (order (sk_params sk)) < 2 ^ 60 /\ recoverable (sk_params sk) /\ covers (sk_params sk) /\
    strict_ok (order (sk_params sk)) [h] /\ hash_int (order (sk_params sk)) [h] = h /\
    exists fuel sg id, sign_with_options be fuel [h] sk (mkSO low true false zero) rng = Ret (Ok (sg, id)).
Proof.
  intros cfg be h low zero rng Hh HR. destruct (toy3_sk cfg 5 ltac:(lia)) as (sk & HK & VP & VD).
  destruct (public_key_of_full sk HK) as (pk & EP & _). exists sk, pk. pose proof (toy3_order sk VP) as EO.
  assert (SZ : nbits (order (sk_params sk)) < 2 ^ 60) by (rewrite EO; vm_compute; reflexivity).
  assert (CF : d_cofactor (sk_params sk) = 1) by (change (d_cofactor (sk_params sk)) with (e_cofactor (params_val (sk_params sk))); now rewrite VP).
  assert (PP : bi_val (c_p (d_curve (sk_params sk))) = 131) by (change (bi_val (c_p (d_curve (sk_params sk)))) with (ep (e_curve (params_val (sk_params sk)))); now rewrite VP).
  split; [exact HK|]. split; [exact EP|]. split; [exact SZ|]. split. { split; [rewrite CF; vm_compute; split; discriminate || reflexivity|now left]. }
  split. { unfold covers. rewrite PP, CF, EO. lia. }
  split. { rewrite EO. split; vm_compute; reflexivity. }
  assert (HI : hash_int (order (sk_params sk)) [h] = h). { rewrite EO. destruct Hh as [->|[-> _]]; vm_compute; reflexivity. }
  split; [exact HI|].
  assert (NK : RFC6979 Sha256 (order (sk_params sk)) (bi_val (sk_data sk)) [h] [] 113).
  { rewrite EO, VD. destruct Hh as [->|[-> _]]; [exact toy3_nonce_137|exact toy3_nonce_0]. }
  assert (AT : nonce_of_attempt Sha256 (order (sk_params sk)) (bi_val (sk_data sk)) [h] (mkSO low true false zero) rng 0 113) by (exists []; split; [reflexivity|exact NK]).
  assert (Hb : bytes [h]) by (constructor; [unfold byte; destruct Hh as [->|[-> _]]; lia|constructor]). assert (Hne : [h] <> []) by discriminate.
  assert (ST : so_strict (mkSO low true false zero) = true -> strict_usable cfg (order (sk_params sk))) by (intros _; left; rewrite EO; vm_compute; reflexivity).
  destruct (sign_terminates be Sha256 sk HK SZ [h] Hb Hne (mkSO low true false zero) rng HR (h_new (hasher_of be Sha256)) (new_obj be Sha256) ST 0%nat) as (F & HF).
  { intros j Hj. right. exists 113. replace j with 0%nat by lia. exact AT. }
  { right. exists 113. split; [exact AT|]. rewrite HI, VP, VD, <- fsign_ok by reflexivity. destruct Hh as [->|[-> _]]; vm_compute; discriminate. }
  destruct (HF F (le_n _)) as (r & EQ). exists F. destruct r as [[sg id]|err]; [exists sg, id; exact EQ|]. exfalso.
  pose proof (sign_spec (sk_params sk) (proj1 HK) be Sha256 SZ sk HK eq_refl [h] Hb Hne (mkSO low true false zero) rng HR F _ (new_obj be Sha256) ST) as K. cbv zeta in K.
  rewrite EQ in K. cbn [so_strict so_zero] in K. rewrite HI, EO in K. change (8 * Z.of_nat (length [h]) =? nbits 137) with true in K. cbn [negb andb] in K.
  assert (ZF : negb zero && (h =? 0) = false) by (destruct Hh as [->|[-> ->]]; [now rewrite andb_false_r|reflexivity]). rewrite ZF in K.
  destruct K as [(r & i & E & R & _)|(E & _)]; [|discriminate]. injection E as <-. destruct R as (R & _). discriminate.
Qed.

Lemma example_zero_hash : forall (cfg : digit_cfg) be low rng vo, rng_ok rng -> exists sk pk fuel sg id,
  code_sk sk /\ public_key_of sk = Ret pk /\ sign_with_options be fuel [0] sk (mkSO low true false true) rng = Ret (Ok (sg, id)) /\
  ~ accepted [0] sg pk vo.
Proof.
  intros cfg be low rng vo HR. destruct (toy3_signs cfg be 0 low true rng ltac:(auto) HR) as (sk & pk & HK & EP & SZ & _ & _ & _ & HI & fuel & sg & id & EQ).
  exists sk, pk, fuel, sg, id. split; [exact HK|]. split; [exact EP|]. split; [exact EQ|].
  assert (Hb : bytes [0]) by (constructor; [unfold byte; lia|constructor]).
  destruct (signed be Sha256 sk HK SZ [0] Hb (mkSO low true false true) rng HR fuel _ (new_obj be Sha256) sg id EQ) as (_ & _ & _ & CS & ES & _).
  destruct (public_key_of_full sk HK) as (pk' & E & (M1 & _) & HP). rewrite EP in E. injection E as <-.
  apply zero_hash_never; [exact HP|exact CS|now rewrite ES|exact Hb|now rewrite M1].
Qed.

(** A key and a hash that are never signed with the deterministic nonce. *)
Lemma example_loops : forall (cfg : digit_cfg) be low zero rng, rng_ok rng -> exists sk, code_sk sk /\ hash_int (order (sk_params sk)) [25] <> 0 /\
  strict_ok (order (sk_params sk)) [25] /\ forall fuel, sign_with_options be fuel [25] sk (mkSO low true false zero) rng = OutOfFuel.
Proof.
  intros cfg be low zero rng HR. destruct (toy3_sk cfg 1 ltac:(lia)) as (sk & HK & VP & VD). exists sk. pose proof (toy3_order sk VP) as EO.
  split; [exact HK|]. rewrite EO. split; [vm_compute; discriminate|]. split; [split; vm_compute; reflexivity|]. intros fuel.
  assert (SZ : nbits (order (sk_params sk)) < 2 ^ 60) by (rewrite EO; vm_compute; reflexivity).
  assert (Hb : bytes [25]) by (constructor; [unfold byte; lia|constructor]).
  apply (sign_loops be Sha256 sk HK SZ [25] Hb ltac:(discriminate) (mkSO low true false zero) rng HR _ (new_obj be Sha256)) with (k := 26).
  - intros _. left. rewrite EO. vm_compute. reflexivity.
  - reflexivity.
  - rewrite EO, VD. exact toy3_nonce_25.
  - rewrite VP, EO, VD, <- fsign_ok by reflexivity. vm_compute. reflexivity.
  - intros _. rewrite EO. vm_compute. reflexivity.
  - intros _. rewrite EO. vm_compute. discriminate.
Qed.

Lemma example_key_panics : forall cfg : digit_cfg, exists D P, code_params D /\ wf_point P /\ public_key_new P D = Panic.
Proof.
  intros cfg. destruct (toy2_code cfg) as (D & ED & HD & _). 
  assert (K : match (D <- small_params 1 4 17 4 2 7 2 ;; P <- small_point 3 0 ;; Ret (D, P)) with
              Ret (D, P) => wfb (px P) && wfb (py P) = true /\ public_key_new P D = Panic | _ => False end).
  { clear. destruct cfg; (vm_compute; split; reflexivity). }
  rewrite ED in K. cbn [obind] in K. destruct (small_point 3 0) as [P| |]; cbn [obind] in K; try contradiction. destruct K as [K1 K2].
  apply andb_true_iff in K1. destruct K1 as [X Y]. apply wfb_ok in X. apply wfb_ok in Y. exists D, P. split; [exact HD|]. split; [split; assumption|exact K2].
Qed.

(** r = 3 is the abscissa of the point of order two: the square root of zero panics. *)
Lemma example_recover_panics : forall cfg : digit_cfg, exists sg, code_sig sg /\ covers (sig_params sg) /\ hash_int (order (sig_params sg)) [255] <> 0 /\
  forall id, id = None \/ id = Some LowXEvenY -> recover_with_options sg [255] id (mkRO false) = Panic.
Proof.
  intros cfg. destruct (toy2_code cfg) as (D & ED & HD & VD).
  assert (K : match (D <- small_params 1 4 17 4 2 7 2 ;; P <- small_point 3 1 ;; Ret (D, P)) with
              Ret (D, P) => wfb (px P) && wfb (py P) = true /\ bi_val (px P) = 3 /\ bi_val (py P) = 1 /\
                (recover_with_options (mkSig (px P) (py P) D) [255] None (mkRO false) = Panic /\
                 recover_with_options (mkSig (px P) (py P) D) [255] (Some LowXEvenY) (mkRO false) = Panic) | _ => False end).
  { clear. destruct cfg; (vm_compute; repeat split; reflexivity). }
  rewrite ED in K. cbn [obind] in K. destruct (small_point 3 1) as [P| |]; cbn [obind] in K; try contradiction. destruct K as (K1 & V1 & V2 & K2 & K3).
  apply andb_true_iff in K1. destruct K1 as [X Y]. apply wfb_ok in X. apply wfb_ok in Y. exists (mkSig (px P) (py P) D).
  assert (EO : order D = 7) by (change (order D) with (e_order (params_val D)); now rewrite VD).
  assert (PP : bi_val (c_p (d_curve D)) = 17) by (change (bi_val (c_p (d_curve D))) with (ep (e_curve (params_val D))); now rewrite VD).
  assert (CF : d_cofactor D = 2) by (change (d_cofactor D) with (e_cofactor (params_val D)); now rewrite VD).
  split. { split; [exact HD|]. cbn [sig_r sig_s sig_params]. rewrite V1, V2, EO. split; [exact X|]. split; [exact Y|]. lia. }
  cbn [sig_params]. split. { unfold covers. rewrite PP, EO, CF. lia. }
  split. { rewrite EO. vm_compute. discriminate. }
  intros id [->| ->]; assumption.
Qed.

(** On the same curve recovery also succeeds. *)
Lemma example_recover_two : forall cfg : digit_cfg, exists sg ks, code_sig sg /\ d_cofactor (sig_params sg) = 2 /\ covers (sig_params sg) /\ ~ recoverable (sig_params sg) /\
  recover_with_options sg [255] None (mkRO false) = Ret (Ok ks) /\ length ks = 2%nat.
Proof.
  intros cfg. destruct (toy2_code cfg) as (D & ED & HD & VD).
  assert (K : match (D <- small_params 1 4 17 4 2 7 2 ;; P <- small_point 2 1 ;; Ret (D, P)) with
              Ret (D, P) => wfb (px P) && wfb (py P) = true /\ bi_val (px P) = 2 /\ bi_val (py P) = 1 /\
                match recover_with_options (mkSig (px P) (py P) D) [255] None (mkRO false) with Ret (Ok [_; _]) => True | _ => False end | _ => False end).
  { clear. destruct cfg; (vm_compute; repeat split; reflexivity). }
  rewrite ED in K. cbn [obind] in K. destruct (small_point 2 1) as [P| |]; cbn [obind] in K; try contradiction. destruct K as (K1 & V1 & V2 & K2).
  apply andb_true_iff in K1. destruct K1 as [X Y]. apply wfb_ok in X. apply wfb_ok in Y. exists (mkSig (px P) (py P) D).
  destruct (recover_with_options (mkSig (px P) (py P) D) [255] None (mkRO false)) as [[[|k1 [|k2 [|? ?]]]|]| |]; try contradiction. exists [k1; k2].
  assert (EO : order D = 7) by (change (order D) with (e_order (params_val D)); now rewrite VD).
  assert (PP : bi_val (c_p (d_curve D)) = 17) by (change (bi_val (c_p (d_curve D))) with (ep (e_curve (params_val D))); now rewrite VD).
  assert (CF : d_cofactor D = 2) by (change (d_cofactor D) with (e_cofactor (params_val D)); now rewrite VD).
  split. { split; [exact HD|]. cbn [sig_r sig_s sig_params]. rewrite V1, V2, EO. split; [exact X|]. split; [exact Y|]. lia. }
  cbn [sig_params]. split; [exact CF|]. split. { unfold covers. rewrite PP, EO, CF. lia. }
  split; [|split; reflexivity]. intros [_ [K|K]]; [congruence|].
  assert (EC : curve_val (d_curve D) = e_curve TOY2) by (change (curve_val (d_curve D)) with (e_curve (params_val D)); now rewrite VD). rewrite EC in K.
  apply (K (Some (3, 0))); [|now exists 3]. cbn. lia.
Qed.

(** An order of five bits: in strict mode a debug build panics and a release build rejects every hash. *)
Lemma example_strict : forall (cfg : digit_cfg) be fuel rng hash, bytes hash -> hash <> [] -> exists sk pk sg,
  code_sk sk /\ public_key_of sk = Ret pk /\ code_sig sg /\ sig_params sg = sk_params sk /\
  if debug_checks cfg then sign_default be fuel hash sk rng = Panic /\ verify hash sg pk = Panic /\ recover sg hash None = Panic
  else sign_default be fuel hash sk rng = Ret (Err SHashBitLength) /\ verify hash sg pk = Ret (Err VHashBitLength) /\ recover sg hash None = Ret (Err RHashBitLength).
Proof.
  intros cfg be fuel rng hash Hb Hne. destruct (toy_code cfg) as (D & ED & HD & VD).
  destruct (P_BigInt3.from_i128_spec 1) as (dd & E & W & V). { change (2 ^ 127) with 170141183460469231731687303715884105728. lia. }
  assert (EO : order D = 19) by (change (order D) with (e_order (params_val D)); now rewrite VD).
  assert (HK : code_sk (mkSk dd D)). { split; [exact HD|]. split; [exact W|]. cbn [sk_data sk_params]. rewrite V, EO. lia. }
  destruct (public_key_of_full _ HK) as (pk & EP & (M1 & _) & HP). cbn [sk_params] in M1.
  assert (HS : code_sig (mkSig dd dd D)). { split; [exact HD|]. cbn [sig_r sig_s sig_params]. rewrite V, EO. repeat (split; [assumption|]). lia. }
  exists (mkSk dd D), pk, (mkSig dd dd D). split; [exact HK|]. split; [exact EP|]. split; [exact HS|]. split; [reflexivity|].
  assert (NB : nbits (order D) mod 8 <> 0) by (rewrite EO; vm_compute; discriminate).
  destruct (debug_checks cfg) eqn:DC.
  - destruct (strict_panics be Sha256 (mkSk dd D) pk (mkSig dd dd D) fuel hash rng (h_new (hasher_of be Sha256)) signing_default verifying_default recovery_default None HK HP HS) as (P1 & P2 & P3);
      try assumption; [now rewrite M1|intros [K|K]; [now apply NB|congruence]|].
    split; [apply P1; reflexivity|]. split; [apply P2; [reflexivity|discriminate]|apply P3; reflexivity].
  - destruct (strict_rejects be Sha256 (mkSk dd D) pk (mkSig dd dd D) fuel hash rng (h_new (hasher_of be Sha256)) signing_default verifying_default recovery_default None DC HK HP HS) as (P1 & P2 & P3);
      try assumption; [now rewrite M1|].
    split; [apply P1; reflexivity|]. split; [apply P2; [reflexivity|discriminate]|apply P3; reflexivity].
Qed.

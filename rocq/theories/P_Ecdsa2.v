(** Keys, signing with a nonce, and verification: the program against SEC 1. *)

From Coq Require Import Lia.
From Verif Require Import Base M_BigInt M_Modular M_Curve M_Ecdsa S_BigInt S_Curve S_EcModel S_Ecdsa S_Recover
  P_BigInt1 P_BigInt3 P_BigInt4 P_BigApi P_NumTheory P_Modular P_Curve P_EcModel P_Order P_EcLaws P_Ecdsa1.
Open Scope Z_scope.

Section Proofs.
Context {cfg : digit_cfg}.

Lemma on_curve_dec C P : {on_curve C P} + {~ on_curve C P}.
Proof.
  destruct P as [[x y]|]; [|now left]. cbn [on_curve].
  destruct (Z_le_dec 0 x), (Z_lt_dec x (ep C)), (Z_le_dec 0 y), (Z_lt_dec y (ep C)); try (right; lia).
  destruct (Z.eq_dec ((y * y) mod ep C) ((x * x * x + ea C * x + eb C) mod ep C)); [left|right]; tauto.
Qed.
Lemma doubles_two_dec C k P : {doubles_two C k P} + {~ doubles_two C k P}.
Proof.
  destruct (Z_le_dec k 0) as [L|L].
  { right. intros (i & Hi & K & _). pose proof (Z.pow_pos_nonneg 2 i). lia. }
  assert (B : forall m : nat, {exists i, 0 <= i < Z.of_nat m /\ two_torsion (emul C (2 ^ i) P)} + {~ exists i, 0 <= i < Z.of_nat m /\ two_torsion (emul C (2 ^ i) P)}).
  { induction m as [|m [IH|IH]].
    - right. intros (i & Hi & _). lia.
    - left. destruct IH as (i & Hi & T). exists i. split; [lia|exact T].
    - destruct (two_torsion_dec (emul C (2 ^ Z.of_nat m) P)) as [T|T].
      + left. exists (Z.of_nat m). split; [lia|exact T].
      + right. intros (i & Hi & K). destruct (Z.eq_dec i (Z.of_nat m)) as [->|N]; [auto|]. apply IH. exists i. split; [lia|exact K]. }
  assert (EQ : forall i, 0 <= i -> (2 ^ i <= k <-> i < Z.of_nat (S (Z.to_nat (Z.log2 k))))).
  { intros i Hi. rewrite Z.log2_le_pow2 by lia. pose proof (Z.log2_nonneg k). lia. }
  destruct (B (S (Z.to_nat (Z.log2 k)))) as [T|T]; [left|right].
  - destruct T as (i & Hi & T). exists i. split; [lia|]. split; [apply EQ; lia|exact T].
  - intros (i & Hi & K & T'). apply T. exists i. split; [|exact T']. split; [exact Hi|]. now apply EQ.
Qed.
Lemma in_range_spec v n : wf v -> wf n -> in_range v n = Ret ((0 <? bi_val v) && (bi_val v <? bi_val n)).
Proof.
  intros Wv Wn. unfold in_range. ret bi_zero_spec z Wz Vz. rewrite bi_gt_spec, bi_lt_spec by assumption. rewrite Vz. cbn [obind].
  destruct (0 <? bi_val v); reflexivity.
Qed.
Lemma in_range_true v n : wf v -> wf n -> 1 <= bi_val v < bi_val n -> in_range v n = Ret true.
Proof. intros. rewrite in_range_spec by assumption. f_equal. apply andb_true_iff. split; apply Z.ltb_lt; lia. Qed.

Lemma private_key_new_spec data D : wf data -> wf (d_order D) ->
  private_key_new data D = Ret (if (1 <=? bi_val data) && (bi_val data <=? order D - 1) then Some (mkSk data D) else None).
Proof.
  intros W1 W2. unfold private_key_new. rewrite in_range_spec by assumption. cbn [obind]. unfold order.
  replace (0 <? bi_val data) with (1 <=? bi_val data) by (destruct (Z.leb_spec 1 (bi_val data)), (Z.ltb_spec 0 (bi_val data)); lia).
  replace (bi_val data <? bi_val (d_order D)) with (bi_val data <=? bi_val (d_order D) - 1)
    by (destruct (Z.leb_spec (bi_val data) (bi_val (d_order D) - 1)), (Z.ltb_spec (bi_val data) (bi_val (d_order D))); lia).
  reflexivity.
Qed.
Lemma signature_new_spec r s D : wf r -> wf s -> wf (d_order D) ->
  signature_new r s D = Ret (if ((1 <=? bi_val r) && (bi_val r <=? order D - 1)) && ((1 <=? bi_val s) && (bi_val s <=? order D - 1)) then Some (mkSig r s D) else None).
Proof.
  intros W1 W2 W3. unfold signature_new. rewrite !in_range_spec by assumption. cbn [obind]. unfold order.
  assert (K : forall v, (0 <? v) && (v <? bi_val (d_order D)) = (1 <=? v) && (v <=? bi_val (d_order D) - 1)).
  { intros v. f_equal. - destruct (Z.leb_spec 1 v), (Z.ltb_spec 0 v); lia. - destruct (Z.leb_spec v (bi_val (d_order D) - 1)), (Z.ltb_spec v (bi_val (d_order D))); lia. }
  rewrite !K. destruct (_ && _); reflexivity.
Qed.

Section Params.
Context (D : params) (HD : code_params D).
Local Notation E := (curve_val (d_curve D)).
Local Notation n := (order D).
Local Notation G := (pt_val (d_base D)).
Local Notation "k # P" := (emul E k P) (at level 35, right associativity).

Let OKD : params_ok (params_val D). Proof. apply HD. Qed.
Let OK : curve_ok E. Proof. apply OKD. Qed.
Let Hn : prime n. Proof. apply OKD. Qed.
Let N2 : 2 < n. Proof. apply OKD. Qed.
Let N0 : 0 < n. Proof. lia. Qed.
Let Wn : wf (d_order D). Proof. apply HD. Qed.
Let HG : on_curve E G. Proof. apply OKD. Qed.
Let G0 : G <> None. Proof. apply OKD. Qed.
Let nG : n # G = None. Proof. apply OKD. Qed.
Let NO : Z.odd n = true. Proof. exact (n_odd _ OKD). Qed.
Lemma params_curve : code_curve (d_curve D).
Proof. split; [apply HD|]. split; [exact OK|]. apply HD. Qed.
Local Notation HC := params_curve.
Lemma base_code : code_point (d_curve D) (d_base D).
Proof. split; [apply HD|exact HG]. Qed.

Lemma mul_n P k : code_point (d_curve D) P -> n # pt_val P = None -> wf k -> 0 <= bi_val k ->
  exists R, mul_point (d_curve D) P k = Ret R /\ code_point (d_curve D) R /\ pt_val R = bi_val k # pt_val P.
Proof. intros HP nP Wk Hk. apply (mul_odd (d_curve D) P n); try assumption. apply HC. Qed.
Lemma mul_G k : wf k -> 0 <= bi_val k ->
  exists R, mul_point (d_curve D) (d_base D) k = Ret R /\ code_point (d_curve D) R /\ pt_val R = bi_val k # G.
Proof. intros. apply mul_n; try assumption. apply base_code. Qed.
Lemma n_mult k : 0 <= k -> n # k # G = None.
Proof. intros Hk. rewrite <- emul_mul by (assumption || lia). rewrite Z.mul_comm, emul_mul by (assumption || lia). rewrite nG. apply emul_None. Qed.

Lemma invert_n v : wf v -> 1 <= bi_val v < n -> exists x, invert v (d_order D) = Ret (Some x) /\ wf x /\ bi_val x = zinv n (bi_val v).
Proof.
  intros Wv Hv. destruct (invert_spec v (d_order D) Wv Wn) as [H _]; [fold n; lia|fold n; rewrite Z.mod_small; unfold order in *; lia|].
  destruct H as (x & H1 & H2 & H3 & H4).
  - apply Zgcd_1_rel_prime. apply rel_prime_le_prime; [exact Hn|]. unfold order in Hv. lia.
  - exists x. split; [exact H1|]. split; [exact H2|]. rewrite <- (zinv_unique n Hn (bi_val v) (bi_val x)); [|exact H4]. symmetry. apply Z.mod_small. unfold order. lia.
Qed.
Lemma modulo_n v : wf v -> exists x, modulo v (d_order D) = Ret x /\ wf x /\ bi_val x = bi_val v mod n.
Proof. intros Wv. destruct (modulo_spec v (d_order D) Wv Wn) as (x & H1 & H2 & H3); [fold n; unfold order in *; lia|]. eauto. Qed.
Lemma bit_len_n : bit_len (d_order D) = Ret (nbits n).
Proof.
  rewrite bit_len_spec by assumption. f_equal. fold n. unfold blen, nbits. change (bi_val (d_order D)) with n. rewrite Z.abs_eq by lia.
  destruct (Z.eqb_spec n 0); [lia|reflexivity].
Qed.
Lemma nbits_pos : 0 < nbits n. Proof. unfold nbits. pose proof (Z.log2_nonneg n). lia. Qed.
Lemma n_lt : n < 2 ^ nbits n. Proof. unfold nbits. rewrite Z.add_1_r. apply Z.log2_spec. lia. Qed.
Lemma n_ge : 2 ^ (nbits n - 1) <= n. Proof. unfold nbits. replace (Z.log2 n + 1 - 1) with (Z.log2 n) by lia. apply Z.log2_spec. lia. Qed.
Lemma hash_fits_true h : code_hash D h -> hash_fits h D = Ret true.
Proof.
  intros (Wh & H0 & H1). unfold hash_fits. rewrite bit_len_n, bit_len_spec by assumption. cbn [obind]. f_equal. apply Z.leb_le.
  rewrite Z.abs_eq by assumption. unfold blen. pose proof nbits_pos. destruct (Z.eqb_spec (bi_val h) 0) as [|Z0]; [lia|].
  apply Z.log2_lt_pow2 in H1; lia.
Qed.

(** ** Public keys *)
Lemma public_key_cases P : wf_point P ->
  (d_cofactor D <> 1 /\ on_curve E (pt_val P) /\ doubles_two E n (pt_val P) /\ public_key_new P D = Panic) \/
  ((d_cofactor D <> 1 -> on_curve E (pt_val P) -> ~ doubles_two E n (pt_val P)) /\
   exists b, public_key_new P D = Ret (if (b : bool) then Some (mkPk P D) else None) /\ (b = true <-> valid_public (params_val D) (bi_val (px P)) (bi_val (py P)))).
Proof.
  intros WP.
  assert (GO : (d_cofactor D <> 1 -> on_curve E (pt_val P) -> ~ doubles_two E n (pt_val P)) ->
    exists b, public_key_new P D = Ret (if (b : bool) then Some (mkPk P D) else None) /\ (b = true <-> valid_public (params_val D) (bi_val (px P)) (bi_val (py P)))).
  { intros NT. destruct (validate_full D P HC Wn ltac:(fold n; unfold order in *; lia) WP) as (b & H1 & H2).
    { intros K1 K2 i Hi L T. apply (NT K1 K2). now exists i. }
    exists b. split; [|exact H2]. unfold public_key_new. rewrite H1. reflexivity. }
  destruct (Z.eq_dec (d_cofactor D) 1) as [H1|H1]; [right; split; [congruence|apply GO; congruence]|].
  destruct (on_curve_dec E (pt_val P)) as [HO|HO]; [|right; split; [tauto|apply GO; tauto]].
  destruct (doubles_two_dec E n (pt_val P)) as [T|T]; [|right; split; [auto|apply GO; auto]].
  left. split; [exact H1|]. split; [exact HO|]. split; [exact T|]. destruct T as (i & Hi & L & T).
  unfold public_key_new. rewrite (validate_panics D P i HC Wn WP H1 HO Hi L T). reflexivity.
Qed.
Lemma public_key_new_spec P : wf_point P ->
  (d_cofactor D <> 1 -> on_curve E (pt_val P) -> forall i, 0 <= i -> ~ two_torsion (2 ^ i # pt_val P)) ->
  exists b, public_key_new P D = Ret (if (b : bool) then Some (mkPk P D) else None) /\ (b = true <-> valid_public (params_val D) (bi_val (px P)) (bi_val (py P))).
Proof.
  intros WP NT. destruct (public_key_cases P WP) as [(K1 & K2 & (i & Hi & _ & T) & _)|[_ K]]; [|exact K]. exfalso. exact (NT K1 K2 i Hi T).
Qed.
Lemma pt_some P x y : wf_point P -> pt_val P = Some (x, y) -> bi_val (px P) = x /\ bi_val (py P) = y.
Proof. intros _ H. unfold pt_val in H. destruct (_ && _); [discriminate|]. now injection H as -> ->. Qed.
Lemma code_valid P : code_point (d_curve D) P -> n # pt_val P = None -> pt_val P <> None -> valid_public (params_val D) (bi_val (px P)) (bi_val (py P)).
Proof.
  intros HP nP P0. destruct (pt_val P) as [[x y]|] eqn:EV; [|congruence]. destruct (pt_some P x y (proj1 HP) EV) as [-> ->].
  destruct HP as [_ O]. rewrite EV in O. destruct O as (Hx & Hy & O). split; [exact Hx|]. split; [exact Hy|]. split; [exact O|].
  split; [|intros _; exact nP]. intros [-> ->]. destruct HD as (_ & _ & B0). apply B0. rewrite Z.mod_0_l in O by (destruct OK as (_ & ? & _); lia).
  rewrite O. f_equal. ring.
Qed.
Lemma public_key_of_spec sk : code_sk sk -> sk_params sk = D ->
  exists pk, public_key_of sk = Ret pk /\ matching sk pk /\ code_pk pk.
Proof.
  intros (_ & Wd & Hd) ED. unfold public_key_of. rewrite ED in *.
  destruct (mul_G (sk_data sk) Wd ltac:(lia)) as (R & -> & HR & VR). cbn [obind].
  destruct (public_key_new_spec R (proj1 HR)) as (b & -> & HB).
  { intros _ _ i Hi. rewrite VR, <- emul_mul; try assumption; [|lia|lia]. apply (kG_no2 (params_val D) OKD).
    pose proof (Z.pow_nonneg 2 i). nia. }
  assert (VP : valid_public (params_val D) (bi_val (px R)) (bi_val (py R))).
  { apply code_valid; [exact HR| |].
    - rewrite VR. apply n_mult. lia.
    - rewrite VR. destruct (dG_some (params_val D) OKD (bi_val (sk_data sk)) Hd) as (x & y & K). cbn [params_val e_curve e_base] in K. rewrite K. discriminate. }
  apply HB in VP. rewrite VP. cbn [obind unwrap]. exists (mkPk R D). split; [reflexivity|]. split.
  - split; [now rewrite ED|]. split; [apply HR|]. rewrite ED. exact VR.
  - split; [exact HD|]. split; [apply HR|]. now apply HB.
Qed.

(** ** Signing *)
Lemma recid_bits (hi od : bool) : exists id, recid_from_u8 (Z.lor (Z.shiftl (Z.b2z hi) 1) (Z.b2z od)) = Some id /\ recid_u8 id = 2 * Z.b2z hi + Z.b2z od.
Proof. destruct hi, od; cbn; eexists; (split; [reflexivity|reflexivity]). Qed.

Lemma sk_sign_spec sk hash k : code_sk sk -> sk_params sk = D -> code_hash D hash -> wf k -> 1 <= bi_val k < n ->
  (exists sg id x y, sk_sign sk hash k = Ret (Some (sg, id)) /\ code_sig sg /\ sig_params sg = D /\
     ecdsa_sign (params_val D) (bi_val (sk_data sk)) (bi_val hash) (bi_val k) = Some (bi_val (sig_r sg), bi_val (sig_s sg)) /\
     bi_val k # G = Some (x, y) /\ bi_val (sig_r sg) = x mod n /\ recid_u8 id = 2 * Z.b2z (n <=? x) + Z.b2z (Z.odd y)) \/
  (sk_sign sk hash k = Ret None /\ ecdsa_sign (params_val D) (bi_val (sk_data sk)) (bi_val hash) (bi_val k) = None).
Proof.
  intros (_ & Wd & Hd) ED HH Wk Hk. unfold sk_sign. rewrite ED in *. rewrite hash_fits_true by assumption. cbn [obind oassert dassert].
  rewrite in_range_true by assumption. cbn [obind oassert dassert].
  destruct (mul_G k Wk ltac:(lia)) as (R & -> & HR & VR). cbn [obind].
  destruct (dG_some (params_val D) OKD (bi_val k) Hk) as (x & y & EK). cbn [params_val e_curve e_base] in EK. rewrite EK in VR.
  destruct (pt_some R x y (proj1 HR) VR) as [Vx Vy]. destruct HR as [[Wx Wy] OR]. rewrite VR in OR. destruct OR as (Hx & Hy & _).
  destruct (modulo_n (px R) Wx) as (r & -> & Wr & Vr). cbn [obind]. rewrite Vx in Vr. rewrite is_zero_spec by assumption. cbn [obind].
  unfold ecdsa_sign. cbn [params_val e_curve e_base e_order]. rewrite EK. cbv zeta. change (bi_val (d_order D)) with n.
  pose proof (Z.mod_pos_bound x n N0) as R1. rewrite Vr.
  destruct (Z.eqb_spec (x mod n) 0) as [Z0|Z0]; cbn [orb]; [right; auto|].
  destruct HH as (Wh & Hh & _).
  ret (bi_mul_spec r (sk_data sk) Wr Wd) t1 Wt1 Vt1. ret (bi_add_spec hash t1 Wh Wt1) t2 Wt2 Vt2.
  destruct (invert_n k Wk Hk) as (ki & -> & Wki & Vki). cbn [obind unwrap].
  ret (bi_mul_spec t2 ki Wt2 Wki) t3 Wt3 Vt3. destruct (modulo_n t3 Wt3) as (s & -> & Ws & Vs). cbn [obind]. rewrite is_zero_spec by assumption. cbn [obind].
  assert (Vs' : bi_val s = (zinv n (bi_val k) * (bi_val hash + x mod n * bi_val (sk_data sk))) mod n).
  { rewrite Vs, Vt3, Vt2, Vt1, Vr, Vki. f_equal. ring. }
  rewrite Vs'. match goal with |- context [?v =? 0] => destruct (Z.eqb_spec v 0) as [Z1|Z1] end; [right; auto|].
  left. rewrite bi_ne_spec by assumption. cbn [obind]. rewrite is_odd_spec by assumption. cbn [obind].
  destruct (recid_bits (negb (bi_val (px R) =? bi_val r)) (Z.odd (bi_val (py R)))) as (id & -> & Vid). cbn [obind unwrap].
  rewrite signature_new_spec by assumption.
  pose proof (Z.mod_pos_bound (zinv n (bi_val k) * (bi_val hash + x mod n * bi_val (sk_data sk))) n N0) as R2. rewrite <- Vs' in R2, Z1.
  replace (((1 <=? bi_val r) && (bi_val r <=? n - 1)) && ((1 <=? bi_val s) && (bi_val s <=? n - 1))) with true
    by (symmetry; rewrite !andb_true_iff, !Z.leb_le; rewrite Vr; lia).
  cbn [obind unwrap]. exists (mkSig r s D), id, x, y. split; [reflexivity|]. split.
  { split; [exact HD|]. cbn [sig_r sig_s sig_params]. split; [assumption|]. split; [assumption|]. split; lia. }
  split; [reflexivity|]. cbn [sig_r sig_s]. rewrite Vr, Vs'. split; [reflexivity|]. split; [exact EK || reflexivity|]. split; [reflexivity|].
  rewrite Vid. f_equal; [f_equal|rewrite Vy; reflexivity]. rewrite Vx, Vr. f_equal.
  destruct (Z.leb_spec n x) as [L|L].
  - apply negb_true_iff, Z.eqb_neq. intros K. pose proof (Z.mod_pos_bound x n N0). lia.
  - apply negb_false_iff, Z.eqb_eq. symmetry. apply Z.mod_small. lia.
Qed.

(** ** Verification *)
Lemma valid_code P : wf_point P -> valid_public (params_val D) (bi_val (px P)) (bi_val (py P)) ->
  code_point (d_curve D) P /\ exists d, 1 <= d < n /\ pt_val P = d # G.
Proof.
  intros WP V. destruct (valid_point_of D P HC WP V) as [HP P0]. split; [exact HP|].
  destruct (public_multiple (params_val D) OKD _ _ V) as (d & Hd & Ed). exists d. split; [exact Hd|]. cbn [params_val e_curve e_base] in Ed. rewrite <- Ed.
  destruct (pt_val P) as [[x y]|] eqn:EV; [|congruence]. destruct (pt_some P x y WP EV) as [-> ->]. reflexivity.
Qed.
Lemma pk_verify_spec pk hash sg : code_pk pk -> pk_params pk = D -> code_hash D hash ->
  wf (sig_r sg) -> wf (sig_s sg) -> 1 <= bi_val (sig_r sg) < n -> 1 <= bi_val (sig_s sg) < n ->
  exists b, pk_verify pk hash sg = Ret b /\
    (b = true <-> ecdsa_valid (params_val D) (pt_val (pk_data pk)) (bi_val hash) (bi_val (sig_r sg)) (bi_val (sig_s sg))).
Proof.
  intros (_ & WP & VP) ED HH Wr Ws Hr Hs. rewrite ED in VP. destruct (valid_code _ WP VP) as (HP & d & Hd & EP).
  unfold pk_verify. rewrite ED. rewrite hash_fits_true by assumption. cbn [obind oassert dassert]. destruct HH as (Wh & Hh & _).
  destruct (invert_n (sig_s sg) Ws Hs) as (w & -> & Ww & Vw). cbn [obind unwrap].
  ret (bi_mul_spec w hash Ww Wh) u0 Wu0 Vu0. destruct (modulo_n u0 Wu0) as (u & -> & Wu & Vu). cbn [obind].
  ret (bi_mul_spec w (sig_r sg) Ww Wr) v0 Wv0 Vv0. destruct (modulo_n v0 Wv0) as (v & -> & Wv & Vv). cbn [obind].
  rewrite Vu0, Vw in Vu. rewrite Vv0, Vw in Vv. rewrite (Z.mul_comm (zinv _ _)) in Vu, Vv.
  pose proof (Z.mod_pos_bound (bi_val hash * zinv n (bi_val (sig_s sg))) n N0) as Ru. rewrite <- Vu in Ru.
  pose proof (Z.mod_pos_bound (bi_val (sig_r sg) * zinv n (bi_val (sig_s sg))) n N0) as Rv. rewrite <- Vv in Rv.
  destruct (mul_G u Wu ltac:(lia)) as (ug & -> & Hug & Vug). cbn [obind].
  destruct (mul_n (pk_data pk) v HP) as (vp & -> & Hvp & Vvp); [rewrite EP; apply n_mult; lia|assumption|lia|]. cbn [obind].
  destruct (add_full (d_curve D) ug vp HC Hug Hvp) as (q & -> & Hq & Vq).
  { intros [_ T]. rewrite Vug in T. revert T. apply (kG_no2 (params_val D) OKD). lia. }
  cbn [obind]. destruct (modulo_n (px q) (proj1 (proj1 Hq))) as (qx & -> & Wqx & Vqx). cbn [obind]. rewrite bi_eq_spec by assumption.
  eexists. split; [reflexivity|]. rewrite Z.eqb_eq, Vqx. unfold ecdsa_valid. cbn [params_val e_curve e_base e_order]. change (bi_val (d_order D)) with n.
  rewrite <- Vu, <- Vv, <- Vug, <- Vvp, <- Vq. unfold pt_val.
  destruct (Z.eqb_spec (bi_val (px q)) 0) as [X0|X0]; destruct (Z.eqb_spec (bi_val (py q)) 0) as [Y0|Y0]; cbn [andb].
  - rewrite X0, Z.mod_0_l by lia. split; [lia|]. intros (x & y & K & _). discriminate.
  - split; [eauto|]. intros (x & y & K & <-). now injection K as <- <-.
  - split; [eauto|]. intros (x & y & K & <-). now injection K as <- <-.
  - split; [eauto|]. intros (x & y & K & <-). now injection K as <- <-.
Qed.
Lemma is_low_s_spec sg : wf (sig_s sg) -> sig_params sg = D -> is_low_s_signature sg = Ret (bi_val (sig_s sg) <=? n / 2).
Proof.
  intros Ws ED. unfold is_low_s_signature. rewrite ED. rewrite dcheck_true by (rewrite is_odd_spec by assumption; change (bi_val (d_order D)) with n; now rewrite NO).
  destruct (shr_full (d_order D) 1 Wn ltac:(lia)) as (h & -> & Wh & Vh). cbn [obind]. rewrite bi_le_spec by assumption. rewrite Vh.
  change (bi_val (d_order D)) with n. rewrite Z.sgn_pos, Z.abs_eq, Z.mul_1_l by lia. reflexivity.
Qed.
End Params.
End Proofs.

(** The curve functions compute the chord-and-tangent addition and scalar multiplication. *)

From Verif Require Import Base M_BigInt M_Modular M_Curve S_BigInt S_Curve S_EcModel
  P_BigInt1 P_BigInt3 P_BigInt4 P_BigApi P_NumTheory P_Modular P_Curve.
From Coq Require Import Znumtheory.
Open Scope Z_scope.

Section Proofs.
Context {cfg : digit_cfg}.
Local Notation bi_val := (S_BigInt.bi_val (cfg:=cfg)).

Lemma is_identity_spec P : wf_point P ->
  is_identity_element P = Ret ((bi_val (px P) =? 0) && (bi_val (py P) =? 0)).
Proof.
  intros [W1 W2]. unfold is_identity_element. rewrite is_zero_spec by assumption. cbn [obind].
  destruct (bi_val (px P) =? 0); [|reflexivity]. cbn [andb]. now apply is_zero_spec.
Qed.
Lemma is_identity_val P : wf_point P -> is_identity_element P = Ret (match pt_val P with None => true | _ => false end).
Proof. intros W. rewrite is_identity_spec by assumption. unfold pt_val. destruct (_ && _); reflexivity. Qed.
Lemma identity_spec : returns_pt identity_element None.
Proof.
  unfold identity_element. ret bi_zero_spec z Wz Vz. eexists. split; [reflexivity|]. split; [split; assumption|].
  unfold pt_val. cbn [px py]. rewrite Vz. reflexivity.
Qed.
Lemma point_eq_spec P Q : wf_point P -> wf_point Q ->
  point_eq P Q = Ret ((bi_val (px P) =? bi_val (px Q)) && (bi_val (py P) =? bi_val (py Q))).
Proof.
  intros [W1 W2] [W3 W4]. unfold point_eq. rewrite bi_eq_spec by assumption. cbn [obind].
  destruct (bi_val (px P) =? bi_val (px Q)); [|reflexivity]. cbn [andb]. now apply bi_eq_spec.
Qed.
Lemma in_field_spec v p : wf v -> wf p -> in_field v p = Ret ((0 <=? bi_val v) && (bi_val v <? bi_val p)).
Proof.
  intros W1 W2. unfold in_field. ret bi_zero_spec z Wz Vz. rewrite bi_ge_spec by assumption. cbn [obind]. rewrite Vz.
  destruct (0 <=? bi_val v); [|reflexivity]. cbn [andb]. now apply bi_lt_spec.
Qed.
Lemma in_field_true v p : wf v -> wf p -> 0 <= bi_val v < bi_val p -> in_field v p = Ret true.
Proof. intros. rewrite in_field_spec by assumption. f_equal. apply andb_true_intro. split; [apply Z.leb_le|apply Z.ltb_lt]; lia. Qed.

Lemma outcome_cases {A} (o : outcome A) : (exists a, o = Ret a) \/ o = Panic \/ o = OutOfFuel.
Proof. destruct o; eauto. Qed.
Lemma epoint_dec (P Q : epoint) : {P = Q} + {P <> Q}.
Proof. repeat decide equality. Defined.
Lemma same_pt P Q : wf_point P -> wf_point Q -> pt_val P = pt_val Q -> point_eq P Q = Ret true.
Proof.
  intros WP WQ. rewrite point_eq_spec by assumption. unfold pt_val.
  destruct (Z.eqb_spec (bi_val (px P)) 0) as [E1|E1]; destruct (Z.eqb_spec (bi_val (py P)) 0) as [E2|E2];
  destruct (Z.eqb_spec (bi_val (px Q)) 0) as [E3|E3]; destruct (Z.eqb_spec (bi_val (py Q)) 0) as [E4|E4]; cbn [andb]; intros H; try discriminate;
  try (injection H as H1 H2; rewrite H1, H2, !Z.eqb_refl; reflexivity). rewrite E1, E2, E3, E4. reflexivity.
Qed.
Lemma returns_same o1 o2 Q1 Q2 : returns_pt o1 Q1 -> returns_pt o2 Q2 -> Q1 = Q2 -> same_point o1 o2.
Proof. intros (A & -> & WA & VA) (B & -> & WB & VB) EQ. exists A, B. split; [reflexivity|]. split; [reflexivity|]. apply same_pt; congruence. Qed.

Section Curve.
Context (C : curve) (HC : code_curve C).
Local Notation E := (curve_val C).
Local Notation p := (ep (curve_val C)).

Let OK : curve_ok E. Proof. apply HC. Qed.
Let Hp : prime p. Proof. apply OK. Qed.
Let P3 : 3 < p. Proof. apply OK. Qed.
Let Wa : wf (c_a C). Proof. apply HC. Qed.
Let Wb : wf (c_b C). Proof. apply HC. Qed.
Let Wp : wf (c_p C). Proof. apply HC. Qed.

Lemma coords P : code_point C P -> wf (px P) /\ wf (py P) /\ 0 <= bi_val (px P) < p /\ 0 <= bi_val (py P) < p.
Proof.
  intros [[W1 W2] H]. split; [assumption|]. split; [assumption|]. unfold pt_val in H.
  destruct (Z.eqb_spec (bi_val (px P)) 0); destruct (Z.eqb_spec (bi_val (py P)) 0); cbn [andb] in H; cbn [on_curve] in H; lia.
Qed.
(** (0, 0) does not satisfy the equation *)
Lemma some_val x y : on_curve E (Some (x, y)) -> (x =? 0) && (y =? 0) = false.
Proof.
  unfold on_curve. intros (Hx & Hy & H). destruct (Z.eqb_spec x 0) as [->|]; [|reflexivity]. destruct (Z.eqb_spec y 0) as [->|]; [|reflexivity].
  exfalso. destruct HC as (_ & _ & B). apply B. replace (0 * 0 * 0 + ea E * 0 + eb E) with (eb E) in H by ring. rewrite <- H. apply Z.mod_0_l. lia.
Qed.
Lemma some_pt P Q : wf_point P -> Q = Some (bi_val (px P), bi_val (py P)) -> on_curve E Q -> pt_val P = Q.
Proof. intros W -> H. unfold pt_val. now rewrite some_val. Qed.

Lemma curve_invert_spec v : wf v -> bi_val v mod p <> 0 ->
  exists x, curve_invert C v = Ret (Some x) /\ wf x /\ bi_val x = zinv p (bi_val v).
Proof.
  intros Wv N. unfold curve_invert. destruct (invert_spec v (c_p C) Wv Wp) as [K _]; [cbn in P3; lia|exact N|].
  destruct K as (x & -> & Wx & R & H).
  - rewrite Z.gcd_comm. apply Zgcd_1_rel_prime. apply prime_rel_prime; [assumption|]. intros D. apply N. now apply Zdivide_mod.
  - exists x. split; [reflexivity|]. split; [assumption|]. rewrite <- (zinv_unique p Hp (bi_val v) (bi_val x) H). symmetry. apply Z.mod_small. cbn. lia.
Qed.
Lemma curve_modulo_spec v : wf v -> returns (curve_modulo C v) (bi_val v mod p).
Proof. intros W. unfold curve_modulo. apply modulo_spec; [assumption|assumption|]. cbn in P3. lia. Qed.

Lemma cg_swap_mod x y : x mod p = y mod p -> cg p x y. Proof. intros. apply cg_iff; [lia|assumption]. Qed.

Lemma double_point_spec P : code_point C P -> ~ two_torsion (pt_val P) ->
  returns_pt (double_point C P) (eadd E (pt_val P) (pt_val P)).
Proof.
  intros HP NT. destruct (coords P HP) as (Wx & Wy & Rx & Ry). unfold double_point.
  rewrite !dcheck_true by (apply in_field_true; assumption || exact Rx || exact Ry).
  rewrite is_identity_val by apply HP. cbn [obind].
  destruct (pt_val P) as [[x y]|] eqn:EV; [|exact identity_spec].
  assert (EV' : x = bi_val (px P) /\ y = bi_val (py P)).
  { unfold pt_val in EV. destruct (_ && _); [discriminate|]. injection EV as <- <-. auto. }
  destruct EV' as [-> ->].
  assert (Y0 : bi_val (py P) <> 0) by (intros K; apply NT; exists (bi_val (px P)); now rewrite K).
  pose proof (eadd_closed E OK (pt_val P) (pt_val P) (proj2 HP) (proj2 HP)) as CL. rewrite EV in CL.
  cbn [eadd] in CL |- *. rewrite Z.eqb_refl in CL |- *.
  assert (Y2 : (bi_val (py P) + bi_val (py P)) mod p <> 0).
  { intros K. apply Z.mod_divide in K; [|lia]. replace (bi_val (py P) + bi_val (py P)) with (2 * bi_val (py P)) in K by ring.
    apply prime_mult in K; [|assumption]. destruct K as [K|K]; apply Z.divide_pos_le in K; lia. }
  apply Z.eqb_neq in Y2. rewrite Y2 in CL |- *. cbn [andb] in CL |- *. apply Z.eqb_neq in Y2.
  ret (from_int_small 2 ltac:(lia)) two W2 V2. ret (from_int_small 3 ltac:(lia)) three W3 V3.
  ret (bi_mul_spec three (px P) W3 Wx) t1 Wt1 Vt1. ret (bi_mul_spec t1 (px P) Wt1 Wx) t2 Wt2 Vt2.
  ret (bi_add_spec t2 (c_a C) Wt2 Wa) t3 Wt3 Vt3. ret (bi_mul_spec two (py P) W2 Wy) t4 Wt4 Vt4.
  destruct (curve_invert_spec t4 Wt4) as (i & -> & Wi & Vi).
  { rewrite Vt4, V2. replace (2 * bi_val (py P)) with (bi_val (py P) + bi_val (py P)) by ring. assumption. }
  cbn [obind unwrap]. ret (bi_mul_spec t3 i Wt3 Wi) m0 Wm0 Vm0. ret (curve_modulo_spec m0 Wm0) m Wm Vm.
  ret (bi_mul_spec m m Wm Wm) x1 Wx1 Vx1. ret (bi_mul_spec two (px P) W2 Wx) x2 Wx2 Vx2. ret (bi_sub_spec x1 x2 Wx1 Wx2) x3 Wx3 Vx3.
  ret (curve_modulo_spec x3 Wx3) x Wxr Vx. ret (bi_sub_spec (px P) x Wx Wxr) y1 Wy1 Vy1. ret (bi_mul_spec m y1 Wm Wy1) y2 Wy2 Vy2.
  ret (bi_sub_spec y2 (py P) Wy2 Wy) y3 Wy3 Vy3. ret (curve_modulo_spec y3 Wy3) y Wyr Vy.
  eexists. split; [reflexivity|]. split; [split; assumption|]. apply some_pt; [split; assumption| |exact CL]. cbn [px py].
  set (M := (3 * bi_val (px P) * bi_val (px P) + ea E) * zinv p (2 * bi_val (py P))).
  assert (EM : cg p (bi_val m) M).
  { rewrite Vm, Vm0, Vt3, Vt2, Vt1, V3, Vi, Vt4, V2. unfold M. apply cg_mod_l. lia. }
  assert (EX : bi_val x = (M * M - bi_val (px P) - bi_val (px P)) mod p).
  { rewrite Vx, Vx3, Vx1, Vx2, V2. apply cg_iff; [lia|]. rewrite EM. apply cg_of_eq. ring. }
  f_equal. f_equal; [symmetry; exact EX|]. rewrite <- EX. rewrite Vy, Vy3, Vy2, Vy1. apply cg_iff; [lia|]. now rewrite EM.
Qed.

Lemma add_points_spec P Q : code_point C P -> code_point C Q -> ~ (pt_val P = pt_val Q /\ two_torsion (pt_val P)) ->
  returns_pt (add_points C P Q) (eadd E (pt_val P) (pt_val Q)).
Proof.
  intros HP HQ NT. destruct (coords P HP) as (Wx & Wy & Rx & Ry). destruct (coords Q HQ) as (Wx' & Wy' & Rx' & Ry'). unfold add_points.
  rewrite !dcheck_true by (apply in_field_true; assumption || exact Rx || exact Ry || exact Rx' || exact Ry').
  rewrite !is_identity_val by (apply HP || apply HQ). cbn [obind].
  destruct (pt_val P) as [[x y]|] eqn:EV.
  2:{ destruct (pt_val Q) as [[x' y']|] eqn:EV'; cbn [andb]; [|exact identity_spec]. exists Q. split; [reflexivity|]. split; [apply HQ|]. now rewrite EV'. }
  destruct (pt_val Q) as [[x' y']|] eqn:EV'; cbn [andb].
  2:{ exists P. split; [reflexivity|]. split; [apply HP|]. now rewrite EV. }
  assert (K : x = bi_val (px P) /\ y = bi_val (py P)).
  { unfold pt_val in EV. destruct (_ && _); [discriminate|]. injection EV as <- <-. auto. }
  destruct K as [-> ->].
  assert (K : x' = bi_val (px Q) /\ y' = bi_val (py Q)).
  { unfold pt_val in EV'. destruct (_ && _); [discriminate|]. injection EV' as <- <-. auto. }
  destruct K as [-> ->].
  rewrite point_eq_spec by (apply HP || apply HQ). cbn [obind].
  pose proof (eadd_closed E OK (pt_val P) (pt_val Q) (proj2 HP) (proj2 HQ)) as CL. rewrite EV, EV' in CL.
  pose proof (proj2 HP) as OP. pose proof (proj2 HQ) as OQ. rewrite EV in OP. rewrite EV' in OQ.
  destruct (Z.eqb_spec (bi_val (px P)) (bi_val (px Q))) as [EX|NX]; cbn [andb].
  - destruct (Z.eqb_spec (bi_val (py P)) (bi_val (py Q))) as [EY|NY].
    + rewrite <- EX, <- EY in *. rewrite <- EV. apply double_point_spec; [assumption|]. rewrite EV. intros T. now apply NT.
    + rewrite bi_eq_spec by assumption. cbn [obind]. destruct (Z.eqb_spec (bi_val (px P)) (bi_val (px Q))); [|contradiction].
      ret (curve_modulo_spec (bi_neg (py Q)) (proj1 (bi_neg_spec (py Q) Wy'))) ny Wny Vny.
      rewrite (proj2 (bi_neg_spec (py Q) Wy')) in Vny. rewrite bi_eq_spec by assumption. cbn [obind].
      assert (S0 : (bi_val (py P) + bi_val (py Q)) mod p = 0).
      { cbn [on_curve] in OP, OQ. destruct OP as (_ & _ & OP). destruct OQ as (_ & _ & OQ). rewrite <- EX in OQ.
        assert (K : cg p ((bi_val (py P) + bi_val (py Q)) * (bi_val (py P) - bi_val (py Q))) 0).
        { replace (_ * _) with (bi_val (py P) * bi_val (py P) - bi_val (py Q) * bi_val (py Q)) by ring.
          rewrite (cg_swap_mod _ _ OP), (cg_swap_mod _ _ OQ). apply cg_of_eq. ring. }
        apply cg_integral in K; [|assumption]. destruct K as [K|K]; [apply cg_eq_mod; [lia|exact K]|].
        exfalso. apply NY. apply (cg_small p); [exact Ry|exact Ry'|]. destruct K as [k K]. exists k. lia. }
      assert (EN : bi_val (py P) = bi_val ny).
      { rewrite Vny. symmetry. apply cg_eq_mod; [exact Ry|].
        assert (S1' : cg p (bi_val (py P) + bi_val (py Q)) 0) by (apply cg_iff; [lia|]; now rewrite S0, Z.mod_0_l by lia).
        destruct S1' as [k Hk]. exists (- k). lia. }
      destruct (Z.eqb_spec (bi_val (py P)) (bi_val ny)); [|contradiction]. cbn [eadd]. rewrite S0. rewrite <- EX, !Z.eqb_refl. cbn [andb]. exact identity_spec.
  - rewrite bi_eq_spec by assumption. cbn [obind]. destruct (Z.eqb_spec (bi_val (px P)) (bi_val (px Q))); [contradiction|].
    cbn [eadd] in CL |- *. destruct (Z.eqb_spec (bi_val (px P)) (bi_val (px Q))); [contradiction|]. cbn [andb] in CL |- *.
    ret (bi_sub_spec (py Q) (py P) Wy' Wy) t1 Wt1 Vt1. ret (bi_sub_spec (px Q) (px P) Wx' Wx) t2 Wt2 Vt2.
    destruct (curve_invert_spec t2 Wt2) as (i & -> & Wi & Vi).
    { rewrite Vt2. intros K. apply NX. symmetry. apply (cg_small p); [exact Rx'|exact Rx|]. 
      apply Z.mod_divide in K; [|lia]. destruct K as [k K]. exists k. lia. }
    cbn [obind unwrap]. ret (bi_mul_spec t1 i Wt1 Wi) m0 Wm0 Vm0. ret (curve_modulo_spec m0 Wm0) m Wm Vm.
    ret (bi_mul_spec m m Wm Wm) x1 Wx1 Vx1. ret (bi_sub_spec x1 (px P) Wx1 Wx) x2 Wx2 Vx2. ret (bi_sub_spec x2 (px Q) Wx2 Wx') x3 Wx3 Vx3.
    ret (curve_modulo_spec x3 Wx3) x Wxr Vx. ret (bi_sub_spec (px P) x Wx Wxr) y1 Wy1 Vy1. ret (bi_mul_spec m y1 Wm Wy1) y2 Wy2 Vy2.
    ret (bi_sub_spec y2 (py P) Wy2 Wy) y3 Wy3 Vy3. ret (curve_modulo_spec y3 Wy3) y Wyr Vy.
    eexists. split; [reflexivity|]. split; [split; assumption|]. apply some_pt; [split; assumption| |exact CL]. cbn [px py].
    set (M := (bi_val (py Q) - bi_val (py P)) * zinv p (bi_val (px Q) - bi_val (px P))).
    assert (EM : cg p (bi_val m) M).
    { rewrite Vm, Vm0, Vt1, Vi, Vt2. unfold M. apply cg_mod_l. lia. }
    assert (EX : bi_val x = (M * M - bi_val (px P) - bi_val (px Q)) mod p).
    { rewrite Vx, Vx3, Vx2, Vx1. apply cg_iff; [lia|]. rewrite EM. reflexivity. }
    f_equal. f_equal; [symmetry; exact EX|]. rewrite <- EX. rewrite Vy, Vy3, Vy2, Vy1. apply cg_iff; [lia|]. now rewrite EM.
Qed.

(** ** Scalar multiplication *)
Fixpoint bits_val (l : list bool) : Z := match l with [] => 0 | b :: l' => Z.b2z b + 2 * bits_val l' end.
Lemma bits_val_nonneg l : 0 <= bits_val l.
Proof. induction l as [|b l IH]; cbn [bits_val]; [lia|]. pose proof (Z.b2z b). destruct b; cbn [Z.b2z]; lia. Qed.
Lemma bits_of_S n v : bits_of (S n) v = Z.testbit v 0 :: bits_of n (v / 2).
Proof.
  unfold bits_of. cbn [seq map]. f_equal. rewrite <- seq_shift, map_map. apply map_ext. intros i.
  rewrite Nat2Z.inj_succ. now rewrite <- Z.div2_div, Z.div2_spec, Z.shiftr_spec by lia.
Qed.
Lemma bits_val_of n : forall v, bits_val (bits_of n v) = v mod 2 ^ Z.of_nat n.
Proof.
  induction n as [|n IH]; intros v; [cbn; now rewrite Z.mod_1_r|]. rewrite bits_of_S. cbn [bits_val]. rewrite IH.
  rewrite Nat2Z.inj_succ, Z.pow_succ_r by lia. rewrite Z.rem_mul_r by lia.
  rewrite <- Z.bit0_mod. reflexivity.
Qed.

Lemma two_torsion_double P : on_curve E P -> two_torsion P -> eadd E P P = None.
Proof. intros H [x ->]. cbn [eadd]. rewrite Z.eqb_refl. change (0 + 0) with 0. rewrite Z.mod_0_l by lia. reflexivity. Qed.
Lemma double_None P : on_curve E P -> eadd E P P = None -> P = None \/ two_torsion P.
Proof.
  destruct P as [[x y]|]; [|now left]. intros (Hx & Hy & _). cbn [eadd]. rewrite Z.eqb_refl. cbn [andb].
  destruct (Z.eqb_spec ((y + y) mod p) 0) as [K|K]; [|discriminate]. intros _. right. exists x. do 2 f_equal.
  apply Z.mod_divide in K; [|lia]. replace (y + y) with (2 * y) in K by ring. apply prime_mult in K; [|assumption].
  destruct K as [K|K]; [apply Z.divide_pos_le in K; lia|]. destruct (Z.eq_dec y 0); [assumption|]. apply Z.divide_pos_le in K; lia.
Qed.
Lemma odd_order m P k : on_curve E P -> 0 < m -> Z.odd m = true -> emul E m P = None -> 0 <= k -> ~ two_torsion (emul E k P).
Proof.
  intros HP Hm Om Z0 Hk T. pose proof (emul_closed E OK k P HP) as HQ. pose proof (two_torsion_double _ HQ T) as D.
  assert (MQ : emul E m (emul E k P) = None).
  { rewrite <- (emul_mul E OK) by (assumption || lia). rewrite Z.mul_comm, (emul_mul E OK) by (assumption || lia). rewrite Z0. apply emul_None. }
  apply Z.odd_spec in Om. destruct Om as [h ->]. rewrite (emul_succ E) in MQ by lia. rewrite Z.mul_comm, (emul_mul E OK) in MQ by (assumption || lia).
  rewrite emul_2, D, emul_None, eadd_0_r in MQ. destruct T as [x T]. rewrite T in MQ. discriminate.
Qed.

Lemma mul_loop_spec bits : forall base result, code_point C base -> code_point C result ->
  (forall i, 0 <= i < Z.of_nat (length bits) -> ~ two_torsion (emul E (2 ^ i) (pt_val base))) ->
  returns_pt (mul_loop C bits base result) (eadd E (emul E (bits_val bits) (pt_val base)) (pt_val result)).
Proof.
  induction bits as [|bit bits IH]; intros base result HB HR NT; cbn [mul_loop bits_val].
  - exists result. split; [reflexivity|]. split; [apply HR|]. reflexivity.
  - assert (NB : ~ two_torsion (pt_val base)).
    { rewrite <- (emul_1 E (pt_val base)). apply (NT 0). cbn [length]. lia. }
    pose proof (bits_val_nonneg bits) as BN. pose proof (proj2 HB) as OB. pose proof (proj2 HR) as OR.
    assert (K : exists r, (if bit then add_points C base result else Ret result) = Ret r /\ code_point C r /\ pt_val r = eadd E (emul E (Z.b2z bit) (pt_val base)) (pt_val result)).
    { destruct bit.
      - destruct (add_points_spec base result HB HR) as (r & -> & Wr & Vr); [tauto|]. exists r. split; [reflexivity|].
        cbn [Z.b2z]. rewrite emul_1, Vr. split; [|reflexivity]. split; [assumption|]. rewrite Vr. now apply eadd_closed.
      - exists result. auto. }
    destruct K as (r & -> & Hr & Vr). cbn [obind].
    destruct (double_point_spec base HB NB) as (b' & -> & Wb' & Vb'). cbn [obind].
    assert (HB' : code_point C b') by (split; [assumption|]; rewrite Vb'; now apply eadd_closed).
    destruct (IH b' r HB' Hr) as (s & -> & Ws & Vs).
    + intros i Hi. rewrite Vb', <- emul_2, <- (emul_mul E OK) by (assumption || lia). rewrite Z.mul_comm, <- Z.pow_succ_r by lia. apply NT. cbn [length]. lia.
    + exists s. split; [reflexivity|]. split; [assumption|]. rewrite Vs, Vr, Vb'. rewrite <- (emul_2 E), <- (emul_mul E OK) by (assumption || lia).
      assert (B0 : 0 <= Z.b2z bit) by (destruct bit; cbn; lia).
      rewrite <- (eadd_assoc E OK), <- (emul_add E OK) by (assumption || lia || (apply emul_closed; assumption)).
      f_equal. f_equal. ring.
Qed.
Lemma mul_point_sharp P n : code_point C P -> wf n -> 0 <= bi_val n -> 
  (forall i, 0 <= i -> 2 ^ i <= bi_val n -> ~ two_torsion (emul E (2 ^ i) (pt_val P))) ->
  returns_pt (mul_point C P n) (emul E (bi_val n) (pt_val P)).
Proof.
  intros HP Wn Hn NT. destruct (coords P HP) as (Wx & Wy & Rx & Ry). unfold mul_point.
  rewrite !dcheck_true by (apply ge_zero; assumption || lia).
  rewrite is_zero_spec by assumption. cbn [obind]. destruct (Z.eqb_spec (bi_val n) 0) as [->|N0]; [exact identity_spec|].
  destruct identity_spec as (o & -> & Wo & Vo). cbn [obind].
  destruct (bit_len_full n Wn) as (l & _ & _ & (L1 & L2 & L3) & ->). cbn [obind]. rewrite Z.abs_eq in * by lia.
  destruct (mul_loop_spec (bits_of (Z.to_nat l) (bi_val n)) P o HP) as (r & -> & Wr & Vr).
  - split; [assumption|]. now rewrite Vo.
  - unfold bits_of. rewrite map_length, seq_length. intros i Hi. apply NT; [lia|]. transitivity (2 ^ (l - 1)); [apply Z.pow_le_mono_r; lia|lia].
  - exists r. split; [reflexivity|]. split; [assumption|]. rewrite Vr, Vo, eadd_0_r, bits_val_of, Z2Nat.id by lia.
    rewrite Z.mod_small by lia. reflexivity.
Qed.
Lemma mul_point_spec P n : code_point C P -> wf n -> 0 <= bi_val n -> 
  (forall i, 0 <= i -> ~ two_torsion (emul E (2 ^ i) (pt_val P))) ->
  returns_pt (mul_point C P n) (emul E (bi_val n) (pt_val P)).
Proof. intros. apply mul_point_sharp; auto. Qed.

(** ** The panics: doubling a point of order two *)
Lemma double_point_panics P : code_point C P -> two_torsion (pt_val P) -> double_point C P = Panic.
Proof.
  intros HP [x T]. destruct (coords P HP) as (Wx & Wy & Rx & Ry). unfold double_point.
  rewrite !dcheck_true by (apply in_field_true; assumption || exact Wp).
  rewrite is_identity_val by apply HP. rewrite T. cbn [obind].
  assert (Y0 : bi_val (py P) = 0). { unfold pt_val in T. destruct (_ && _); [discriminate|]. injection T as _ T. exact T. }
  ret (from_int_small (cfg:=cfg) 2 ltac:(lia)) two W2 V2. ret (from_int_small (cfg:=cfg) 3 ltac:(lia)) three W3 V3.
  ret (bi_mul_spec three (px P) W3 Wx) t1 Wt1 Vt1. ret (bi_mul_spec t1 (px P) Wt1 Wx) t2 Wt2 Vt2. ret (bi_add_spec t2 (c_a C) Wt2 Wa) t3 Wt3 Vt3.
  ret (bi_mul_spec two (py P) W2 Wy) t4 Wt4 Vt4. unfold curve_invert. rewrite invert_panics; [reflexivity|assumption|exact Wp| |].
  - cbn in P3. lia.
  - rewrite Vt4, Y0, Z.mul_0_r. apply Z.mod_0_l. cbn in P3. lia.
Qed.
Lemma add_points_panics P Q : code_point C P -> code_point C Q -> pt_val P = pt_val Q -> two_torsion (pt_val P) -> add_points C P Q = Panic.
Proof.
  intros HP HQ EQ T. destruct (coords P HP) as (Wx & Wy & Rx & Ry). destruct (coords Q HQ) as (Wx' & Wy' & Rx' & Ry'). unfold add_points.
  rewrite !dcheck_true by (apply in_field_true; assumption || exact Wp).
  rewrite !is_identity_val by (apply HP || apply HQ). rewrite <- EQ. pose proof T as [x T']. rewrite T'. cbn [obind andb].
  rewrite point_eq_spec by (apply HP || apply HQ).
  assert (K : bi_val (px P) = bi_val (px Q) /\ bi_val (py P) = bi_val (py Q)).
  { rewrite EQ in T'. pose proof T' as T2. rewrite <- EQ in T'. unfold pt_val in T', T2. destruct (_ && _) in T'; [discriminate|]. destruct (_ && _) in T2; [discriminate|].
    injection T' as -> ->. injection T2 as -> ->. auto. }
  destruct K as [-> ->]. rewrite !Z.eqb_refl. cbn [andb obind]. now apply double_point_panics.
Qed.
Lemma two_torsion_dec P : {two_torsion P} + {~ two_torsion P}.
Proof.
  destruct P as [[x y]|]; [|right; intros [x T]; discriminate]. destruct (Z.eq_dec y 0) as [->|N]; [left; now exists x|].
  right. intros [x' T]. injection T as _ T. contradiction.
Defined.
Lemma mul_loop_panics bits : forall base result i, code_point C base -> code_point C result ->
  0 <= i < Z.of_nat (length bits) -> two_torsion (emul E (2 ^ i) (pt_val base)) -> mul_loop C bits base result = Panic.
Proof.
  induction bits as [|bit bits IH]; intros base result i HB HR Hi T; cbn [mul_loop length] in *; [lia|].
  pose proof (proj2 HB) as OB. pose proof (proj2 HR) as OR.
  destruct (two_torsion_dec (pt_val base)) as [T0|NB].
  - pose proof (double_point_panics base HB T0) as DP. destruct bit; [|cbn [obind]; now rewrite DP].
    destruct (outcome_cases (add_points C base result)) as [[r ->]|[->|EO]]; [cbn [obind]; now rewrite DP|reflexivity|].
    exfalso. destruct (epoint_dec (pt_val base) (pt_val result)) as [EQ|NE].
    + rewrite add_points_panics in EO by assumption. discriminate.
    + destruct (add_points_spec base result HB HR) as (r & E1 & _); [tauto|]. rewrite E1 in EO. discriminate.
  - assert (K : exists r, (if bit then add_points C base result else Ret result) = Ret r /\ code_point C r).
    { destruct bit; [|eauto]. destruct (add_points_spec base result HB HR) as (r & -> & Wr & Vr); [tauto|]. exists r. split; [reflexivity|].
      split; [assumption|]. rewrite Vr. now apply eadd_closed. }
    destruct K as (r & -> & Hr). cbn [obind].
    destruct (double_point_spec base HB NB) as (b' & -> & Wb' & Vb'). cbn [obind].
    assert (I0 : i <> 0) by (intros ->; apply NB; rewrite <- (emul_1 E (pt_val base)); exact T).
    apply (IH b' r (i - 1)); [|assumption|lia|].
    + split; [assumption|]. rewrite Vb'. now apply eadd_closed.
    + rewrite Vb', <- emul_2, <- (emul_mul E OK) by (assumption || lia). rewrite Z.mul_comm, <- Z.pow_succ_r by lia.
      replace (Z.succ (i - 1)) with i by lia. exact T.
Qed.
Lemma mul_point_panics P n i : code_point C P -> wf n -> 0 <= i -> 2 ^ i <= bi_val n ->
  two_torsion (emul E (2 ^ i) (pt_val P)) -> mul_point C P n = Panic.
Proof.
  intros HP Wn Hi Hn T. destruct (coords P HP) as (Wx & Wy & Rx & Ry). unfold mul_point.
  assert (0 < 2 ^ i) by (apply Z.pow_pos_nonneg; lia).
  rewrite !dcheck_true by (apply ge_zero; assumption || lia).
  rewrite is_zero_spec by assumption. cbn [obind]. destruct (Z.eqb_spec (bi_val n) 0) as [Z0|N0]; [lia|].
  destruct identity_spec as (o & -> & Wo & Vo). cbn [obind].
  destruct (bit_len_full n Wn) as (l & _ & _ & (L1 & L2 & _) & ->). cbn [obind]. rewrite Z.abs_eq in * by lia.
  apply (mul_loop_panics _ P o i HP); [|unfold bits_of; rewrite map_length, seq_length|exact T].
  - split; [assumption|]. now rewrite Vo.
  - split; [assumption|]. rewrite Z2Nat.id by lia. apply (Z.pow_lt_mono_r_iff 2); lia.
Qed.
End Curve.

(** ** Validation *)
Lemma validate_step D P (Q : outcome bool) : wf_curve (d_curve D) -> wf_point P ->
  let p := ep (curve_val (d_curve D)) in let x := bi_val (px P) in let y := bi_val (py P) in
  (validate_point D P = Ret false /\
   ~ (0 <= x < p /\ 0 <= y < p /\ (y * y) mod p = (x * x * x + ea (curve_val (d_curve D)) * x + eb (curve_val (d_curve D))) mod p /\ ~ (x = 0 /\ y = 0))) \/
  (0 <= x < p /\ 0 <= y < p /\ (y * y) mod p = (x * x * x + ea (curve_val (d_curve D)) * x + eb (curve_val (d_curve D))) mod p /\ ~ (x = 0 /\ y = 0) /\
   validate_point D P = if negb (d_cofactor D =? 1) then
       np <- mul_point (d_curve D) P (d_order D) ;; idn <- is_identity_element np ;; (if negb idn then Ret false else Ret true)
     else Ret true).
Proof.
  intros (Wa & Wb & Wp) [Wx Wy] p x y. unfold validate_point, curve_modulo. ret bi_zero_spec z Wz Vz.
  rewrite !bi_lt_spec, !bi_ge_spec by assumption. rewrite Vz. cbn [obind].
  destruct (Z.ltb_spec (bi_val (px P)) 0) as [X0|X0]; cbn [obind]; [left; split; [reflexivity|unfold x; lia]|].
  destruct (Z.ltb_spec (bi_val (py P)) 0) as [Y0|Y0]; cbn [obind]; [left; split; [reflexivity|unfold y; lia]|].
  destruct (Z.leb_spec (bi_val (c_p (d_curve D))) (bi_val (px P))) as [XP|XP]; cbn [obind]; [left; split; [reflexivity|unfold x, p; cbn; lia]|].
  destruct (Z.leb_spec (bi_val (c_p (d_curve D))) (bi_val (py P))) as [YP|YP]; cbn [obind]; [left; split; [reflexivity|unfold y, p; cbn; lia]|].
  assert (PP : 0 < bi_val (c_p (d_curve D))) by lia.
  ret (bi_mul_spec (py P) (py P) Wy Wy) l0 Wl0 Vl0. ret (modulo_spec l0 (c_p (d_curve D)) Wl0 Wp PP) lf Wlf Vlf.
  ret (bi_mul_spec (px P) (px P) Wx Wx) r1 Wr1 Vr1. ret (bi_mul_spec r1 (px P) Wr1 Wx) r2 Wr2 Vr2.
  ret (bi_mul_spec (c_a (d_curve D)) (px P) Wa Wx) r3 Wr3 Vr3. ret (bi_add_spec r2 r3 Wr2 Wr3) r4 Wr4 Vr4.
  ret (bi_add_spec r4 (c_b (d_curve D)) Wr4 Wb) r5 Wr5 Vr5. ret (modulo_spec r5 (c_p (d_curve D)) Wr5 Wp PP) rt Wrt Vrt.
  rewrite bi_ne_spec by assumption. cbn [obind]. rewrite Vlf, Vrt, Vl0, Vr5, Vr4, Vr3, Vr2, Vr1.
  match goal with |- context [negb (?a =? ?b)] => destruct (Z.eqb_spec a b) as [EE|EE] end; cbn [negb].
  2:{ left. split; [reflexivity|]. intros (_ & _ & K & _). apply EE. exact K. }
  rewrite is_identity_spec by (split; assumption). cbn [obind].
  destruct (Z.eqb_spec (bi_val (px P)) 0) as [ZX|ZX]; destruct (Z.eqb_spec (bi_val (py P)) 0) as [ZY|ZY]; cbn [andb].
  1:{ left. split; [reflexivity|]. intros (_ & _ & _ & K). apply K. auto. }
  all: right; (split; [unfold x, p; cbn; lia|]); (split; [unfold y, p; cbn; lia|]); (split; [exact EE|]); (split; [unfold x, y; lia|reflexivity]).
Qed.
Lemma validate_cofactor1 D P : wf_curve (d_curve D) -> wf_point P -> d_cofactor D = 1 ->
  exists b, validate_point D P = Ret b /\ (b = true <-> valid_public (params_val D) (bi_val (px P)) (bi_val (py P))).
Proof.
  intros WC WP H1. destruct (validate_step D P (Ret true) WC WP) as [[-> N]|(A1 & A2 & A3 & A4 & ->)].
  - exists false. split; [reflexivity|]. split; [discriminate|]. intros (K1 & K2 & K3 & K4 & _). exfalso. apply N. cbn in *. auto.
  - rewrite H1. cbn [Z.eqb negb]. exists true. split; [reflexivity|]. split; [|reflexivity]. intros _. split; [exact A1|]. split; [exact A2|].
    split; [exact A3|]. split; [exact A4|]. intros K. exfalso. apply K. exact H1.
Qed.
Lemma valid_pt D P : code_curve (d_curve D) -> 
  (exists x y, pt_val P = Some (x, y) /\ on_curve (curve_val (d_curve D)) (Some (x, y))) <->
  (0 <= bi_val (px P) < ep (curve_val (d_curve D)) /\ 0 <= bi_val (py P) < ep (curve_val (d_curve D)) /\
   (bi_val (py P) * bi_val (py P)) mod ep (curve_val (d_curve D)) =
   (bi_val (px P) * bi_val (px P) * bi_val (px P) + ea (curve_val (d_curve D)) * bi_val (px P) + eb (curve_val (d_curve D))) mod ep (curve_val (d_curve D)) /\
   ~ (bi_val (px P) = 0 /\ bi_val (py P) = 0)).
Proof.
  intros HC. unfold pt_val. split.
  - intros (x & y & E & H). destruct (Z.eqb_spec (bi_val (px P)) 0) as [ZX|ZX]; destruct (Z.eqb_spec (bi_val (py P)) 0) as [ZY|ZY]; cbn [andb] in E; try discriminate;
      injection E as <- <-; cbn [on_curve] in H; destruct H as (K1 & K2 & K3); (split; [exact K1|]); (split; [exact K2|]); (split; [exact K3|]); lia.
  - intros (K1 & K2 & K3 & K4). exists (bi_val (px P)), (bi_val (py P)).
    destruct (Z.eqb_spec (bi_val (px P)) 0) as [ZX|ZX]; destruct (Z.eqb_spec (bi_val (py P)) 0) as [ZY|ZY]; cbn [andb]; [exfalso; auto|..]; (split; [reflexivity|]);
      (split; [exact K1|]); (split; [exact K2|]); exact K3.
Qed.
Lemma valid_point_of D P : code_curve (d_curve D) -> wf_point P -> valid_public (params_val D) (bi_val (px P)) (bi_val (py P)) ->
  code_point (d_curve D) P /\ pt_val P <> None.
Proof.
  intros HC WP (K1 & K2 & K3 & K4 & _). destruct (proj2 (valid_pt D P HC)) as (x & y & E & H); [cbn in *; auto|].
  split; [split; [assumption|]; now rewrite E|]. rewrite E. discriminate.
Qed.
Lemma validate_full D P : code_curve (d_curve D) -> wf (d_order D) -> 0 <= bi_val (d_order D) -> wf_point P ->
  (d_cofactor D <> 1 -> on_curve (curve_val (d_curve D)) (pt_val P) -> forall i, 0 <= i -> 2 ^ i <= bi_val (d_order D) -> ~ two_torsion (emul (curve_val (d_curve D)) (2 ^ i) (pt_val P))) ->
  exists b, validate_point D P = Ret b /\ (b = true <-> valid_public (params_val D) (bi_val (px P)) (bi_val (py P))).
Proof.
  intros HC Wn Hn WP NT. destruct (Z.eq_dec (d_cofactor D) 1) as [H1|H1]; [apply validate_cofactor1; try assumption; apply HC|].
  destruct (validate_step D P (Ret true) (proj1 HC) WP) as [[-> N]|(A1 & A2 & A3 & A4 & ->)].
  - exists false. split; [reflexivity|]. split; [discriminate|]. intros (K1 & K2 & K3 & K4 & _). exfalso. apply N. cbn in *. auto.
  - destruct (proj2 (valid_pt D P HC)) as (x & y & EV & HO); [auto|].
    assert (EV' : Some (bi_val (px P), bi_val (py P)) = pt_val P).
    { unfold pt_val in *. destruct (_ && _); [discriminate|]. reflexivity. }
    destruct (mul_point_sharp (d_curve D) HC P (d_order D)) as (np & -> & Wnp & Vnp); try assumption.
    + split; [assumption|]. now rewrite EV.
    + apply NT; [assumption|]. now rewrite EV.
    + replace (negb (d_cofactor D =? 1)) with true by (symmetry; apply negb_true_iff; now apply Z.eqb_neq). cbn [obind].
      rewrite is_identity_val by assumption. cbn [obind]. rewrite Vnp.
      exists (match emul (curve_val (d_curve D)) (bi_val (d_order D)) (pt_val P) with None => true | _ => false end).
      destruct (emul (curve_val (d_curve D)) (bi_val (d_order D)) (pt_val P)) as [q|] eqn:EM; cbn [negb]; (split; [reflexivity|]); split; try discriminate; intros K.
      * exfalso. destruct K as (_ & _ & _ & _ & K). specialize (K H1). cbn [params_val e_curve e_order] in K. rewrite EV', EM in K. discriminate.
      * split; [exact A1|]. split; [exact A2|]. split; [exact A3|]. split; [exact A4|]. intros _. cbn [params_val e_curve e_order]. now rewrite EV'.
      * reflexivity.
Qed.
Lemma validate_panics D P i : code_curve (d_curve D) -> wf (d_order D) -> wf_point P -> d_cofactor D <> 1 ->
  on_curve (curve_val (d_curve D)) (pt_val P) -> 0 <= i -> 2 ^ i <= bi_val (d_order D) -> two_torsion (emul (curve_val (d_curve D)) (2 ^ i) (pt_val P)) ->
  validate_point D P = Panic.
Proof.
  intros HC Wn WP H1 HO Hi L T. destruct (validate_step D P (Ret true) (proj1 HC) WP) as [[_ N]|(_ & _ & _ & _ & ->)].
  - exfalso. destruct (pt_val P) as [[x y]|] eqn:EV.
    + apply N. apply (valid_pt D P HC). exists x, y. split; [exact EV|exact HO].
    + rewrite emul_None in T. destruct T as [x T]. discriminate.
  - replace (negb (d_cofactor D =? 1)) with true by (symmetry; apply negb_true_iff; now apply Z.eqb_neq).
    rewrite (mul_point_panics (d_curve D) HC P (d_order D) i); try assumption; [reflexivity|split; assumption].
Qed.
End Proofs.

(** The group law of P_Group transferred to the integers modulo a prime. *)

From Coq Require Import ZArith Lia Bool List Field Eqdep_dec.
From Verif Require P_Group.
From Verif Require Import S_Curve P_NumTheory.
Open Scope Z_scope.

Section Zp.
Variable p : Z.
Hypothesis Hp : prime p.

Lemma p2 : 2 <= p. Proof. now apply prime_ge_2. Qed.

Definition Zp := { z : Z | (z mod p =? z) = true }.
Definition val (x : Zp) : Z := proj1_sig x.
Lemma val_inj x y : val x = val y -> x = y.
Proof.
  destruct x as [x Hx]. destruct y as [y Hy]. cbn. intros ->. f_equal. apply UIP_dec. apply bool_dec.
Qed.
Lemma inj_ok z : (((z mod p) mod p) =? z mod p) = true.
Proof. apply Z.eqb_eq. apply Z.mod_mod. pose proof p2. lia. Qed.
Definition inj (z : Z) : Zp := exist _ (z mod p) (inj_ok z).
Lemma val_range x : 0 <= val x < p.
Proof. destruct x as [x Hx]. cbn. apply Z.eqb_eq in Hx. rewrite <- Hx. apply Z.mod_pos_bound. pose proof p2. lia. Qed.
Lemma val_inj_mod z : val (inj z) = z mod p. Proof. reflexivity. Qed.
Lemma inj_val x : inj (val x) = x.
Proof. apply val_inj. cbn. apply Z.mod_small. apply val_range. Qed.
Lemma inj_eq z w : z mod p = w mod p -> inj z = inj w.
Proof. intros E. apply val_inj. exact E. Qed.
Lemma inj_iff z w : inj z = inj w <-> z mod p = w mod p.
Proof. split; [intros E; now apply (f_equal val) in E|apply inj_eq]. Qed.

Definition f0 := inj 0. Definition f1 := inj 1.
Definition fadd x y := inj (val x + val y).
Definition fsub x y := inj (val x - val y).
Definition fmul x y := inj (val x * val y).
Definition fopp x := inj (- val x).
Definition finv x := inj (zinv p (val x)).
Definition fdiv x y := fmul x (finv y).

Lemma inj_add x y : inj (x + y) = fadd (inj x) (inj y).
Proof. unfold fadd. apply inj_eq. cbn. apply Zplus_mod. Qed.
Lemma inj_sub x y : inj (x - y) = fsub (inj x) (inj y).
Proof. unfold fsub. apply inj_eq. cbn. apply Zminus_mod. Qed.
Lemma inj_mul x y : inj (x * y) = fmul (inj x) (inj y).
Proof. unfold fmul. apply inj_eq. cbn. apply Zmult_mod. Qed.
Lemma inj_opp x : inj (- x) = fopp (inj x).
Proof. unfold fopp. apply inj_eq. cbn. rewrite <- !Z.sub_0_l. rewrite Zminus_mod, (Zminus_mod 0 (x mod p)), Z.mod_mod; [reflexivity|]. pose proof p2. lia. Qed.

Lemma zinv_spec x : x mod p <> 0 -> (x * zinv p x) mod p = 1.
Proof.
  intros N. pose proof p2. unfold zinv. apply cg_eq_mod; [lia|]. eapply cg_trans; [|apply (fermat p Hp x)].
  - replace (x ^ (p - 1)) with (x * x ^ (p - 2)) by (rewrite <- Z.pow_succ_r by lia; f_equal; lia).
    apply cg_mul; [apply cg_refl|]. apply cg_mod_l. lia.
  - intros E. apply N. apply cg_iff in E; [|lia]. now rewrite E, Z.mod_0_l by lia.
Qed.
Lemma zinv_range x : 0 <= zinv p x < p.
Proof. unfold zinv. apply Z.mod_pos_bound. pose proof p2. lia. Qed.
Lemma zinv_unique x y : (x * y) mod p = 1 -> y mod p = zinv p x.
Proof.
  intros E. pose proof p2. assert (N : x mod p <> 0).
  { intros Z0. rewrite Zmult_mod, Z0, Z.mul_0_l, Z.mod_0_l in E; lia. }
  apply cg_eq_mod; [apply zinv_range|]. apply (cg_cancel p Hp x).
  - intros K. apply N. apply cg_iff in K; [|lia]. now rewrite K, Z.mod_0_l by lia.
  - apply cg_iff; [lia|]. now rewrite E, zinv_spec.
Qed.
Lemma zinv_mod x : zinv p (x mod p) = zinv p x.
Proof.
  pose proof p2. unfold zinv. apply cg_eq_mod; [apply Z.mod_pos_bound; lia|].
  eapply cg_trans; [apply cg_pow; apply cg_mod_l; lia|]. apply cg_sym, cg_mod_l. lia.
Qed.
Lemma inj_zinv x : inj (zinv p x) = finv (inj x).
Proof. unfold finv. cbn. now rewrite zinv_mod. Qed.

Lemma inj_surj x : exists z, x = inj z. Proof. exists (val x). symmetry. apply inj_val. Qed.
Lemma Zp_field : field_theory f0 f1 fadd fmul fsub fopp fdiv finv (@eq Zp).
Proof.
  pose proof p2. constructor.
  - constructor; intros; repeat match goal with x : Zp |- _ => destruct (inj_surj x) as [? ->]; clear x end;
      unfold f0, f1; rewrite <- ?inj_opp, <- ?inj_add, <- ?inj_sub, <- ?inj_mul, <- ?inj_opp, <- ?inj_add, <- ?inj_sub, <- ?inj_mul; f_equal; lia.
  - intros E. apply inj_iff in E. rewrite Z.mod_1_l, Z.mod_0_l in E by lia. discriminate.
  - reflexivity.
  - intros x N. destruct (inj_surj x) as [z ->]. rewrite <- inj_zinv, <- inj_mul. apply inj_eq.
    rewrite Z.mul_comm, zinv_spec; [now rewrite Z.mod_1_l by lia|]. intros E. apply N. apply inj_eq. now rewrite E, Z.mod_0_l by lia.
Qed.
Lemma Zp_eqd (x y : Zp) : {x = y} + {x <> y}.
Proof. destruct (Z.eq_dec (val x) (val y)) as [E|E]; [left; now apply val_inj|right; congruence]. Qed.
Lemma inj_0_iff z : inj z = f0 <-> z mod p = 0.
Proof. unfold f0. rewrite inj_iff, Z.mod_0_l; [reflexivity|]. pose proof p2. lia. Qed.
End Zp.

Section Curve.
Variable C : ecurve.
Hypothesis OK : curve_ok C.
Local Notation p := (ep C).
Let Hp : prime p := proj1 OK.
Local Notation F := (Zp p).
Local Notation I := (inj p Hp).
Let A : F := I (ea C). Let B : F := I (eb C).
Local Notation Add := (P_Group.add F (f0 p Hp) (f1 p Hp) (fadd p Hp) (fmul p Hp) (fsub p Hp) (fdiv p Hp) (Zp_eqd p) A).
Local Notation On := (P_Group.on_curve F (fadd p Hp) (fmul p Hp) A B).
Local Notation Neg := (P_Group.neg F (fopp p Hp)).

Lemma p3 : 3 < p. Proof. apply OK. Qed.

Definition V (P : option (F * F)) : epoint := match P with None => None | Some (x, y) => Some (val p x, val p y) end.
Definition L (P : epoint) : option (F * F) := match P with None => None | Some (x, y) => Some (I x, I y) end.

Lemma VL P : on_curve C P -> V (L P) = P.
Proof. destruct P as [[x y]|]; [|reflexivity]. cbn. intros (Hx & Hy & _). now rewrite !Z.mod_small. Qed.
Lemma On_L P : on_curve C P -> On (L P).
Proof.
  destruct P as [[x y]|]; [|trivial]. cbn. intros (Hx & Hy & E). unfold A, B. rewrite <- !inj_mul, <- !inj_add. now apply inj_eq.
Qed.
Lemma On_V P : On P -> on_curve C (V P).
Proof.
  destruct P as [[x y]|]; [|trivial]. cbn. intros E. pose proof (val_range p Hp x). pose proof (val_range p Hp y). split; [assumption|]. split; [assumption|].
  rewrite <- (inj_val p Hp x), <- (inj_val p Hp y) in E. unfold A, B in E. rewrite <- !inj_mul, <- !inj_add in E. now apply inj_iff in E.
Qed.
Lemma V_neg P : V (Neg P) = eneg C (V P).
Proof. destruct P as [[x y]|]; reflexivity. Qed.
Lemma V_inj P Q : V P = V Q -> P = Q.
Proof.
  destruct P as [[x y]|], Q as [[u v]|]; cbn; intros E; try discriminate; [|reflexivity]. injection E as E1 E2.
  apply val_inj in E1, E2. congruence.
Qed.

Lemma char2 : fadd p Hp (f1 p Hp) (f1 p Hp) <> f0 p Hp.
Proof. unfold f1. rewrite <- inj_add. intros E. apply inj_0_iff in E. pose proof p3. rewrite Z.mod_small in E by lia. lia. Qed.

Lemma small_surj (x : F) : exists z, x = I z /\ val p (I z) = z.
Proof. exists (val p x). rewrite inj_val. auto. Qed.

Lemma V_add P Q : V (Add P Q) = eadd C (V P) (V Q).
Proof.
  destruct P as [[x1 y1]|]; [|reflexivity]. destruct Q as [[x2 y2]|]; [|reflexivity]. pose proof p3 as P3.
  destruct (small_surj x1) as (X1 & -> & VX1). destruct (small_surj x2) as (X2 & -> & VX2).
  destruct (small_surj y1) as (Y1 & -> & VY1). destruct (small_surj y2) as (Y2 & -> & VY2).
  cbn [V eadd P_Group.add]. rewrite VX1, VX2, VY1, VY2.
  assert (E2 : (Y1 + Y2) mod p =? 0 = if Zp_eqd p (fadd p Hp (I Y1) (I Y2)) (f0 p Hp) then true else false).
  { rewrite <- inj_add. destruct (Zp_eqd p (I (Y1 + Y2)) (f0 p Hp)) as [E|E]; [apply Z.eqb_eq|apply Z.eqb_neq].
    - now apply inj_0_iff in E.
    - intros K. apply E. now apply inj_0_iff. }
  assert (E1 : (X1 =? X2) = if Zp_eqd p (I X1) (I X2) then true else false).
  { destruct (Zp_eqd p (I X1) (I X2)) as [E|E]; [apply Z.eqb_eq; congruence|apply Z.eqb_neq; congruence]. }
  rewrite E1, E2.
  assert (T : forall M : Z, V (P_Group.third F (fmul p Hp) (fsub p Hp) (I M) (I X1) (I Y1) (I X2)) =
     (let x3 := (M * M - X1 - X2) mod p in Some (x3, (M * (X1 - x3) - Y1) mod p))).
  { intros M. unfold P_Group.third. cbv zeta. cbn [V]. rewrite <- !inj_mul, <- !inj_sub, <- !inj_mul, <- !inj_sub.
    rewrite !val_inj_mod. do 2 f_equal. apply cg_iff; [lia|]. apply cg_sub; [|apply cg_refl]. apply cg_mul; [apply cg_refl|].
    apply cg_sub; [apply cg_refl|]. apply cg_sym, cg_mod_l. lia. }
  destruct (Zp_eqd p (I X1) (I X2)) as [E|N]; cbn [andb].
  - destruct (Zp_eqd p (fadd p Hp (I Y1) (I Y2)) (f0 p Hp)) as [K|K]; [reflexivity|]. rewrite <- T. do 2 f_equal.
    unfold fdiv, A, f1. rewrite <- !inj_add, <- !inj_mul, <- !inj_add, <- inj_zinv, <- inj_mul. reflexivity.
  - rewrite <- T. do 2 f_equal. unfold fdiv. now rewrite <- !inj_sub, <- inj_zinv, <- inj_mul.
Qed.

(** ** The group laws *)
Lemma disc : 
  let f := fmul p Hp in let two := fadd p Hp (f1 p Hp) (f1 p Hp) in let three := fadd p Hp two (f1 p Hp) in
  fadd p Hp (f (f (f (f two two) A) A) A) (f (f (f (f three three) three) B) B) <> f0 p Hp.
Proof.
  cbv zeta. unfold A, B, f1. rewrite <- !inj_add, <- !inj_mul, <- !inj_add. intros E. apply inj_0_iff in E. apply (proj2 (proj2 OK)). exact E.
Qed.
Ltac lift P H := rewrite <- (VL P H).
Theorem eadd_closed P Q : on_curve C P -> on_curve C Q -> on_curve C (eadd C P Q).
Proof.
  intros H1 H2. lift P H1. lift Q H2. rewrite <- V_add. apply On_V.
  apply (P_Group.add_closed _ _ _ _ _ _ _ _ _ (Zp_field p Hp) _ _ _ char2); now apply On_L.
Qed.
Theorem eneg_closed P : on_curve C P -> on_curve C (eneg C P).
Proof. intros H. lift P H. rewrite <- V_neg. apply On_V. apply (P_Group.neg_closed _ _ _ _ _ _ _ _ _ (Zp_field p Hp)). now apply On_L. Qed.
Theorem eadd_comm P Q : on_curve C P -> on_curve C Q -> eadd C P Q = eadd C Q P.
Proof.
  intros H1 H2. lift P H1. lift Q H2. rewrite <- !V_add. f_equal.
  apply (P_Group.add_comm _ _ _ _ _ _ _ _ _ (Zp_field p Hp) _ _ B char2); now apply On_L.
Qed.
Theorem eadd_assoc P Q R : on_curve C P -> on_curve C Q -> on_curve C R -> eadd C (eadd C P Q) R = eadd C P (eadd C Q R).
Proof.
  intros H1 H2 H3. lift P H1. lift Q H2. lift R H3. rewrite <- !V_add. f_equal.
  apply (P_Group.add_assoc _ _ _ _ _ _ _ _ _ (Zp_field p Hp) _ _ B char2 disc); now apply On_L.
Qed.
Theorem eadd_0_l P : eadd C None P = P. Proof. reflexivity. Qed.
Theorem eadd_0_r P : eadd C P None = P. Proof. destruct P as [[x y]|]; reflexivity. Qed.
Theorem eadd_neg P : on_curve C P -> eadd C P (eneg C P) = None.
Proof. intros H. lift P H. rewrite <- V_neg, <- V_add. rewrite (P_Group.add_neg _ _ _ _ _ _ _ _ _ (Zp_field p Hp)). reflexivity. Qed.
Theorem eneg_neg P : on_curve C P -> eneg C (eneg C P) = P.
Proof. intros H. lift P H. rewrite <- !V_neg. f_equal. apply (P_Group.neg_neg _ _ _ _ _ _ _ _ _ (Zp_field p Hp)). Qed.

(** ** Scalar multiplication *)
Lemma emul_0 P : emul C 0 P = None. Proof. reflexivity. Qed.
Lemma emul_neg k P : k <= 0 -> emul C k P = None.
Proof. intros H. unfold emul. replace (Z.to_nat k) with O by lia. reflexivity. Qed.
Lemma emul_succ k P : 0 <= k -> emul C (k + 1) P = eadd C P (emul C k P).
Proof. intros H. unfold emul. replace (Z.to_nat (k + 1)) with (S (Z.to_nat k)) by lia. reflexivity. Qed.
Lemma emul_1 P : emul C 1 P = P.
Proof. change 1 with (0 + 1). rewrite emul_succ by lia. apply eadd_0_r. Qed.
Lemma emul_closed k P : on_curve C P -> on_curve C (emul C k P).
Proof.
  intros H. unfold emul. induction (Z.to_nat k) as [|n IH]; [exact Logic.I|]. cbn. now apply eadd_closed.
Qed.
Lemma emul_ind (Q : Z -> Prop) : Q 0 -> (forall k, 0 <= k -> Q k -> Q (k + 1)) -> forall k, 0 <= k -> Q k.
Proof. intros H0 HS k Hk. pattern k. apply natlike_ind; [assumption| |assumption]. intros x Hx. rewrite <- Z.add_1_r. now apply HS. Qed.
Lemma emul_add j k P : on_curve C P -> 0 <= j -> 0 <= k -> emul C (j + k) P = eadd C (emul C j P) (emul C k P).
Proof.
  intros H Hj Hk. revert j Hj. apply (emul_ind (fun j => emul C (j + k) P = eadd C (emul C j P) (emul C k P))); [reflexivity|].
  intros j Hj IH. replace (j + 1 + k) with (j + k + 1) by ring. rewrite !emul_succ by lia. rewrite IH. symmetry. apply eadd_assoc; auto using emul_closed.
Qed.
Lemma emul_None k : emul C k None = None.
Proof. unfold emul. induction (Z.to_nat k) as [|n IH]; [reflexivity|]. exact IH. Qed.
Lemma emul_mul j k P : on_curve C P -> 0 <= j -> 0 <= k -> emul C (j * k) P = emul C j (emul C k P).
Proof.
  intros H Hj Hk. revert j Hj. apply (emul_ind (fun j => emul C (j * k) P = emul C j (emul C k P))); [reflexivity|].
  intros j Hj IH. replace ((j + 1) * k) with (k + j * k) by ring. rewrite emul_add by (assumption || nia). rewrite emul_succ by lia. now rewrite IH.
Qed.
Lemma emul_2 P : emul C 2 P = eadd C P P.
Proof. change 2 with (1 + 1). rewrite emul_succ, emul_1 by lia. reflexivity. Qed.
Lemma emul_eadd k P Q : on_curve C P -> on_curve C Q -> 0 <= k -> emul C k (eadd C P Q) = eadd C (emul C k P) (emul C k Q).
Proof.
  intros HP HQ. apply (emul_ind (fun k => emul C k (eadd C P Q) = eadd C (emul C k P) (emul C k Q))); [reflexivity|].
  intros j Hj IH. rewrite !emul_succ by lia. rewrite IH.
  pose proof (emul_closed j P HP) as K1. pose proof (emul_closed j Q HQ) as K2.
  rewrite !eadd_assoc by auto using eadd_closed. f_equal. rewrite <- !eadd_assoc by auto using eadd_closed. f_equal. now apply eadd_comm.
Qed.

(** cancellation *)
Lemma eadd_cancel_l P Q R : on_curve C P -> on_curve C Q -> on_curve C R -> eadd C P Q = eadd C P R -> Q = R.
Proof.
  intros HP HQ HR E. pose proof (eneg_closed P HP) as HN.
  assert (K : forall T, on_curve C T -> eadd C (eneg C P) (eadd C P T) = T).
  { intros T HT. rewrite <- eadd_assoc by assumption. rewrite (eadd_comm (eneg C P)) by assumption. now rewrite eadd_neg. }
  rewrite <- (K Q HQ), E. now apply K.
Qed.
Lemma eneg_unique P Q : on_curve C P -> on_curve C Q -> eadd C P Q = None -> Q = eneg C P.
Proof.
  intros HP HQ E. apply (eadd_cancel_l P); auto using eneg_closed. now rewrite eadd_neg.
Qed.
Lemma emul_eneg k P : on_curve C P -> 0 <= k -> emul C k (eneg C P) = eneg C (emul C k P).
Proof.
  intros HP Hk. apply eneg_unique; auto using emul_closed, eneg_closed.
  rewrite <- emul_eadd by auto using eneg_closed. rewrite eadd_neg by assumption. apply emul_None.
Qed.
Lemma emul_mod n k P : on_curve C P -> 0 < n -> emul C n P = None -> 0 <= k -> emul C (k mod n) P = emul C k P.
Proof.
  intros HP Hn E Hk. rewrite (Z.div_mod k n) at 2 by lia. pose proof (Z.mod_pos_bound k n Hn). pose proof (Z.div_pos k n Hk Hn).
  rewrite emul_add by (assumption || nia). rewrite (Z.mul_comm n), emul_mul by (assumption || lia). rewrite E, emul_None. reflexivity.
Qed.
End Curve.

(** A certificate that a curve y^2 = x^3 + a x + b modulo p has no point of order two: the cubic has no root, because a
    root r is a root of X^p - X, which has an inverse modulo the cubic. *)

From Coq Require Import ZArith Lia Bool.
From Verif Require Import S_Curve S_EcModel P_NumTheory P_Curve P_Order P_Fast P_Cert.
Open Scope Z_scope.

Definition quad : Type := Z * Z * Z.
Definition qval (r : Z) (f : quad) : Z := let '(a, b, c) := f in a * (r * r) + b * r + c.
(** the product modulo X^3 + A X + B *)
Definition qmul (red : Z -> Z) (A B : Z) (f g : quad) : quad :=
  let '(a, b, c) := f in let '(d, e, h) := g in
  let x4 := red (fmul a d) in let x3 := red (fmul a e + fmul b d) in
  (red (fmul a h + fmul b e + fmul c d + fmul A x4), red (fmul b h + fmul c e + fmul A x3 + fmul B x4), red (fmul c h + fmul B x3)).
Definition qsq (red : Z -> Z) (A B : Z) (f : quad) : quad :=
  let '(a, b, c) := f in
  let x4 := red (fmul a a) in let x3 := red (2 * fmul a b) in
  (red (2 * fmul a c + fmul b b + fmul A x4), red (2 * fmul b c + fmul A x3 + fmul B x4), red (fmul c c + fmul B x3)).
Lemma qsq_eq red A B f : qsq red A B f = qmul red A B f f.
Proof.
  destruct f as [[a b] c]. unfold qsq, qmul. cbv zeta. rewrite !fmul_eq. replace (a * b + b * a) with (2 * (a * b)) by ring.
  replace (a * c + b * b + c * a) with (2 * (a * c) + b * b) by ring. replace (b * c + c * b) with (2 * (b * c)) by ring. reflexivity.
Qed.
(** X f *)
Definition qx (red : Z -> Z) (A B : Z) (f : quad) : quad := let '(a, b, c) := f in (b, red (c + fmul A a), red (fmul B a)).
Fixpoint qpow (red : Z -> Z) (A B : Z) (e : positive) : quad :=
  match e with
  | xH => (0, 1, 0)
  | xO e' => let h := qpow red A B e' in qsq red A B h
  | xI e' => let h := qpow red A B e' in qx red A B (qsq red A B h)
  end.
(** [u] is the inverse of X^p - X *)
Definition rootless (red : Z -> Z) (C : ecurve) (u : quad) : bool :=
  let A := red (- ea C) in let B := red (- eb C) in
  let '(a, b, c) := qpow red A B (Z.to_pos (ep C)) in
  let '(x, y, z) := qmul red A B u (a, red (b + (ep C - 1)), c) in (x =? 0) && (y =? 0) && (z =? 1).

Section Root.
Context (red : Z -> Z) (C : ecurve) (OK : curve_ok C) (HR : reduces (ep C) red) (r : Z).
Local Notation p := (ep C).
Context (HF : cg p (r * r * r + ea C * r + eb C) 0).
Local Notation A := (red (- ea C)).
Local Notation B := (red (- eb C)).
Let Pp : 0 < p. Proof. destruct OK as (_ & H & _). lia. Qed.

Lemma cg_red x : cg p (red x) x.
Proof. rewrite HR. exists (- (x / p)). pose proof (Z.div_mod x p ltac:(lia)). lia. Qed.
Lemma cube : cg p (r * r * r) (A * r + B).
Proof. rewrite (cg_red (- ea C)), (cg_red (- eb C)). destruct HF as [k K]. exists k. lia. Qed.
Lemma qmul_ok f g : cg p (qval r (qmul red A B f g)) (qval r f * qval r g).
Proof.
  destruct f as [[a b] c], g as [[d e] h]. unfold qmul, qval. cbv zeta. rewrite !fmul_eq.
  pose proof cube as CU. set (A' := A) in *. set (B' := B) in *. clearbody A' B'.
  set (x4 := red (a * d)). set (x3 := red (a * e + b * d)). destruct (cg_red (a * d)) as [k4 K4], (cg_red (a * e + b * d)) as [k3 K3]. fold x4 in K4. fold x3 in K3. clearbody x4 x3.
  destruct (cg_red (a * h + b * e + c * d + A' * x4)) as [k2 K2], (cg_red (b * h + c * e + A' * x3 + B' * x4)) as [k1 K1], (cg_red (c * h + B' * x3)) as [k0 K0].
  set (t2 := red _) in K2 |- *. set (t1 := red _) in K1 |- *. set (t0 := red _) in K0 |- *. clearbody t2 t1 t0. destruct CU as [k K].
  exists (k2 * (r * r) + k1 * r + k0 + k4 * (r * r * r * r) + k3 * (r * r * r) - (x4 * r + x3) * k).
  assert (E2 : t2 = a * h + b * e + c * d + A' * x4 + k2 * p) by lia. assert (E1 : t1 = b * h + c * e + A' * x3 + B' * x4 + k1 * p) by lia.
  assert (E0 : t0 = c * h + B' * x3 + k0 * p) by lia. assert (E4 : x4 = a * d + k4 * p) by lia. assert (E3 : x3 = a * e + b * d + k3 * p) by lia.
  assert (EB : B' = r * r * r - A' * r - k * p) by lia. clear K K0 K1 K2 K3 K4. subst t2 t1 t0. subst B'. subst x4 x3. ring.
Qed.
Lemma qx_ok f : cg p (qval r (qx red A B f)) (r * qval r f).
Proof.
  destruct f as [[a b] c]. unfold qx, qval. rewrite !fmul_eq. pose proof cube as CU. set (A' := A) in *. set (B' := B) in *. clearbody A' B'.
  destruct (cg_red (c + A' * a)) as [k1 K1], (cg_red (B' * a)) as [k0 K0]. set (t1 := red _) in K1 |- *. set (t0 := red _) in K0 |- *. clearbody t1 t0. destruct CU as [k K].
  exists (k1 * r + k0 - a * k). assert (E1 : t1 = c + A' * a + k1 * p) by lia. assert (E0 : t0 = B' * a + k0 * p) by lia.
  assert (EB : B' = r * r * r - A' * r - k * p) by lia. clear K K0 K1. subst t1 t0. subst B'. ring.
Qed.
Lemma qpow_ok e : cg p (qval r (qpow red A B e)) (r ^ Zpos e).
Proof.
  induction e as [e IH|e IH|]; cbn [qpow]; cbv zeta.
  - rewrite qx_ok, qsq_eq, qmul_ok, IH. apply cg_of_eq. replace (Z.pos e~1) with (1 + (Z.pos e + Z.pos e)) by lia. rewrite !Z.pow_add_r, Z.pow_1_r by lia. ring.
  - rewrite qsq_eq, qmul_ok, IH. apply cg_of_eq. rewrite <- Z.pow_add_r by lia. f_equal. lia.
  - apply cg_of_eq. unfold qval. rewrite Z.pow_1_r. ring.
Qed.
Lemma rootless_false u : rootless red C u = true -> False.
Proof.
  intros H. unfold rootless in H. cbv zeta in H. pose proof (qpow_ok (Z.to_pos p)) as Q. rewrite Z2Pos.id in Q by lia.
  destruct (qpow red A B (Z.to_pos p)) as [[a b] c]. pose proof (qmul_ok u (a, red (b + (p - 1)), c)) as M.
  destruct (qmul red A B u _) as [[x y] z]. apply andb_prop in H. destruct H as [H H3]. apply andb_prop in H. destruct H as [H1 H2].
  apply Z.eqb_eq in H1, H2, H3. subst x y z.
  assert (PR : prime p) by apply OK.
  assert (FR : cg p (r ^ p) r).
  { destruct (Z.eq_dec (r mod p) 0) as [Z0|N0].
    - assert (K : cg p r 0) by (apply cg_iff; [exact Pp|]; rewrite Z0, Z.mod_0_l; lia).
      eapply cg_trans; [apply cg_pow; exact K|]. rewrite Z.pow_0_l by lia. now apply cg_sym.
    - replace p with ((p - 1) + 1) at 2 by lia. rewrite Z.pow_add_r, Z.pow_1_r by lia.
      assert (N : ~ cg p r 0) by (intros K; apply N0; apply cg_iff in K; [|exact Pp]; rewrite K; apply Z.mod_0_l; lia).
      rewrite (fermat p PR r N). apply cg_of_eq. ring. }
  assert (G0 : cg p (qval r (a, red (b + (p - 1)), c)) 0).
  { unfold qval in *. rewrite cg_red. rewrite FR in Q. destruct Q as [k K]. exists (k + r). lia. }
  rewrite G0 in M. unfold qval in M. destruct M as [k K]. destruct OK as (_ & H3 & _).
  assert (D : (p | 1)) by (exists k; lia). apply Z.divide_1_r_nonneg in D; lia.
Qed.
End Root.

Theorem rootless_ok red C u : curve_ok C -> reduces (ep C) red -> rootless red C u = true -> forall P, on_curve C P -> ~ two_torsion P.
Proof.
  intros OK HR HU P H [x ->]. cbn [on_curve] in H. destruct H as (_ & _ & H). apply (rootless_false red C OK HR x) with u; [|exact HU].
  assert (P0 : 0 < ep C) by (destruct OK as (_ & K & _); lia). apply cg_iff in H; [|exact P0]. now apply cg_sym.
Qed.

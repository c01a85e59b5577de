(** Properties C23, C24 and C55: the point functions and the secp256k1 parameters.

    S_Curve.v is the textbook: curves modulo a prime, [eadd] (chord and tangent), [emul] (repeated addition),
    [eneg], [params_ok]. S_EcModel.v says what the program's values denote: [pt_val P] is the point a program value stands
    for ((0, 0) is the point at infinity), [code_curve C] a non-singular curve modulo a prime p > 3 with b not 0
    modulo p, [code_point C P] a point of it, [same_point] equality in the program's own sense. *)

From Verif Require Import Base M_BigInt M_Modular M_Curve S_BigInt S_Curve S_EcModel.
From Verif Require P_Curve P_EcModel P_Secp P_EcEx P_EcLaws.
Open Scope Z_scope.

(** * C23 *)
(** The textbook operation is an abelian group on every such curve. *)
Theorem C23_group_law : forall C, curve_ok C ->
  (forall P Q, on_curve C P -> on_curve C Q -> on_curve C (eadd C P Q)) /\
  (forall P Q, on_curve C P -> on_curve C Q -> eadd C P Q = eadd C Q P) /\
  (forall P Q R, on_curve C P -> on_curve C Q -> on_curve C R -> eadd C (eadd C P Q) R = eadd C P (eadd C Q R)) /\
  (forall P, on_curve C P -> eadd C P None = P /\ eadd C None P = P) /\
  (forall P, on_curve C P -> on_curve C (eneg C P) /\ eadd C P (eneg C P) = None).
Proof. exact @P_EcLaws.group_law. Qed.
Print Assumptions C23_group_law.

(** The program computes it. Missing from the full property: the sum of a point of order two with itself,
    on which the program panics (C23_panics), and curves with b = 0 modulo p (C23_origin_refuted). *)
Theorem C23_add_partial : forall (cfg : digit_cfg) C P Q, code_curve C -> code_point C P -> code_point C Q ->
  ~ (pt_val P = pt_val Q /\ two_torsion (pt_val P)) ->
  exists R, add_points C P Q = Ret R /\ code_point C R /\ pt_val R = eadd (curve_val C) (pt_val P) (pt_val Q).
Proof. exact @P_EcLaws.add_full. Qed.
Print Assumptions C23_add_partial.

Theorem C23_double_partial : forall (cfg : digit_cfg) C P, code_curve C -> code_point C P -> ~ two_torsion (pt_val P) ->
  exists R, double_point C P = Ret R /\ code_point C R /\ pt_val R = eadd (curve_val C) (pt_val P) (pt_val P).
Proof. exact @P_EcLaws.double_full. Qed.
Print Assumptions C23_double_partial.

(** The panics are exactly the ones excluded above. *)
Theorem C23_add_panics : forall (cfg : digit_cfg) C P Q, code_curve C -> code_point C P -> code_point C Q ->
  (add_points C P Q = Panic <-> pt_val P = pt_val Q /\ two_torsion (pt_val P)).
Proof. exact @P_EcLaws.add_panic_iff. Qed.
Print Assumptions C23_add_panics.

Theorem C23_double_panics : forall (cfg : digit_cfg) C P, code_curve C -> code_point C P ->
  (double_point C P = Panic <-> two_torsion (pt_val P)).
Proof. exact @P_EcLaws.double_panic_iff. Qed.
Print Assumptions C23_double_panics.

(** On a curve without points of order two the program's addition is a total, closed, commutative and associative
    operation, with the identity neutral and the negated point inverse. *)
Theorem C23_laws_partial : forall (cfg : digit_cfg) C, code_curve C -> no_two_torsion (curve_val C) ->
  (forall P Q, code_point C P -> code_point C Q ->
     (exists R, add_points C P Q = Ret R /\ code_point C R) /\ same_point (add_points C P Q) (add_points C Q P)) /\
  (forall P, code_point C P -> same_point (double_point C P) (add_points C P P)) /\
  (forall P Q R, code_point C P -> code_point C Q -> code_point C R ->
     same_point (pq <- add_points C P Q ;; add_points C pq R) (qr <- add_points C Q R ;; add_points C P qr)) /\
  (forall P, code_point C P -> same_point (o <- identity_element ;; add_points C P o) (Ret P) /\
                               same_point (o <- identity_element ;; add_points C o P) (Ret P)) /\
  (forall P N, code_point C P -> wf_point N -> pt_val N = eneg (curve_val C) (pt_val P) -> same_point (add_points C P N) identity_element).
Proof. exact @P_EcLaws.laws. Qed.
Print Assumptions C23_laws_partial.

(** secp256k1, the one curve the library ships, is such a curve: nothing is missing there. *)
Theorem C23_secp256k1 : forall (cfg : digit_cfg) D, secp256k1 = Ret D ->
  code_curve (d_curve D) /\ no_two_torsion (curve_val (d_curve D)).
Proof. exact @P_EcLaws.secp_no_two. Qed.
Print Assumptions C23_secp256k1.

(** On the 19-point curve y^2 = x^3 + 2x + 2 modulo 17. *)
Example C23_witness : forall cfg : digit_cfg, exists D P2 P3 P7, small_params 2 2 17 5 1 19 1 = Ret D /\ code_params D /\ code_curve (d_curve D) /\
  no_two_torsion (curve_val (d_curve D)) /\ code_point (d_curve D) (d_base D) /\
  add_points (d_curve D) (d_base D) (d_base D) = Ret P2 /\ pt_val P2 = Some (6, 3) /\
  add_points (d_curve D) P2 (d_base D) = Ret P3 /\ pt_val P3 = Some (10, 6) /\
  (k <- from_int 7 ;; mul_point (d_curve D) (d_base D) k) = Ret P7 /\ pt_val P7 = Some (0, 6).
Proof. exact @P_EcLaws.toy_sums. Qed.

(** The full property fails: on y^2 = x^3 + x + 4 modulo 17 (sound parameters, base point (4, 2) of order 7, cofactor 2)
    the point (3, 0) cannot be doubled, added to itself, or even multiplied by one. *)
Theorem C23_refuted : forall cfg : digit_cfg, exists D P, small_params 1 4 17 4 2 7 2 = Ret D /\ small_point 3 0 = Ret P /\
  code_params D /\ code_curve (d_curve D) /\ code_point (d_curve D) P /\ pt_val P <> None /\
  double_point (d_curve D) P = Panic /\ add_points (d_curve D) P P = Panic /\ (o <- bi_one ;; mul_point (d_curve D) P o) = Panic.
Proof. exact @P_EcLaws.refuted23. Qed.
Print Assumptions C23_refuted.

(** On y^2 = x^3 + 2x modulo 17 the point (0, 0) is taken for the point at infinity: the program returns
    (0, 0) + (4, 2) = (4, 2). *)
Theorem C23_origin_refuted : forall cfg : digit_cfg, exists D P R, small_params 2 0 17 4 2 3 1 = Ret D /\ small_point 0 0 = Ret P /\
  wf_params D /\ curve_ok (curve_val (d_curve D)) /\ on_curve (curve_val (d_curve D)) (Some (0, 0)) /\ on_curve (curve_val (d_curve D)) (Some (4, 2)) /\
  add_points (d_curve D) P (d_base D) = Ret R /\ pt_val R = Some (4, 2) /\ eadd (curve_val (d_curve D)) (Some (0, 0)) (Some (4, 2)) <> Some (4, 2).
Proof. exact @P_EcLaws.refuted23_b0. Qed.
Print Assumptions C23_origin_refuted.

(** * C24 *)
(** Repeated addition is linear in the scalar. *)
Theorem C24_scalar_laws : forall C, curve_ok C -> forall P a b, on_curve C P -> 0 <= a -> 0 <= b ->
  emul C (a + b) P = eadd C (emul C a P) (emul C b P) /\ emul C (a * b) P = emul C a (emul C b P) /\
  emul C 0 P = None /\ emul C 1 P = P /\ on_curve C (emul C a P).
Proof. exact @P_EcLaws.scalar_laws. Qed.
Print Assumptions C24_scalar_laws.

(** The program computes it, unless one of the points P, 2P, 4P, ... it doubles has order two: then it panics. *)
Theorem C24_mul_partial : forall (cfg : digit_cfg) C P k, code_curve C -> code_point C P -> wf k -> 0 <= bi_val k ->
  (forall i, 0 <= i -> 2 ^ i <= bi_val k -> ~ two_torsion (emul (curve_val C) (2 ^ i) (pt_val P))) ->
  exists R, mul_point C P k = Ret R /\ code_point C R /\ pt_val R = emul (curve_val C) (bi_val k) (pt_val P).
Proof. exact @P_EcLaws.mul_full. Qed.
Print Assumptions C24_mul_partial.

Theorem C24_mul_panics : forall (cfg : digit_cfg) C P k, code_curve C -> code_point C P -> wf k -> 0 <= bi_val k ->
  (exists i, 0 <= i /\ 2 ^ i <= bi_val k /\ two_torsion (emul (curve_val C) (2 ^ i) (pt_val P))) -> mul_point C P k = Panic.
Proof. exact @P_EcLaws.mul_panic_if. Qed.
Print Assumptions C24_mul_panics.

(** Points of odd order (a subgroup of odd prime order, in particular) have no such multiples. *)
Theorem C24_odd_order : forall (cfg : digit_cfg) C P m k, code_curve C -> code_point C P ->
  0 < m -> Z.odd m = true -> emul (curve_val C) m (pt_val P) = None -> wf k -> 0 <= bi_val k ->
  exists R, mul_point C P k = Ret R /\ code_point C R /\ pt_val R = emul (curve_val C) (bi_val k) (pt_val P).
Proof. exact @P_EcLaws.mul_odd. Qed.
Print Assumptions C24_odd_order.

Theorem C24_linear : forall (cfg : digit_cfg) C P m, code_curve C -> code_point C P ->
  0 < m -> Z.odd m = true -> emul (curve_val C) m (pt_val P) = None ->
  forall a b s t, wf a -> wf b -> wf s -> wf t -> 0 <= bi_val a -> 0 <= bi_val b -> bi_val s = bi_val a + bi_val b -> bi_val t = bi_val a * bi_val b ->
  same_point (mul_point C P s) (A <- mul_point C P a ;; B <- mul_point C P b ;; add_points C A B) /\
  same_point (mul_point C P t) (B <- mul_point C P b ;; mul_point C B a).
Proof. exact @P_EcLaws.mul_laws. Qed.
Print Assumptions C24_linear.

Theorem C24_secp256k1 : forall (cfg : digit_cfg) D P k, secp256k1 = Ret D -> code_point (d_curve D) P -> wf k -> 0 <= bi_val k ->
  exists R, mul_point (d_curve D) P k = Ret R /\ code_point (d_curve D) R /\ pt_val R = emul (curve_val (d_curve D)) (bi_val k) (pt_val P).
Proof. exact @P_EcLaws.secp_mul. Qed.
Print Assumptions C24_secp256k1.

(** C23_witness multiplies (5, 1) by 7; C23_refuted is the failing case of the full property (1 * (3, 0)). *)

(** * C55 *)
(** The parameters the program builds are the published ones, and they are sound: p and n are primes, the curve is
    non-singular, and the base point has order n and generates every point of the curve (cofactor 1). *)
Theorem C55_secp256k1 : forall cfg : digit_cfg, exists D,
  secp256k1 = Ret D /\ code_params D /\ params_val D = SECP256K1 /\ params_ok SECP256K1.
Proof. exact @P_EcEx.secp_code. Qed.
Print Assumptions C55_secp256k1.

(** What the model's curves, points and domain parameters denote. *)

From Verif Require Import Base M_BigInt M_Curve S_BigInt S_Curve.
Open Scope Z_scope.

Section Spec.
Context {cfg : digit_cfg}.

Definition wf_point (P : point) : Prop := wf (px P) /\ wf (py P).
Definition wf_curve (C : curve) : Prop := wf (c_a C) /\ wf (c_b C) /\ wf (c_p C).
Definition curve_val (C : curve) : ecurve := mkE (bi_val (c_a C)) (bi_val (c_b C)) (bi_val (c_p C)).

(** The program writes the point at infinity as (0, 0). *)
Definition pt_val (P : point) : epoint :=
  if (bi_val (px P) =? 0) && (bi_val (py P) =? 0) then None else Some (bi_val (px P), bi_val (py P)).

(** A curve on which (0, 0) is not an affine point (b is not 0 modulo p), so that this is unambiguous. *)
Definition code_curve (C : curve) : Prop :=
  wf_curve C /\ curve_ok (curve_val C) /\ eb (curve_val C) mod ep (curve_val C) <> 0.

(** [P] is a well-formed point (possibly the identity) of the curve. *)
Definition code_point (C : curve) (P : point) : Prop := wf_point P /\ on_curve (curve_val C) (pt_val P).

(** [o] returns, without panicking, a well-formed point denoting [Q]. *)
Definition returns_pt (o : outcome point) (Q : epoint) : Prop :=
  exists R, o = Ret R /\ wf_point R /\ pt_val R = Q.

(** Both calls return, and the program's == finds the two points equal. *)
Definition same_point (o1 o2 : outcome point) : Prop :=
  exists A B, o1 = Ret A /\ o2 = Ret B /\ point_eq A B = Ret true.

Definition wf_params (D : params) : Prop := wf_curve (d_curve D) /\ wf_point (d_base D) /\ wf (d_order D).
Definition params_val (D : params) : eparams :=
  mkEP (curve_val (d_curve D)) (pt_val (d_base D)) (bi_val (d_order D)) (d_cofactor D).
(** Sound domain parameters, on a curve on which (0, 0) is not a point. *)
Definition code_params (D : params) : Prop :=
  wf_params D /\ params_ok (params_val D) /\ eb (curve_val (d_curve D)) mod ep (curve_val (d_curve D)) <> 0.

(** Domain parameters with small numbers, for the examples. *)
Definition small_params (a b p x y n h : Z) : outcome params :=
  a' <- from_int a ;; b' <- from_int b ;; p' <- from_int p ;; x' <- from_int x ;; y' <- from_int y ;; n' <- from_int n ;;
  Ret (mkParams (mkCurve a' b' p') (mkPoint x' y') n' h).
Definition small_point (x y : Z) : outcome point := x' <- from_int x ;; y' <- from_int y ;; Ret (mkPoint x' y').

End Spec.

(** What a public key must be (SEC 1, section 3.2.2): coordinates in the field, the curve equation, not the
    point at infinity, and in the subgroup of the base point if that is not the whole curve. *)
Definition valid_public (D : eparams) (x y : Z) : Prop :=
  let p := ep (e_curve D) in
  0 <= x < p /\ 0 <= y < p /\
  (y * y) mod p = (x * x * x + ea (e_curve D) * x + eb (e_curve D)) mod p /\
  ~ (x = 0 /\ y = 0) /\
  (e_cofactor D <> 1 -> emul (e_curve D) (e_order D) (Some (x, y)) = None).

(** [P] is a point of order two. *)
Definition two_torsion (P : epoint) : Prop := exists x, P = Some (x, 0).
Definition no_two_torsion (C : ecurve) : Prop := forall P, on_curve C P -> ~ two_torsion P.

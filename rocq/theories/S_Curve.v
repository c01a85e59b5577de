(** Elliptic curves over the integers modulo a prime, as in the textbooks: affine points with
    reduced coordinates, [None] for the point at infinity, the chord-and-tangent rule, and scalar
    multiplication as repeated addition. *)

From Coq Require Import ZArith List Bool.
From Coq Require Export Znumtheory.
Open Scope Z_scope.

(** The curve y^2 = x^3 + a x + b modulo p. *)
Record ecurve := mkE { ea : Z; eb : Z; ep : Z }.
Definition epoint := option (Z * Z).

(** p is a prime greater than 3 and the curve is non-singular. *)
Definition curve_ok (C : ecurve) : Prop :=
  prime (ep C) /\ 3 < ep C /\ (4 * ea C * ea C * ea C + 27 * eb C * eb C) mod ep C <> 0.

Definition on_curve (C : ecurve) (P : epoint) : Prop :=
  match P with
  | None => True
  | Some (x, y) => 0 <= x < ep C /\ 0 <= y < ep C /\ (y * y) mod ep C = (x * x * x + ea C * x + eb C) mod ep C
  end.

(** The inverse of x modulo the prime p (Fermat). *)
Definition zinv (p x : Z) : Z := (x ^ (p - 2)) mod p.

Definition eneg (C : ecurve) (P : epoint) : epoint :=
  match P with None => None | Some (x, y) => Some (x, (- y) mod ep C) end.

Definition eadd (C : ecurve) (P Q : epoint) : epoint :=
  match P, Q with
  | None, _ => Q
  | _, None => P
  | Some (x1, y1), Some (x2, y2) =>
      if (x1 =? x2) && ((y1 + y2) mod ep C =? 0) then None
      else
        let m := if x1 =? x2 then (3 * x1 * x1 + ea C) * zinv (ep C) (2 * y1)
                 else (y2 - y1) * zinv (ep C) (x2 - x1) in
        let x3 := (m * m - x1 - x2) mod ep C in
        Some (x3, (m * (x1 - x3) - y1) mod ep C)
  end.

(** k P = P + ... + P, k times *)
Definition emul (C : ecurve) (k : Z) (P : epoint) : epoint := Nat.iter (Z.to_nat k) (eadd C P) None.

(** [zinv] is characterised by x * zinv x = 1 (mod p) and 0 <= zinv x < p: see P_Curve.zinv_spec, zinv_unique. *)

(** Domain parameters: a curve, a base point of order n, and the cofactor. *)
Record eparams := mkEP { e_curve : ecurve; e_base : epoint; e_order : Z; e_cofactor : Z }.

(** Sound domain parameters: a non-singular curve over a prime field, a base point of odd prime order n, and a
    cofactor that tells the truth: with cofactor 1 the base point generates the whole curve, otherwise it
    generates the points killed by n. *)
Definition params_ok (D : eparams) : Prop :=
  curve_ok (e_curve D) /\
  prime (e_order D) /\ 2 < e_order D /\
  on_curve (e_curve D) (e_base D) /\ e_base D <> None /\
  emul (e_curve D) (e_order D) (e_base D) = None /\
  (forall P, on_curve (e_curve D) P -> (e_cofactor D <> 1 -> emul (e_curve D) (e_order D) P = None) ->
    exists k, 0 <= k < e_order D /\ P = emul (e_curve D) k (e_base D)).

(** SEC 2, section 2.4.1 *)
Definition SECP256K1 : eparams := mkEP
  (mkE 0 7 0xFFFFFFFFFFFFFFFFFFFFFFFFFFFFFFFFFFFFFFFFFFFFFFFFFFFFFFFEFFFFFC2F)
  (Some (0x79BE667EF9DCBBAC55A06295CE870B07029BFCDB2DCE28D959F2815B16F81798,
         0x483ADA7726A3C4655DA4FBFC0E1108A8FD17B448A68554199C47D08FFB10D4B8))
  0xFFFFFFFFFFFFFFFFFFFFFFFFFFFFFFFEBAAEDCE6AF48A03BBFD25E8CD0364141
  1.

(** What stops public key recovery on a curve with points of order two: such a point is doubled. *)

From Verif Require Import Base M_BigInt M_Ecdsa S_BigInt S_Curve S_EcModel S_Ecdsa.
Open Scope Z_scope.

(** Multiplication by k doubles P, 2P, 4P, ... (the factors up to k), and one of these has order two. *)
Definition doubles_two (C : ecurve) (k : Z) (P : epoint) : Prop :=
  exists i, 0 <= i /\ 2 ^ i <= k /\ two_torsion (emul C (2 ^ i) P).

(** On the way from the point R to the key (1/r) (s R - e G), or in the check that the key has order n (made when the
    cofactor is not 1), a point of order two is doubled. *)
Definition recovery_trap (D : eparams) (e r s : Z) (R : epoint) : Prop :=
  let C := e_curve D in let n := e_order D in
  let T := eadd C (emul C s R) (emul C ((- e) mod n) (e_base D)) in
  doubles_two C s R \/ doubles_two C (zinv n r) T \/ (e_cofactor D <> 1 /\ doubles_two C n (emul C (zinv n r) T)).

(** The points that recovery tries: abscissa r + j n, ordinate of the parity the recovery id says. *)
Definition id_range (h : Z) (id : option recovery_id) (j : Z) : Prop :=
  match id with
  | Some LowXEvenY | Some LowXOddY => j = 0
  | Some HighXEvenY | Some HighXOddY => 1 <= j <= h
  | None => 0 <= j <= h
  end.
Definition id_parity (id : option recovery_id) (y : Z) : Prop :=
  match id with
  | Some LowXEvenY | Some HighXEvenY => Z.odd y = false
  | Some LowXOddY | Some HighXOddY => Z.odd y = true
  | None => True
  end.
(** One of the abscissas belongs to a point of order two, or one of the points is a trap. *)
Definition recovery_panics (D : eparams) (id : option recovery_id) (e r s : Z) : Prop :=
  exists j x, id_range (e_cofactor D) id j /\ x = r + j * e_order D /\
    (on_curve (e_curve D) (Some (x, 0)) \/
     exists y, on_curve (e_curve D) (Some (x, y)) /\ id_parity id y /\ recovery_trap D e r s (Some (x, y))).

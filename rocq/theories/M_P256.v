(** Model of the parameters that the tests hand to the library: tests/crypto/curves.rs. *)

From Coq Require Import String.
From Verif Require Import Base M_BigInt M_Curve.
Open Scope string_scope.

Section Model.
Context {cfg : digit_cfg}.

(** tests/crypto/curves.rs:11-40 *)
Definition nist_p256 : outcome params :=
  a <- from_int (-3) ;;
  b <- hex_lit "5ac635d8aa3a93e7b3ebbd55769886bc651d06b0cc53b0f63bce3c3e27d2604b" ;;
  p <- hex_lit "ffffffff00000001000000000000000000000000ffffffffffffffffffffffff" ;;
  x <- hex_lit "6b17d1f2e12c4247f8bce6e563a440f277037d812deb33a0f4a13945d898c296" ;;
  y <- hex_lit "4fe342e2fe1a7f9b8ee7eb4a7c0f9e162bce33576b315ececbb6406837bf51f5" ;;
  n <- hex_lit "ffffffff00000000ffffffffffffffffbce6faada7179e84f3b9cac2fc632551" ;;
  Ret (mkParams (mkCurve a b p) (mkPoint x y) n 1).

End Model.

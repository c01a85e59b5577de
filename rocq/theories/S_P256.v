(** The parameters of the curve P-256, as FIPS 186-4, appendix D.1.2.3, gives them. *)

From Coq Require Import ZArith.
From Verif Require Import S_Curve.
Open Scope Z_scope.

Definition P256 : eparams := mkEP
  (mkE (-3) 0x5ac635d8aa3a93e7b3ebbd55769886bc651d06b0cc53b0f63bce3c3e27d2604b (2 ^ 256 - 2 ^ 224 + 2 ^ 192 + 2 ^ 96 - 1))
  (Some (0x6b17d1f2e12c4247f8bce6e563a440f277037d812deb33a0f4a13945d898c296,
         0x4fe342e2fe1a7f9b8ee7eb4a7c0f9e162bce33576b315ececbb6406837bf51f5))
  115792089210356248762697446949407573529996955224135760342422259061068512044369
  1.

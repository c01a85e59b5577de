(** The SEC 1 text of a point and the P1363 text of a signature.  Characters are ASCII codes. *)

From Verif Require Import Base M_BigInt M_Curve M_Ecdsa S_BigInt S_Codec S_Curve S_EcModel S_Ecdsa S_Recover.
Open Scope Z_scope.

(** The number of bytes of n > 0. *)
Definition nbytes (n : Z) : nat := Z.to_nat ((nbits n + 7) / 8).

(** [s] is [L] bytes in hexadecimal, in upper or lower case, with the big-endian value [v]. *)
Definition hex_number (L : nat) (s : list Z) (v : Z) : Prop :=
  length s = (2 * L)%nat /\ exists vs, digits_of 16 s vs /\ positional 16 vs = v.

(** SEC 1, section 2.3.3, with coordinates of [L] bytes: "04" X Y, or "02" X for an even and "03" X for an odd ordinate. *)
Inductive sec1 (L : nat) (x y : Z) : bool -> list Z -> Prop :=
| sec1_uncompressed xs ys : hex_number L xs x -> hex_number L ys y -> sec1 L x y false (48 :: 52 :: xs ++ ys)
| sec1_compressed xs : hex_number L xs x -> sec1 L x y true (48 :: (if Z.odd y then 51 else 50) :: xs).

(** The compressed form with any number of extra leading zeros in X, and with an optional sign. *)
Inductive loose_compressed (L : nat) (x y : Z) : list Z -> Prop :=
| loose_plain k xs : (L <= k)%nat -> hex_number k xs x -> loose_compressed L x y (48 :: (if Z.odd y then 51 else 50) :: xs)
| loose_plus k xs : (L <= k)%nat -> hex_number k xs x -> loose_compressed L x y (48 :: (if Z.odd y then 51 else 50) :: 43 :: xs)
| loose_minus k xs : (L <= k)%nat -> hex_number k xs 0 -> x = 0 -> loose_compressed L x y (48 :: (if Z.odd y then 51 else 50) :: 45 :: xs).

(** At least [L] bytes in hexadecimal, with an optional sign. *)
Inductive signed_hex (L : nat) (x : Z) : list Z -> Prop :=
| hex_plain k xs : (L <= k)%nat -> hex_number k xs x -> signed_hex L x xs
| hex_plus k xs : (L <= k)%nat -> hex_number k xs x -> signed_hex L x (43 :: xs)
| hex_minus k xs : (L <= k)%nat -> hex_number k xs (- x) -> signed_hex L x (45 :: xs).

(** What stops decoding.  Either the text claims to be a compressed form, and its abscissa, which may be negative or too
    large, is a root of x^3 + ax + b modulo p; or the cofactor is not 1, the text is that of a point of the curve, and the
    check of the point's order doubles a point of order two. *)
Definition sec1_panics (D : eparams) (data : list Z) : Prop :=
  let L := nbytes (e_order D) in let C := e_curve D in
  (exists c s x, (c = 50 \/ c = 51) /\ data = 48 :: c :: s /\ signed_hex L x s /\ (x * x * x + ea C * x + eb C) mod ep C = 0) \/
  (e_cofactor D <> 1 /\ exists x y, on_curve C (Some (x, y)) /\ (sec1 L x y false data \/ loose_compressed L x y data) /\
    doubles_two C (e_order D) (Some (x, y))).

(** r and s, each in [L] bytes. *)
Definition p1363 (L : nat) (r s : Z) (t : list Z) : Prop := exists rs ss, hex_number L rs r /\ hex_number L ss s /\ t = rs ++ ss.

(** Lower-case hexadecimal digits only; the same letters in lower case. *)
Definition lower_case (s : list Z) : Prop := Forall (fun c => 48 <= c <= 57 \/ 97 <= c <= 102) s.
Definition to_lower (s : list Z) : list Z := map (fun c => if (65 <=? c) && (c <=? 90) then c + 32 else c) s.

Section Code.
Context {cfg : digit_cfg}.
(** The coordinates the encoder accepts. *)
Definition encodable (pk : public_key) : Prop :=
  1 <= bi_val (px (pk_data pk)) < order (pk_params pk) /\ 1 <= bi_val (py (pk_data pk)) < order (pk_params pk).
(** The same key: same parameters, same point. *)
Definition same_key (pk pk' : public_key) : Prop :=
  pk_params pk = pk_params pk' /\ bi_val (px (pk_data pk)) = bi_val (px (pk_data pk')) /\ bi_val (py (pk_data pk)) = bi_val (py (pk_data pk')).
(** The same signature. *)
Definition same_signature (sg sg' : signature) : Prop :=
  sig_params sg = sig_params sg' /\ bi_val (sig_r sg) = bi_val (sig_r sg') /\ bi_val (sig_s sg) = bi_val (sig_s sg').
(** No point of order two (with cofactor 1 there is none). *)
Definition no_order_two (D : params) : Prop := d_cofactor D = 1 \/ no_two_torsion (curve_val (d_curve D)).
End Code.

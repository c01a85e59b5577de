(** Specification: FIPS 202, SHA-3 Standard, on bit strings.

    Written from the standard and independent of the model.  A bit string is a
    [list bool]; a state is a string of b = 1600 bits; state array coordinates
    are integers.  Keccak-256 is the same sponge without the SHA-3 domain
    suffix (the original Keccak submission). *)

From Coq Require Import List ZArith Bool.
Import ListNotations.
Open Scope Z_scope.

(** ** Appendix B.1: a byte string read as a bit string, least significant bit
    of each byte first *)
Definition lsb_bits (n : nat) (v : Z) : list bool := map (fun i => Z.testbit v (Z.of_nat i)) (seq 0 n).
Definition bits_of_bytes_le (m : list Z) : list bool := flat_map (lsb_bits 8) m.

(** ** Section 3.1: the state array: A[x, y, z] = S[64 (5 y + x) + z] *)
Definition A (S : list bool) (x y z : Z) : bool := nth (Z.to_nat (64 * (5 * y + x) + z)) S false.
(** the string of the state array [f] *)
Definition string_of (f : Z -> Z -> Z -> bool) : list bool :=
  map (fun i => let i := Z.of_nat i in f ((i / 64) mod 5) (i / 320) (i mod 64)) (seq 0 1600).

(** ** Section 3.2.1 *)
Definition C (S : list bool) (x z : Z) : bool :=
  xorb (A S x 0 z) (xorb (A S x 1 z) (xorb (A S x 2 z) (xorb (A S x 3 z) (A S x 4 z)))).
Definition D (S : list bool) (x z : Z) : bool :=
  xorb (C S ((x - 1) mod 5) z) (C S ((x + 1) mod 5) ((z - 1) mod 64)).
Definition theta (S : list bool) : list bool :=
  string_of (fun x y z => xorb (A S x y z) (D S x z)).

(** ** Section 3.2.2: (x, y) = (1, 0), then (x, y) := (y, (2 x + 3 y) mod 5);
    the lane met at step t is rotated by (t + 1)(t + 2) / 2 *)
Fixpoint walk (t : nat) : Z * Z :=
  match t with
  | O => (1, 0)
  | Datatypes.S t' => let '(x, y) := walk t' in (y, (2 * x + 3 * y) mod 5)
  end.
Definition offset (x y : Z) : Z :=
  match find (fun t => let '(x', y') := walk t in (x =? x') && (y =? y')) (seq 0 24) with
  | Some t => (Z.of_nat t + 1) * (Z.of_nat t + 2) / 2
  | None => 0
  end.
Definition rho (S : list bool) : list bool :=
  string_of (fun x y z => A S x y ((z - offset x y) mod 64)).

(** ** Section 3.2.3 *)
Definition pi (S : list bool) : list bool :=
  string_of (fun x y z => A S ((x + 3 * y) mod 5) x z).

(** ** Section 3.2.4 *)
Definition chi (S : list bool) : list bool :=
  string_of (fun x y z =>
    xorb (A S x y z) (andb (xorb (A S ((x + 1) mod 5) y z) true) (A S ((x + 2) mod 5) y z))).

(** ** Section 3.2.5: rc(t), algorithm 5 *)
Definition lfsr_step (R : list bool) : list bool :=
  let R := false :: R in
  let bit i := nth i R false in
  let R8 := bit 8%nat in
  [xorb (bit 0%nat) R8; bit 1%nat; bit 2%nat; bit 3%nat;
   xorb (bit 4%nat) R8; xorb (bit 5%nat) R8; xorb (bit 6%nat) R8; bit 7%nat].
Definition rc (t : nat) : bool :=
  nth 0 (Nat.iter (Nat.modulo t 255) lfsr_step [true; false; false; false; false; false; false; false]) false.
(** RC[2^j - 1] = rc(j + 7 ir) for j = 0..6, all other bits are 0 *)
Definition RC (ir : nat) (z : Z) : bool :=
  existsb (fun j => (z =? 2 ^ Z.of_nat j - 1) && rc (j + 7 * ir)) (seq 0 7).
Definition iota (S : list bool) (ir : nat) : list bool :=
  string_of (fun x y z => if (x =? 0) && (y =? 0) then xorb (A S x y z) (RC ir z) else A S x y z).

(** ** Section 3.3: KECCAK-p[1600, 24] *)
Definition Rnd (S : list bool) (ir : nat) : list bool := iota (chi (pi (rho (theta S)))) ir.
Definition KECCAK_p (S : list bool) : list bool := fold_left Rnd (seq 0 24) S.

(** ** Section 4: the sponge construction with pad10*1 and rate [r] *)
Definition pad10_1 (x m : nat) : list bool :=
  let j := (- Z.of_nat m - 2) mod Z.of_nat x in [true] ++ repeat false (Z.to_nat j) ++ [true].
Definition xor_bits (a b : list bool) : list bool := map (fun p => xorb (fst p) (snd p)) (combine a b).
Definition absorb (r : nat) (P : list bool) : list bool :=
  fold_left
    (fun S i => KECCAK_p (xor_bits S (firstn r (skipn (i * r) P) ++ repeat false (1600 - r))))
    (seq 0 (Nat.div (length P) r)) (repeat false 1600).
Fixpoint squeeze (r n : nat) (S : list bool) : list bool :=
  match n with
  | O => []
  | Datatypes.S n' => firstn r S ++ squeeze r n' (KECCAK_p S)
  end.
Definition KECCAK (c : nat) (N : list bool) (d : nat) : list bool :=
  let r := (1600 - c)%nat in
  firstn d (squeeze r (Nat.div d r + 1) (absorb r (N ++ pad10_1 r (length N)))).

(** ** Section 6.1 *)
Definition SHA3 (d : nat) (M : list bool) : list bool := KECCAK (2 * d) (M ++ [false; true]) d.
Definition SHA3_224 := SHA3 224.
Definition SHA3_256 := SHA3 256.
Definition SHA3_384 := SHA3 384.
Definition SHA3_512 := SHA3 512.
(** Keccak[c = 512] with 256-bit output and no suffix *)
Definition Keccak_256 (M : list bool) : list bool := KECCAK 512 M 256.

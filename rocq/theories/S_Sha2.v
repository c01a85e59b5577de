(** Specification: FIPS 180-4, Secure Hash Standard, on bit strings.

    Written from the standard and independent of the model.  A bit string is a
    [list bool]; a word is an integer.  [w] is the word size: 32 for SHA-256, 64
    for SHA-384 and SHA-512. *)

From Coq Require Import List ZArith Bool.
Import ListNotations.
Open Scope Z_scope.

(** ** Bit strings (section 3.1): the most significant bit is first. *)
Definition Z_of_bits (l : list bool) : Z :=
  fold_left (fun acc (b : bool) => 2 * acc + (if b then 1 else 0)) l 0.
Definition bits_of_Z (n : nat) (v : Z) : list bool :=
  map (fun i => Z.testbit v (Z.of_nat (n - 1 - i))) (seq 0 n).
(** A byte string read as a bit string. *)
Definition bits_of_bytes (m : list Z) : list bool := flat_map (bits_of_Z 8) m.

(** ** Numbers of the standard *)
Definition is_prime (p : nat) : bool :=
  (Nat.leb 2 p && forallb (fun d => negb (Nat.eqb (Nat.modulo p d) 0)) (seq 2 (p - 2)))%bool.
(** the first 80 primes: 2 ... 409 *)
Definition primes : list Z := map Z.of_nat (filter is_prime (seq 0 410)).
Definition prime_no (i : nat) : Z := nth i primes 0.

(** integer part of the cube root, for arguments below 2^(3 n) *)
Fixpoint cube_root_from (n : nat) (r x : Z) : Z :=
  match n with
  | O => r
  | S n' => let r' := r + 2 ^ Z.of_nat n' in
            cube_root_from n' (if r' ^ 3 <=? x then r' else r) x
  end.
Definition cube_root (n : nat) (x : Z) : Z := cube_root_from n 0 x.

(** the first [w] bits of the fractional part of the square / cube root of [p] *)
Definition frac_sqrt (w : nat) (p : Z) : Z :=
  Z.sqrt (p * 2 ^ (2 * Z.of_nat w)) mod 2 ^ Z.of_nat w.
Definition frac_cbrt (w : nat) (p : Z) : Z :=
  cube_root (w + 3) (p * 2 ^ (3 * Z.of_nat w)) mod 2 ^ Z.of_nat w.

Section Sha2.

Variable w : nat.                 (* word size *)
Variable rounds : nat.            (* number of rounds: 64 or 80 *)
(** rotation amounts of the six functions of section 4.1 *)
Variables BS0 BS1 SS0 SS1 : Z * Z * Z.

Let W := Z.of_nat w.

(** ** Section 2.2.2 and 3.2: operations on words *)
Definition ADD (x y : Z) : Z := (x + y) mod 2 ^ W.
Definition NOT (x : Z) : Z := 2 ^ W - 1 - x.
Definition SHR (n x : Z) : Z := Z.shiftr x n.
Definition ROTR (n x : Z) : Z := Z.lor (Z.shiftr x n) (Z.shiftl x (W - n) mod 2 ^ W).

(** ** Section 4.1 *)
Definition Ch (x y z : Z) : Z := Z.lxor (Z.land x y) (Z.land (NOT x) z).
Definition Maj (x y z : Z) : Z := Z.lxor (Z.lxor (Z.land x y) (Z.land x z)) (Z.land y z).
Definition Big (r : Z * Z * Z) (x : Z) : Z :=
  let '(i, j, k) := r in Z.lxor (Z.lxor (ROTR i x) (ROTR j x)) (ROTR k x).
Definition Small (r : Z * Z * Z) (x : Z) : Z :=
  let '(i, j, k) := r in Z.lxor (Z.lxor (ROTR i x) (ROTR j x)) (SHR k x).

(** ** Section 4.2: constants *)
Definition K (t : nat) : Z := frac_cbrt w (prime_no t).

(** ** Section 5.1: padding.  [k] is the smallest non-negative solution of
    l + 1 + k = 14 w (mod 16 w). *)
Definition pad (M : list bool) : list bool :=
  let l := Z.of_nat (length M) in
  let k := (14 * W - (l + 1)) mod (16 * W) in
  M ++ [true] ++ repeat false (Z.to_nat k) ++ bits_of_Z (2 * w) l.

(** ** Section 5.2: parsing; 16-word blocks *)
Definition sub {A : Type} (l : list A) (start len : nat) : list A := firstn len (skipn start l).
Definition block (M : list bool) (i : nat) : list Z :=
  map (fun j => Z_of_bits (sub M (i * (16 * w) + j * w) w)) (seq 0 16).
Definition blocks (M : list bool) : list (list Z) :=
  map (block M) (seq 0 (Nat.div (length M) (16 * w))).

(** ** Section 6.2.2, step 1: the message schedule W_0, ..., W_(n-1) *)
Fixpoint schedule (B : list Z) (n : nat) : list Z :=
  match n with
  | O => []
  | S t =>
    let Ws := schedule B t in
    Ws ++ [ if Nat.ltb t 16 then nth t B 0
            else ADD (ADD (ADD (Small SS1 (nth (t - 2) Ws 0)) (nth (t - 7) Ws 0))
                          (Small SS0 (nth (t - 15) Ws 0))) (nth (t - 16) Ws 0) ]
  end.

(** ** Section 6.2.2, step 3: one round on the working variables *)
Definition vars : Type := Z * Z * Z * Z * Z * Z * Z * Z.
Definition round (Kt Wt : Z) (v : vars) : vars :=
  let '(a, b, c, d, e, f, g, h) := v in
  let T1 := ADD (ADD (ADD (ADD h (Big BS1 e)) (Ch e f g)) Kt) Wt in
  let T2 := ADD (Big BS0 a) (Maj a b c) in
  (ADD T1 T2, a, b, c, ADD d T1, e, f, g).

(** steps 2 to 4: the next intermediate hash value *)
Definition compress (H : vars) (B : list Z) : vars :=
  let Ws := schedule B rounds in
  let '(a, b, c, d, e, f, g, h) :=
    fold_left (fun v t => round (K t) (nth t Ws 0) v) (seq 0 rounds) H in
  let '(H0, H1, H2, H3, H4, H5, H6, H7) := H in
  (ADD a H0, ADD b H1, ADD c H2, ADD d H3, ADD e H4, ADD f H5, ADD g H6, ADD h H7).

(** the message digest, all eight words *)
Definition digest (IV : vars) (M : list bool) : list bool :=
  let '(a, b, c, d, e, f, g, h) := fold_left compress (blocks (pad M)) IV in
  flat_map (bits_of_Z w) [a; b; c; d; e; f; g; h].

(** section 5.3: initial hash values: square roots of eight consecutive primes *)
Definition initial (bits : nat) (from : nat) : vars :=
  let x i := frac_sqrt bits (prime_no (from + i)) in
  (x 0%nat, x 1%nat, x 2%nat, x 3%nat, x 4%nat, x 5%nat, x 6%nat, x 7%nat).

End Sha2.

(** ** The three functions *)
Definition SHA256 (M : list bool) : list bool :=
  digest 32 64 (2, 13, 22) (6, 11, 25) (7, 18, 3) (17, 19, 10) (initial 32 0) M.
Definition SHA512 (M : list bool) : list bool :=
  digest 64 80 (28, 34, 39) (14, 18, 41) (1, 8, 7) (19, 61, 6) (initial 64 0) M.
(** SHA-384 starts from the ninth prime and keeps the leftmost 384 bits. *)
Definition SHA384 (M : list bool) : list bool :=
  firstn 384
    (digest 64 80 (28, 34, 39) (14, 18, 41) (1, 8, 7) (19, 61, 6) (initial 64 8) M).

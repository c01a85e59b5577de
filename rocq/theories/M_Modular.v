(** Model of src/math/modular.rs. *)

From Verif Require Import Base M_Loop M_BigInt M_Gcd.
Open Scope Z_scope.

Section Model.
Context {cfg : digit_cfg}.

(** [a != b] for BigInts. *)
Definition bi_ne (a b : bigint) : outcome bool := e <- bi_eq a b ;; Ret (negb e).

(** src/math/modular.rs:16-25 *)
Definition modulo (a n : bigint) : outcome bigint :=
  debug_check! (z <- bi_zero ;; bi_gt n z) ;;
  r <- bi_rem a n ;;
  z' <- bi_zero ;;
  neg <- bi_lt r z' ;;
  if neg then bi_add r n else Ret r.

(** src/math/modular.rs:30-46 *)
Definition invert (a n : bigint) : outcome (option bigint) :=
  debug_check! (one <- bi_one ;; bi_gt n one) ;;
  debug_check! (az <- is_zero a ;; Ret (negb az)) ;;
  a' <- modulo a n ;;
  '(_, y, v) <- gcd n a' ;;
  one' <- bi_one ;;
  ne <- bi_ne v one' ;;
  if (ne : bool) then Ret None
  else r <- modulo y n ;; Ret (Some r).

(** A number of loop iterations that exceeds any count bounded by |x|. *)
Definition fuel_of (x : bigint) : outcome nat := n <- bit_len x ;; Ret (Z.to_nat n).

(** src/math/modular.rs:60-66: one iteration; the state is (exp, base, result). *)
Definition pow_body (n zero : bigint) (st : bigint * bigint * bigint)
  : outcome (bigint * bigint * bigint + bigint) :=
  let '(exp, base, result) := st in
  go <- bi_gt exp zero ;;
  if (go : bool) then
    odd <- is_odd exp ;;
    result' <- (if (odd : bool) then t <- bi_mul result base ;; bi_rem t n else Ret result) ;;
    exp' <- bi_shr exp 1 ;;
    b2 <- bi_mul base base ;;
    base' <- bi_rem b2 n ;;
    Ret (inl (exp', base', result'))
  else Ret (inr result).

(** src/math/modular.rs:49-69 *)
Definition pow (a exp n : bigint) : outcome bigint :=
  debug_check! (z <- bi_zero ;; bi_gt a z) ;;
  debug_check! bi_lt a n ;;
  debug_check! (z <- bi_zero ;; bi_ge exp z) ;;
  debug_check! (z <- bi_zero ;; bi_gt n z) ;;
  zero <- bi_zero ;;
  one <- bi_one ;;
  fuel <- fuel_of exp ;;
  run_loop fuel (pow_body n zero) (exp, a, one).

(** src/math/modular.rs:114-116 *)
Definition nonresidue_body (p t1 t2 one : bigint) (n : bigint) : outcome (bigint + bigint) :=
  q <- pow n t1 p ;;
  ne <- bi_ne q t2 ;;
  if (ne : bool) then n' <- bi_add n one ;; Ret (inl n')
  else Ret (inr n).

(** src/math/modular.rs:127-143: the state is (count, t). *)
Definition order_body (p one : bigint) (r : Z) (st : Z * bigint) : outcome (Z * bigint + Z) :=
  let '(count, t) := st in
  e <- bi_eq t one ;;
  if (e : bool) then Ret (inr count)
  else
    let count' := count + 1 in
    if count' =? r then Panic
    else
      t2 <- bi_mul t t ;;
      t' <- bi_rem t2 p ;;
      Ret (inl (count', t')).

(** [1 << k] where [k] is the value of a usize subtraction (never below 0, as m < r). *)
Definition one_shl (k : Z) : outcome bigint :=
  assert! (0 <=? k) ;;
  one <- bi_one ;;
  bi_shl one k.

(** src/math/modular.rs:123-154: the state is (x, b, g, r). *)
Definition shanks_body (p one : bigint) (fuel : nat) (st : bigint * bigint * bigint * Z)
  : outcome (bigint * bigint * bigint * Z + bigint * bigint) :=
  let '(x, b, g, r) := st in
  m <- run_loop fuel (order_body p one r) (0, b) ;;
  if m =? 0 then
    x2 <- modulo (bi_neg x) p ;;
    Ret (inr (x, x2))
  else
    e1 <- one_shl (r - m - 1) ;;
    g1 <- pow g e1 p ;;
    xg <- bi_mul x g1 ;;
    x' <- bi_rem xg p ;;
    e2 <- one_shl (r - m) ;;
    g2 <- pow g e2 p ;;
    bg <- bi_mul b g2 ;;
    b' <- bi_rem bg p ;;
    e3 <- one_shl (r - m) ;;
    g' <- pow g e3 p ;;
    Ret (inl (x', b', g', m)).

(** src/math/modular.rs:76-155 *)
Definition sqrt (a p : bigint) : outcome (option (bigint * bigint)) :=
  zero <- bi_zero ;;
  one <- bi_one ;;
  two <- from_int 2 ;;
  c1 <- is_odd p ;; assert! c1 ;;
  c2 <- bi_gt p two ;; assert! c2 ;;
  c3 <- bi_gt a zero ;; assert! c3 ;;
  c4 <- bi_lt a p ;; assert! c4 ;;
  p_minus_1 <- bi_sub p one ;;
  h <- bi_div p_minus_1 two ;;
  t <- pow a h p ;;
  ne <- bi_ne t one ;;
  if (ne : bool) then Ret None
  else
    e <- trailing_zeros p_minus_1 ;;
    s <- bi_shr p_minus_1 e ;;
    n0 <- from_int 2 ;;
    t1 <- bi_div p_minus_1 two ;;
    m1 <- from_int (-1) ;;
    t2 <- modulo m1 p ;;
    fuel <- fuel_of p ;;
    n <- run_loop fuel (nonresidue_body p t1 t2 one) n0 ;;
    s1 <- bi_add s one ;;
    s1h <- bi_div s1 two ;;
    x <- pow a s1h p ;;
    b <- pow a s p ;;
    g <- pow n s p ;;
    rs <- run_loop fuel (shanks_body p one fuel) (x, b, g, e) ;;
    Ret (Some rs).

End Model.

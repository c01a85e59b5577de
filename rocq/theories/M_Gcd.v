(** Model of src/bigint/gcd.rs: extended gcd with Lehmer's digit partial
    cosequence calculation and Collins's condition.

    The mutable buffers [a], [b], [ua], [ub] hold a digit prefix followed by
    zeros (every update is [fill(0)] followed by a copy into a prefix); the
    model keeps the prefix, and a copy into a buffer that is too short panics
    ([store]).  The scratch buffers are zero-filled by their users and enter by
    their lengths. *)

From Verif Require Import Base M_BigInt.
Open Scope Z_scope.

Section Model.
Context {cfg : digit_cfg}.
Local Notation BITS := (digit_bits cfg).
Local Notation B := (digit_base cfg).

(** [buf.fill(0); buf[..ds.len()].copy_from_slice(&ds)] with [buf.len() = n]. *)
Definition store (n : nat) (ds : list Z) : outcome (list Z) :=
  if Nat.leb (length ds) n then Ret ds else Panic.

(** The used prefix [&buf[..len]] of an output buffer. *)
Definition prefix (r : list Z * nat) : outcome (list Z) := slice_to (fst r) (snd r).

(** Digit arithmetic: overflow panics in a debug build and wraps in a release build. *)
Definition ck_digit (x : Z) : outcome Z :=
  if ((0 <=? x) && (x <? B))%bool then Ret x
  else if debug_checks cfg then Panic else Ret (x mod B).

(** src/bigint/gcd.rs:592-609; [n] is the length of the three buffers. *)
Definition x_mul_sub_y_mul_unsigned (x : Z) (d1 : list Z) (y : Z) (d2 : list Z) (n : nat)
  : outcome (list Z) :=
  r1 <- mul_digits [x] d1 n ;;
  r2 <- mul_digits [y] d2 n ;;
  p1 <- prefix r1 ;;
  p2 <- prefix r2 ;;
  r <- sub_digits p1 p2 n ;;
  prefix r.

(** src/bigint/gcd.rs:633-653 and 684-704: signed difference of magnitudes. *)
Definition signed_sub (p1 : list Z) (s1 : sgn) (p2 : list Z) (s2 : sgn) (n : nat)
  : outcome (list Z * sgn) :=
  if negb (sgn_eqb s1 s2) then
    r <- add_digits p1 p2 n ;; p <- prefix r ;; Ret (p, s1)
  else
    c <- cmp_digits p1 p2 ;;
    match c with
    | Lt => r <- sub_digits p2 p1 n ;; p <- prefix r ;; Ret (p, neg_sgn s1)
    | Eq => p <- prefix (repeat 0 n, 1%nat) ;; Ret (p, Positive)
    | Gt => r <- sub_digits p1 p2 n ;; p <- prefix r ;; Ret (p, s1)
    end.

(** src/bigint/gcd.rs:617-654 *)
Definition x_mul_sub_y_mul_signed (x : Z) (d1 : list Z) (s1 : sgn) (y : Z) (d2 : list Z) (s2 : sgn) (n : nat)
  : outcome (list Z * sgn) :=
  r1 <- mul_digits [x] d1 n ;;
  r2 <- mul_digits [y] d2 n ;;
  p1 <- prefix r1 ;;
  p2 <- prefix r2 ;;
  signed_sub p1 s1 p2 s2 n.

(** src/bigint/gcd.rs:659-668 *)
Definition a_sub_q_mul_b (a q b : list Z) (n : nat) : outcome (list Z) :=
  qb <- mul_digits q b n ;;
  p <- prefix qb ;;
  r <- sub_digits a p n ;;
  prefix r.

(** src/bigint/gcd.rs:673-705 *)
Definition ua_sub_q_mul_ub (ua : list Z) (ua_sign : sgn) (q ub : list Z) (ub_sign : sgn) (n : nat)
  : outcome (list Z * sgn) :=
  qb <- mul_digits q ub n ;;
  p <- prefix qb ;;
  signed_sub ua ua_sign p ub_sign n.

(** The loop state: (a, b) and (ua, ub) with signs. *)
Record gstate : Set := mkG { ga : list Z; gb : list Z; gua : list Z; gsa : sgn; gub : list Z; gsb : sgn }.

(** src/bigint/gcd.rs:523-588. [a_len0], [b_len0]: the buffer lengths. *)
Definition iterate_euclid_extended (a_len0 b_len0 : nat) (st : gstate) : outcome gstate :=
  assert! Nat.leb (length (gb st)) b_len0 ;;
  '(q, ql, _) <- div_rem_digits (ga st) (gb st) a_len0 (length (gb st)) ;;
  qp <- prefix (q, ql) ;;
  t <- a_sub_q_mul_b (ga st) qp (gb st) (a_len0 * 2) ;;
  a' <- store a_len0 (gb st) ;;
  b' <- store b_len0 t ;;
  '(tu, ts) <- ua_sub_q_mul_ub (gua st) (gsa st) qp (gub st) (gsb st) (a_len0 * 2) ;;
  ua' <- store a_len0 (gub st) ;;
  ub' <- store a_len0 tu ;;
  Ret (mkG a' b' ua' (gsb st) ub' ts).

(** src/bigint/gcd.rs:317-359, 408-463 *)
Definition iterate_dpcc_odd (a_len0 b_len0 : nat) (u0 u1 v0 v1 : Z) (st : gstate) : outcome gstate :=
  let n := (a_len0 + 1)%nat in
  t1 <- x_mul_sub_y_mul_unsigned v0 (gb st) u0 (ga st) n ;;
  t2 <- x_mul_sub_y_mul_unsigned u1 (ga st) v1 (gb st) n ;;
  a' <- store a_len0 t1 ;;
  b' <- store b_len0 t2 ;;
  '(w1, s1) <- x_mul_sub_y_mul_signed v0 (gub st) (gsb st) u0 (gua st) (gsa st) n ;;
  '(w2, s2) <- x_mul_sub_y_mul_signed u1 (gua st) (gsa st) v1 (gub st) (gsb st) n ;;
  ua' <- store a_len0 w1 ;;
  ub' <- store a_len0 w2 ;;
  Ret (mkG a' b' ua' s1 ub' s2).

(** src/bigint/gcd.rs:361-403, 465-521 *)
Definition iterate_dpcc_even (a_len0 b_len0 : nat) (u0 u1 v0 v1 : Z) (st : gstate) : outcome gstate :=
  let n := (a_len0 + 1)%nat in
  t1 <- x_mul_sub_y_mul_unsigned u0 (ga st) v0 (gb st) n ;;
  t2 <- x_mul_sub_y_mul_unsigned v1 (gb st) u1 (ga st) n ;;
  a' <- store a_len0 t1 ;;
  b' <- store b_len0 t2 ;;
  '(w1, s1) <- x_mul_sub_y_mul_signed u0 (gua st) (gsa st) v0 (gub st) (gsb st) n ;;
  '(w2, s2) <- x_mul_sub_y_mul_signed v1 (gub st) (gsb st) u1 (gua st) (gsa st) n ;;
  ua' <- store a_len0 w1 ;;
  ub' <- store a_len0 w2 ;;
  Ret (mkG a' b' ua' s1 ub' s2).

(** src/bigint/gcd.rs:188-198: the DPCC loop. Returns (u0, u1, v0, v1, odd).
    [fuel] bounds the number of iterations. *)
Fixpoint dpcc_loop (fuel : nat) (a_hat b_hat u0 u1 u2 v0 v1 v2 : Z) (odd : bool)
  : outcome (Z * Z * Z * Z * bool) :=
  continue <- (if v2 <=? b_hat then
                 d <- ck_digit (a_hat - b_hat) ;;
                 s <- ck_digit (v1 + v2) ;;
                 Ret (s <=? d)
               else Ret false) ;;
  if (continue : bool) then
    match fuel with
    | O => OutOfFuel
    | S fuel' =>
      assert! negb (b_hat =? 0) ;;
      let q := a_hat / b_hat in
      let r := a_hat mod b_hat in
      qu <- ck_digit (q * u2) ;; u3 <- ck_digit (u1 + qu) ;;
      qv <- ck_digit (q * v2) ;; v3 <- ck_digit (v1 + qv) ;;
      dpcc_loop fuel' b_hat r u1 u2 u3 v1 v2 v3 (negb odd)
    end
  else Ret (u0, u1, v0, v1, odd).

(** src/bigint/gcd.rs:139-156: the leading [Digit::BITS] bits of [a], and the
    corresponding bits of [b]. *)
Definition hat_pair (a b : list Z) : outcome (Z * Z) :=
  let a_len := length a in
  let b_len := length b in
  msd <- index a (a_len - 1) ;;
  second_msd <- index a (a_len - 2) ;;
  let t := leading_zeros msd in
  h <- shl_digit msd t ;;
  let a_hat := Z.lor h (checked_shr_digit second_msd (BITS - t)) in
  (* a usize subtraction; never below 0, as a > b *)
  assert! Nat.leb b_len a_len ;;
  b_hat <-
    match (a_len - b_len)%nat with
    | O =>
      msd_b <- index b (b_len - 1) ;;
      second_msd_b <- index b (b_len - 2) ;;
      hb <- shl_digit msd_b t ;;
      Ret (Z.lor hb (checked_shr_digit second_msd_b (BITS - t)))
    | S O =>
      msd_b <- index b (b_len - 1) ;;
      Ret (checked_shr_digit msd_b (BITS - t))
    | _ => Ret 0
    end ;;
  Ret (a_hat, b_hat).

(** src/bigint/gcd.rs:118-303: one iteration of the outer loop. *)
Definition gcd_step (a_len0 b_len0 : nat) (st : gstate) : outcome gstate :=
  if Nat.ltb 1 (length (gb st)) then
    '(a_hat, b_hat) <- hat_pair (ga st) (gb st) ;;
    '(u0, u1, v0, v1, odd) <- dpcc_loop (Z.to_nat (2 * BITS)) a_hat b_hat 0 1 0 0 0 1 true ;;
    if v0 =? 0 then iterate_euclid_extended a_len0 b_len0 st
    else if (odd : bool) then iterate_dpcc_odd a_len0 b_len0 u0 u1 v0 v1 st
    else iterate_dpcc_even a_len0 b_len0 u0 u1 v0 v1 st
  else iterate_euclid_extended a_len0 b_len0 st.

(** src/bigint/gcd.rs:117-304 *)
Fixpoint gcd_loop (fuel : nat) (a_len0 b_len0 : nat) (st : gstate) : outcome gstate :=
  z <- is_zero_digits (gb st) ;;
  if z then Ret st
  else
    match fuel with
    | O => OutOfFuel
    | S fuel' => st' <- gcd_step a_len0 b_len0 st ;; gcd_loop fuel' a_len0 b_len0 st'
    end.

(** src/bigint/gcd.rs:41-310. Returns (y buffer, length, sign) and v. *)
Definition gcd_digits (a b : list Z) : outcome ((list Z * nat * sgn) * (list Z * nat)) :=
  c <- cmp_digits a b ;;
  assert! match c with Gt => true | _ => false end ;;
  zb <- is_zero_digits b ;;
  assert! negb zb ;;
  let a_len0 := length a in
  let b_len0 := length b in
  _ <- digitvec_with_len a_len0 ;;
  st <- gcd_loop (Z.to_nat (2 * BITS) * a_len0) a_len0 b_len0 (mkG a b [0] Positive [1] Positive) ;;
  ua <- fill_buffer a_len0 (gua st) ;;
  v <- fill_buffer a_len0 (ga st) ;;
  Ret ((ua, length (gua st), gsa st), (v, length (ga st))).

(** src/bigint/gcd.rs:23-36 *)
Definition gcd (a b : bigint) : outcome (bigint * bigint * bigint) :=
  g <- bi_gt a b ;;
  assert! g ;;
  z <- bi_zero ;;
  gz <- bi_gt b z ;;
  assert! gz ;;
  da <- as_digits a ;;
  db <- as_digits b ;;
  '((yd, yl, ys), (vd, vl)) <- gcd_digits da db ;;
  let y := mkBig yd yl ys in
  let v := mkBig vd vl Positive in
  yb <- bi_mul y b ;;
  d <- bi_sub v yb ;;
  x <- bi_div d a ;;
  Ret (x, y, v).

End Model.

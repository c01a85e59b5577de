(** Model of src/bigint: digit arithmetic and the [BigInt] type.

    All functions return [outcome]: [Panic] covers [assert!], out-of-range
    slices and, in a debug build, [debug_assert!] and overflow. *)

From Verif Require Import Base.
Open Scope Z_scope.

(** How the crate is built. src/bigint/digit.rs:17-25: [Digit] is [u64], or
    [u8] under [cfg(u8_digit)]. Either way the build is a debug build, where
    [debug_assert!] and arithmetic overflow are checked, or a release build
    (Cargo's profile [release], which Cargo.toml does not change), where they
    are not: a [debug_assert!] is not even evaluated, and overflow wraps. *)
Inductive digit_cfg : Set := U64 | U8 | U64_release | U8_release.
Existing Class digit_cfg.

(** Does the build check [debug_assert!] and arithmetic overflow? *)
Definition debug_checks (c : digit_cfg) : bool :=
  match c with U64 | U8 => true | U64_release | U8_release => false end.

(** src/bigint/digit.rs:27 [DIGIT_BYTES] *)
Definition digit_bytes (c : digit_cfg) : nat :=
  match c with U64 | U64_release => 8%nat | U8 | U8_release => 1%nat end.
(** [Digit::BITS] *)
Definition digit_bits (c : digit_cfg) : Z :=
  match c with U64 | U64_release => 64 | U8 | U8_release => 8 end.
(** The base b = 2^BITS. *)
Definition digit_base (c : digit_cfg) : Z :=
  match c with U64 | U64_release => 18446744073709551616 | U8 | U8_release => 256 end.

(** [debug_assert!(c); k] for a condition that is a value. *)
Definition dassert {cfg : digit_cfg} {A} (c : bool) (k : outcome A) : outcome A :=
  if c then k else if debug_checks cfg then Panic else k.
Notation "'debug_assert!' c ;; k" := (dassert c k)
  (at level 60, c at next level, right associativity).

(** [debug_assert!(m); k] for a condition that is computed, and may panic
    itself; a release build does not compute it. *)
Definition dcheck {cfg : digit_cfg} {A} (m : outcome bool) (k : outcome A) : outcome A :=
  if debug_checks cfg then c <- m ;; oassert c k else k.
Notation "'debug_check!' m ;; k" := (dcheck m k)
  (at level 60, m at next level, right associativity).

(** src/bigint/bigint_core.rs:31-35 *)
Inductive sgn : Set := Positive | Negative.

Definition sgn_eqb (a b : sgn) : bool :=
  match a, b with Positive, Positive | Negative, Negative => true | _, _ => false end.

(** src/bigint/neg.rs:10-22 *)
Definition neg_sgn (s : sgn) : sgn :=
  match s with Positive => Negative | Negative => Positive end.

(** src/bigint/bigint_core.rs:15-20 and bigint_new.rs:21-27 ([BigInt::new]) *)
Record bigint : Set := mkBig { storage : list Z; dlen : nat; sign : sgn }.

(** src/bigint/bigint_core.rs:23-25 *)
Definition is_sign_negative (x : bigint) : bool := sgn_eqb (sign x) Negative.

Section Model.
Context {cfg : digit_cfg}.
Local Notation BITS := (digit_bits cfg).
Local Notation B := (digit_base cfg).

(** src/bigint/len.rs:12-22 *)
Definition len_digits (digits : list Z) : outcome nat :=
  assert! negb (match digits with [] => true | _ => false end) ;;
  Ret (match rposition (fun x => negb (x =? 0)) digits with
       | Some index => S index
       | None => 1%nat
       end).

(** src/bigint/bigint_slice.rs:20-22 *)
Definition is_valid_biguint_slice (l : list Z) : bool :=
  match l with
  | [] => false
  | _ => match len_digits l with Ret n => Nat.eqb n (length l) | _ => false end
  end.

(** src/bigint/bigint_slice.rs:26-29 *)
Definition as_digits (x : bigint) : outcome (list Z) :=
  debug_assert! Nat.ltb 0 (dlen x) ;;
  slice_to (storage x) (dlen x).

(** src/bigint/zero.rs:11-15 *)
Definition is_zero_digits (digits : list Z) : outcome bool :=
  debug_assert! is_valid_biguint_slice digits ;;
  Ret (Nat.eqb (length digits) 1 && (hd 1 digits =? 0))%bool.

(** src/bigint/zero.rs:18-20 *)
Definition is_zero (x : bigint) : outcome bool :=
  d <- as_digits x ;; is_zero_digits d.

(** [Iterator::cmp]: lexicographic comparison. *)
Fixpoint lex_cmp (a b : list Z) : comparison :=
  match a, b with
  | [], [] => Eq
  | [], _ :: _ => Lt
  | _ :: _, [] => Gt
  | x :: a', y :: b' => match x ?= y with Eq => lex_cmp a' b' | c => c end
  end.

(** src/bigint/cmp.rs:22-33 *)
Definition cmp_digits (a b : list Z) : outcome comparison :=
  debug_assert! is_valid_biguint_slice a ;;
  debug_assert! is_valid_biguint_slice b ;;
  Ret (match Nat.compare (length a) (length b) with
       | Gt => Gt
       | Lt => Lt
       | Eq => lex_cmp (rev a) (rev b)
       end).

(** Slice equality [a == b]. *)
Fixpoint list_eqb (a b : list Z) : bool :=
  match a, b with
  | [], [] => true
  | x :: a', y :: b' => ((x =? y) && list_eqb a' b')%bool
  | _, _ => false
  end.

(** src/bigint/cmp.rs:14-19 *)
Definition eq_digits (a b : list Z) : outcome bool :=
  debug_assert! is_valid_biguint_slice a ;;
  debug_assert! is_valid_biguint_slice b ;;
  Ret (list_eqb a b).

(** [self.is_zero() && other.is_zero()] with short circuit. *)
Definition both_zero (a b : bigint) : outcome bool :=
  za <- is_zero a ;;
  if za then is_zero b else Ret false.

(** src/bigint/cmp.rs:36-48 ([PartialEq::eq]) *)
Definition bi_eq (a b : bigint) : outcome bool :=
  zz <- both_zero a b ;;
  if zz then Ret true
  else if sgn_eqb (sign a) (sign b) then
    da <- as_digits a ;; db <- as_digits b ;; eq_digits da db
  else Ret false.

(** src/bigint/cmp.rs:60-73 ([Ord::cmp]; [partial_cmp] forwards to it) *)
Definition bi_cmp (a b : bigint) : outcome comparison :=
  zz <- both_zero a b ;;
  if zz then Ret Eq
  else match sign a, sign b with
       | Positive, Positive =>
         da <- as_digits a ;; db <- as_digits b ;; cmp_digits da db
       | Positive, Negative => Ret Gt
       | Negative, Positive => Ret Lt
       | Negative, Negative =>
         db <- as_digits b ;; da <- as_digits a ;; cmp_digits db da
       end.

(** The comparison operators derived from [PartialOrd]. *)
Definition bi_lt (a b : bigint) : outcome bool :=
  c <- bi_cmp a b ;; Ret (match c with Lt => true | _ => false end).
Definition bi_le (a b : bigint) : outcome bool :=
  c <- bi_cmp a b ;; Ret (match c with Gt => false | _ => true end).
Definition bi_gt (a b : bigint) : outcome bool :=
  c <- bi_cmp a b ;; Ret (match c with Gt => true | _ => false end).
Definition bi_ge (a b : bigint) : outcome bool :=
  c <- bi_cmp a b ;; Ret (match c with Lt => false | _ => true end).

(** src/bigint/helper_methods.rs:25-29 *)
Definition carrying_add (lhs rhs : Z) (carry : bool) : Z * bool :=
  let a := (lhs + rhs) mod B in
  let b := B <=? lhs + rhs in
  let cy := if carry then 1 else 0 in
  let c := (a + cy) mod B in
  let d := B <=? a + cy in
  (c, (b || d)%bool).

(** src/bigint/helper_methods.rs:41-45 *)
Definition borrowing_sub (lhs rhs : Z) (borrow : bool) : Z * bool :=
  let a := (lhs - rhs) mod B in
  let b := lhs <? rhs in
  let bw := if borrow then 1 else 0 in
  let c := (a - bw) mod B in
  let d := a <? bw in
  (c, (b || d)%bool).

(** A zero-filled output buffer of length [n] whose first positions receive
    [out]; writing past the end panics ([iter_mut().next().unwrap()] or a
    slice out of range). *)
Definition fill_buffer (n : nat) (out : list Z) : outcome (list Z) :=
  if Nat.leb (length out) n then Ret (out ++ repeat 0 (n - length out)) else Panic.

(** src/bigint/add.rs:52-55 (step 1) *)
Fixpoint add_zip (smaller greater : list Z) (carry : bool) : list Z * bool :=
  match smaller, greater with
  | s :: smaller', g :: greater' =>
    let '(d, carry1) := carrying_add g s carry in
    let '(ds, carry2) := add_zip smaller' greater' carry1 in
    (d :: ds, carry2)
  | _, _ => ([], carry)
  end.

(** src/bigint/add.rs:61-63 (step 2) *)
Fixpoint add_carry (greater : list Z) (carry : bool) : list Z * bool :=
  match greater with
  | g :: greater' =>
    let '(d, carry1) := carrying_add g 0 carry in
    let '(ds, carry2) := add_carry greater' carry1 in
    (d :: ds, carry2)
  | [] => ([], carry)
  end.

(** src/bigint/add.rs:134-136 *)
Definition adding_output_max_len (a_len b_len : nat) : nat := (Nat.max a_len b_len + 1)%nat.

(** src/bigint/add.rs:26-75.  The result buffer is filled with 0 first, so it
    enters only by its length [n]. Returns the buffer and the digits length. *)
Definition add_digits (a b : list Z) (n : nat) : outcome (list Z * nat) :=
  debug_assert! is_valid_biguint_slice a ;;
  debug_assert! is_valid_biguint_slice b ;;
  debug_assert! Nat.leb (adding_output_max_len (length a) (length b)) n ;;
  c <- cmp_digits a b ;;
  let '(greater, smaller) := match c with Lt => (b, a) | _ => (a, b) end in
  let '(low, carry) := add_zip smaller greater false in
  rest <- slice_from greater (length smaller) ;;
  if carry then
    let '(high, carry') := add_carry rest true in
    if carry' then
      r <- fill_buffer n (low ++ high ++ [1]) ;; Ret (r, (length greater + 1)%nat)
    else
      r <- fill_buffer n (low ++ high) ;; Ret (r, length greater)
  else
    r <- fill_buffer n (low ++ rest) ;; Ret (r, length greater).

(** src/bigint/sub.rs:61-64 (step 1) *)
Fixpoint sub_zip (smaller greater : list Z) (borrow : bool) : list Z * bool :=
  match smaller, greater with
  | s :: smaller', g :: greater' =>
    let '(d, borrow1) := borrowing_sub g s borrow in
    let '(ds, borrow2) := sub_zip smaller' greater' borrow1 in
    (d :: ds, borrow2)
  | _, _ => ([], borrow)
  end.

(** src/bigint/sub.rs:70-72 (step 2) *)
Fixpoint sub_borrow (greater : list Z) (borrow : bool) : list Z * bool :=
  match greater with
  | g :: greater' =>
    let '(d, borrow1) := borrowing_sub g 0 borrow in
    let '(ds, borrow2) := sub_borrow greater' borrow1 in
    (d :: ds, borrow2)
  | [] => ([], borrow)
  end.

(** src/bigint/sub.rs:140-142 *)
Definition subtracting_output_max_len (a_len b_len : nat) : nat := Nat.max a_len b_len.

(** src/bigint/sub.rs:32-80.  Panics when a < b. *)
Definition sub_digits (a b : list Z) (n : nat) : outcome (list Z * nat) :=
  debug_assert! is_valid_biguint_slice a ;;
  debug_assert! is_valid_biguint_slice b ;;
  debug_assert! Nat.leb (subtracting_output_max_len (length a) (length b)) n ;;
  c <- cmp_digits a b ;;
  match c with
  | Eq => Ret (repeat 0 n, 1%nat)
  | Lt => Panic
  | Gt =>
    greater_digits_len <- len_digits a ;;
    smaller_digits_len <- len_digits b ;;
    let '(low, borrow) := sub_zip b a false in
    rest <- slice_from a smaller_digits_len ;;
    r <- (if borrow then fill_buffer n (low ++ fst (sub_borrow rest true))
          else (assert! Nat.eqb (greater_digits_len - smaller_digits_len) (length rest) ;;
                fill_buffer n (low ++ rest))) ;;
    l <- len_digits r ;;
    Ret (r, l)
  end.

(** src/bigint/bigint_vec.rs:14-18 (only its length matters for output buffers) *)
Definition digitvec_with_len (len : nat) : outcome (list Z) :=
  debug_assert! Nat.ltb 0 len ;; Ret (repeat 0 len).

(** A value of type [DoubleDigit]; exceeding it panics in a debug build and
    wraps in a release build. *)
Definition ck_double (t : Z) : outcome Z :=
  if ((0 <=? t) && (t <? B * B))%bool then Ret t
  else if debug_checks cfg then Panic else Ret (t mod (B * B)).

(** src/bigint/mul.rs:65-82: one row. Returns the new window digits aligned
    with [greater], and the carry. *)
Fixpoint mul_row (greater window : list Z) (smaller_digit carry : Z) : outcome (list Z * Z) :=
  match greater, window with
  | g :: greater', r :: window' =>
    t <- ck_double (smaller_digit * g + r + carry) ;;
    '(ds, c) <- mul_row greater' window' smaller_digit (t / B) ;;
    Ret (t mod B :: ds, c)
  | _, _ => Ret ([], carry)
  end.

(** [*slice.last_mut().unwrap() = v] *)
Definition set_last (l : list Z) (v : Z) : outcome (list Z) :=
  match l with [] => Panic | _ => Ret (removelast l ++ [v]) end.

(** src/bigint/mul.rs:60-87: the loop over [smaller]. [result] is the part of
    the output buffer starting at the current window offset: the digit just
    below the next window is final and is left in place. *)
Fixpoint mul_rows (smaller greater result : list Z) : outcome (list Z) :=
  match smaller with
  | [] => Ret result
  | s :: smaller' =>
    let window_len := (length greater + 1)%nat in
    window <- slice_to result window_len ;;
    '(ds, carry) <- mul_row greater window s 0 ;;
    let window1 := ds ++ skipn (length greater) window in
    window2 <- (if 0 <? carry then set_last window1 (carry mod B) else Ret window1) ;;
    match window2 ++ skipn window_len result with
    | [] => Panic
    | d :: result' => tl <- mul_rows smaller' greater result' ;; Ret (d :: tl)
    end
  end.

(** src/bigint/mul.rs:25-90 *)
Definition mul_digits (a b : list Z) (n : nat) : outcome (list Z * nat) :=
  debug_assert! is_valid_biguint_slice a ;;
  debug_assert! is_valid_biguint_slice b ;;
  debug_assert! Nat.leb (length a + length b) n ;;
  za <- is_zero_digits a ;;
  zb <- is_zero_digits b ;;
  if (za || zb)%bool then Ret (repeat 0 n, 1%nat)
  else
    c <- cmp_digits a b ;;
    let '(greater, smaller) := match c with Lt => (b, a) | _ => (a, b) end in
    r <- mul_rows smaller greater (repeat 0 n) ;;
    l <- len_digits r ;;
    Ret (r, l).

(** [u::leading_zeros()] of a digit. *)
Definition leading_zeros (x : Z) : Z := if x =? 0 then BITS else BITS - 1 - Z.log2 x.

(** [x << n] on [Digit]: bits shifted out are lost; n >= BITS panics in a
    debug build, and a release build shifts by n mod BITS. *)
Definition shl_digit (x n : Z) : outcome Z :=
  if ((0 <=? n) && (n <? BITS))%bool then Ret ((x * 2 ^ n) mod B)
  else if debug_checks cfg then Panic else Ret ((x * 2 ^ (n mod BITS)) mod B).
(** [x >> n] on [Digit]. *)
Definition shr_digit (x n : Z) : outcome Z :=
  if ((0 <=? n) && (n <? BITS))%bool then Ret (x / 2 ^ n)
  else if debug_checks cfg then Panic else Ret (x / 2 ^ (n mod BITS)).
(** [x.checked_shr(n).unwrap_or(0)] *)
Definition checked_shr_digit (x n : Z) : Z := if n <? BITS then x / 2 ^ n else 0.

(** src/bigint/divrem.rs:74-82: [dividend] is given most significant digit
    first; the quotient digits come out in the same order. *)
Fixpoint div1_loop (dividend : list Z) (divisor0 remainder0 : Z) : outcome (list Z * Z) :=
  match dividend with
  | [] => Ret ([], remainder0)
  | d :: dividend' =>
    t <- ck_double (Z.lor (remainder0 * B) d) ;;
    '(qs, r) <- div1_loop dividend' divisor0 (t mod divisor0) ;;
    Ret ((t / divisor0) mod B :: qs, r)
  end.

(** src/bigint/divrem.rs:460-466 *)
Fixpoint sub_mul_loop (a b : list Z) (c mul_carry : Z) (borrow : bool) {struct b}
  : outcome (list Z * list Z * Z * bool) :=
  match b with
  | [] => Ret ([], a, mul_carry, borrow)
  | b_digit :: b' =>
    t <- ck_double (b_digit * c + mul_carry) ;;
    match a with
    | [] => Panic
    | a_digit :: a' =>
      let '(d, borrow1) := borrowing_sub a_digit (t mod B) borrow in
      '(ds, rest, mc, bw) <- sub_mul_loop a' b' c (t / B) borrow1 ;;
      Ret (d :: ds, rest, mc, bw)
    end
  end.

(** src/bigint/divrem.rs:452-475: a -= b * c *)
Definition sub_mul_digits (a b : list Z) (c : Z) : outcome (list Z) :=
  debug_assert! Nat.eqb (length a) (length b + 2) ;;
  '(ds, rest, mul_carry, borrow) <- sub_mul_loop a b c 0 false ;;
  match rest with
  | x :: y :: tl =>
    let '(d1, borrow1) := borrowing_sub x (mul_carry mod B) borrow in
    let '(d2, _) := borrowing_sub y 0 borrow1 in
    Ret (ds ++ d1 :: d2 :: tl)
  | _ => Panic
  end.

(** src/bigint/divrem.rs:485-488 *)
Fixpoint assign_add_loop (a b : list Z) (carry : bool) {struct b} : outcome (list Z * list Z * bool) :=
  match b with
  | [] => Ret ([], a, carry)
  | b_digit :: b' =>
    match a with
    | [] => Panic
    | a_digit :: a' =>
      let '(d, carry1) := carrying_add a_digit b_digit carry in
      '(ds, rest, cy) <- assign_add_loop a' b' carry1 ;;
      Ret (d :: ds, rest, cy)
    end
  end.

(** src/bigint/divrem.rs:479-497: a += b *)
Definition assign_add_digits (a b : list Z) : outcome (list Z) :=
  debug_assert! Nat.eqb (length a) (length b + 2) ;;
  '(ds, rest, carry) <- assign_add_loop a b false ;;
  match rest with
  | x :: y :: tl =>
    let '(d1, carry1) := carrying_add x 0 carry in
    let '(d2, _) := carrying_add y 0 carry1 in
    Ret (ds ++ d1 :: d2 :: tl)
  | _ => Panic
  end.

(** src/bigint/divrem.rs:133-170: the two top digits of the normalised
    divisor, the shift d and next_d = BITS - d. *)
Definition normalize_divisor (divisor : list Z) : outcome (Z * Z * Z * Z) :=
  let m := length divisor in
  divisor0 <- index divisor (m - 1) ;;
  divisor1 <- index divisor (m - 2) ;;
  let d := leading_zeros divisor0 in
  let next_d := BITS - d in
  if 0 <? d then
    h <- shl_digit divisor0 d ;; l <- shr_digit divisor1 next_d ;;
    h1 <- shl_digit divisor1 d ;;
    if Nat.ltb 2 m then
      divisor2 <- index divisor (m - 3) ;;
      l1 <- shr_digit divisor2 next_d ;;
      Ret (Z.lor h l, Z.lor h1 l1, d, next_d)
    else Ret (Z.lor h l, h1, d, next_d)
  else Ret (divisor0, divisor1, d, next_d).

(** src/bigint/divrem.rs:198-227: the three top digits of the normalised
    dividend window. [rw] is the reversed window (most significant first). *)
Definition normalize_dividend (rw : list Z) (d next_d : Z) : outcome (Z * Z * Z) :=
  match rw with
  | _ :: dividend0 :: dividend1 :: dividend2 :: rest =>
    if d =? 0 then Ret (dividend0, dividend1, dividend2)
    else
      h0 <- shl_digit dividend0 d ;; l0 <- shr_digit dividend1 next_d ;;
      h1 <- shl_digit dividend1 d ;; l1 <- shr_digit dividend2 next_d ;;
      h2 <- shl_digit dividend2 d ;;
      match rest with
      | dividend3 :: _ =>
        l2 <- shr_digit dividend3 next_d ;;
        Ret (Z.lor h0 l0, Z.lor h1 l1, Z.lor h2 l2)
      | [] => Ret (Z.lor h0 l0, Z.lor h1 l1, h2)
      end
  | _ => Panic
  end.

(** src/bigint/divrem.rs:251-333: the quotient estimate and its at most two
    corrections, in [DoubleDigit] arithmetic. *)
Definition estimate_q (u0 u1 u2 v0 v1 : Z) : outcome Z :=
  '(q_hat, r_hat, q_hat_found) <-
    (if u0 =? v0 then
       r_hat <- ck_double (u1 + v0) ;;
       if r_hat <=? B - 1 then Ret (B - 1, Some r_hat, false)
       else Ret (B - 1, None, true)
     else
       let t := Z.lor ((u0 * B) mod (B * B)) u1 in
       (assert! negb (v0 =? 0) ;;
        Ret (t / v0, Some (t mod v0), false))) ;;
  if (q_hat_found : bool) then Ret q_hat
  else
    r_hat <- unwrap r_hat ;;
    lhs <- ck_double (q_hat * v1) ;;
    debug_assert! r_hat <=? B - 1 ;;
    rhs <- ck_double (r_hat * B + u2) ;;
    if rhs <? lhs then
      q_hat1 <- ck_double (q_hat - 1) ;;
      s <- ck_double (r_hat + v0) ;;
      if s <=? B - 1 then
        lhs1 <- ck_double (lhs - v1) ;;
        rhs1 <- ck_double (rhs + v0 * B) ;;
        if rhs1 <? lhs1 then ck_double (q_hat1 - 1) else Ret q_hat1
      else Ret q_hat1
    else Ret q_hat.

(** src/bigint/divrem.rs:197-355: one step of Algorithm D on a window of
    [divisor.len() + 2] digits. Returns the new window and the quotient digit. *)
Definition knuth_step (divisor : list Z) (v0 v1 d next_d : Z) (window : list Z)
  : outcome (list Z * Z) :=
  '(u0, u1, u2) <- normalize_dividend (rev window) d next_d ;;
  q_hat_double <- estimate_q u0 u1 u2 v0 v1 ;;
  let q_hat := q_hat_double mod B in
  window1 <- set_last window 1 ;;
  window2 <- sub_mul_digits window1 divisor q_hat ;;
  if last window2 0 =? 0 then
    debug_assert! 0 <? q_hat ;;
    window3 <- assign_add_digits window2 divisor ;;
    window4 <- set_last window3 0 ;;
    Ret (window4, (q_hat - 1) mod B)
  else
    window4 <- set_last window2 0 ;;
    Ret (window4, q_hat).

(** src/tools/slice.rs:12-32 ([rwindows_mut_each]) with the closure of
    divrem.rs:197-355: windows from the most significant end downwards;
    [start] is the offset of the current window. Quotient digits are
    accumulated least significant first. *)
Fixpoint knuth_loop (divisor : list Z) (v0 v1 d next_d : Z) (start : nat)
         (st : list Z) (q : list Z) : outcome (list Z * list Z) :=
  let wl := (length divisor + 2)%nat in
  window <- slice st start (start + wl) ;;
  '(window', q_hat) <- knuth_step divisor v0 v1 d next_d window ;;
  let st' := firstn start st ++ window' ++ skipn (start + wl) st in
  match start with
  | O => Ret (st', q_hat :: q)
  | S start' => knuth_loop divisor v0 v1 d next_d start' st' (q_hat :: q)
  end.

(** src/bigint/divrem.rs:30-362. [qn] and [rn] are the lengths of the quotient
    and remainder buffers (both zero-filled first). *)
Definition div_rem_digits (dividend divisor : list Z) (qn rn : nat)
  : outcome (list Z * nat * (list Z * nat)) :=
  debug_assert! is_valid_biguint_slice dividend ;;
  debug_assert! is_valid_biguint_slice divisor ;;
  debug_assert! Nat.leb (length dividend) qn ;;
  debug_assert! Nat.leb (length divisor) rn ;;
  zb <- is_zero_digits divisor ;;
  assert! negb zb ;;
  za <- is_zero_digits dividend ;;
  if za then Ret (repeat 0 qn, 1%nat, (repeat 0 rn, 1%nat))
  else
    c <- cmp_digits dividend divisor ;;
    match c with
    | Eq => q <- fill_buffer qn [1] ;; Ret (q, 1%nat, (repeat 0 rn, 1%nat))
    | Lt => r <- fill_buffer rn dividend ;; Ret (repeat 0 qn, 1%nat, (r, length dividend))
    | Gt =>
      if Nat.eqb (length divisor) 1 then
        '(qs, r0) <- div1_loop (rev dividend) (hd 0 divisor) 0 ;;
        q <- fill_buffer qn (rev qs) ;;
        r <- fill_buffer rn [r0 mod B] ;;
        ql <- len_digits q ;;
        Ret (q, ql, (r, 1%nat))
      else
        '(v0, v1, d, next_d) <- normalize_divisor divisor ;;
        let st := dividend ++ [0; 0] in
        let wl := (length divisor + 2)%nat in
        assert! Nat.leb wl (length st) ;;
        '(st', qs) <- knuth_loop divisor v0 v1 d next_d (length st - wl) st [] ;;
        assert! Nat.leb (length qs) (length dividend - length divisor + 1) ;;
        q <- fill_buffer qn qs ;;
        r <- slice_to st' rn ;;
        ql <- len_digits q ;;
        rl <- len_digits r ;;
        Ret (q, ql, (r, rl))
    end.

(** src/bigint/bytes.rs:46-69: zero padding in front up to a multiple of the
    digit size (a whole extra digit when already aligned), then chunks. *)
Fixpoint chunk_digits (fuel : nat) (l : list Z) : list Z :=
  match fuel with
  | O => []
  | S f => be_val (firstn (digit_bytes cfg) l) :: chunk_digits f (skipn (digit_bytes cfg) l)
  end.

Definition be_bytes_to_be_digits (bs : list Z) : list Z :=
  match bs with
  | [] => []
  | _ =>
    let extend_n := (digit_bytes cfg - Nat.modulo (length bs) (digit_bytes cfg))%nat in
    let padded := repeat 0 extend_n ++ bs in
    chunk_digits (Nat.div (length padded) (digit_bytes cfg)) padded
  end.

(** src/bigint/bytes.rs:71-76 *)
Definition be_bytes_to_le_digits (bs : list Z) : list Z := rev (be_bytes_to_be_digits bs).

(** src/bigint/bytes.rs:25-42 *)
Definition be_digits_to_be_bytes (digits : list Z) : list Z :=
  match digits with
  | first :: elements =>
    let leading_zero_bytes_len := Z.to_nat (leading_zeros first / 8) in
    skipn leading_zero_bytes_len (to_be (digit_bytes cfg) first)
          ++ flat_map (to_be (digit_bytes cfg)) elements
  | [] => []
  end.

(** src/bigint/bigint_new.rs:30-35 *)
Definition bi_from_be_bytes (bs : list Z) (s : sgn) : outcome bigint :=
  let digits := be_bytes_to_le_digits bs in
  n <- len_digits digits ;;
  Ret (mkBig digits n s).

(** src/bigint/bigint_new.rs:109-115 *)
Definition from_u128 (n : Z) (s : sgn) : outcome bigint :=
  let digits := be_bytes_to_le_digits (to_be 16 n) in
  l <- len_digits digits ;;
  Ret (mkBig digits l s).

(** src/bigint/bigint_new.rs:118-139. [i as u128] of the minimum is 2^127. *)
Definition from_i128 (i : Z) : outcome bigint :=
  if 0 <=? i then from_u128 i Positive
  else
    let overflow := i =? - 2 ^ 127 in
    let n := if overflow then i mod 2 ^ 128 else - i in
    from_u128 n Negative.

(** src/bigint/bigint_from.rs:9-41: every unsigned type goes through
    [from_u128], every signed type (and integer literals, i32) through
    [from_i128], after a widening cast. *)
Definition from_uint (n : Z) : outcome bigint := from_u128 n Positive.
Definition from_int (i : Z) : outcome bigint := from_i128 i.

(** src/bigint/bigint_new.rs:141-147 *)
Definition bi_zero : outcome bigint := from_int 0.
Definition bi_one : outcome bigint := from_int 1.

(** src/bigint/bigint_into.rs:36-41 *)
Definition bi_to_be_bytes (x : bigint) : outcome (list Z) :=
  d <- as_digits x ;; Ret (be_digits_to_be_bytes (rev d)).

(** src/bigint/neg.rs:36-39 *)
Definition bi_neg (x : bigint) : bigint := mkBig (storage x) (dlen x) (neg_sgn (sign x)).

(** src/bigint/add.rs:80-103 *)
Definition bi_add (x y : bigint) : outcome bigint :=
  a <- as_digits x ;; b <- as_digits y ;;
  if sgn_eqb (sign x) (sign y) then
    out <- digitvec_with_len (adding_output_max_len (length a) (length b)) ;;
    '(r, l) <- add_digits a b (length out) ;;
    Ret (mkBig r l (sign x))
  else
    c <- cmp_digits a b ;;
    match c with
    | Lt => out <- digitvec_with_len (subtracting_output_max_len (length b) (length a)) ;;
            '(r, l) <- sub_digits b a (length out) ;;
            Ret (mkBig r l (sign y))
    | Eq => from_int 0
    | Gt => out <- digitvec_with_len (subtracting_output_max_len (length a) (length b)) ;;
            '(r, l) <- sub_digits a b (length out) ;;
            Ret (mkBig r l (sign x))
    end.

(** src/bigint/sub.rs:85-109 *)
Definition bi_sub (x y : bigint) : outcome bigint :=
  a <- as_digits x ;; b <- as_digits y ;;
  if negb (sgn_eqb (sign x) (sign y)) then
    out <- digitvec_with_len (adding_output_max_len (length a) (length b)) ;;
    '(r, l) <- add_digits a b (length out) ;;
    Ret (mkBig r l (sign x))
  else
    c <- cmp_digits a b ;;
    match c with
    | Lt => out <- digitvec_with_len (subtracting_output_max_len (length b) (length a)) ;;
            '(r, l) <- sub_digits b a (length out) ;;
            Ret (mkBig r l (neg_sgn (sign x)))
    | Eq => from_int 0
    | Gt => out <- digitvec_with_len (subtracting_output_max_len (length a) (length b)) ;;
            '(r, l) <- sub_digits a b (length out) ;;
            Ret (mkBig r l (sign x))
    end.

(** src/bigint/mul.rs:95-107 *)
Definition bi_mul (x y : bigint) : outcome bigint :=
  a <- as_digits x ;; b <- as_digits y ;;
  out <- digitvec_with_len (length a + length b) ;;
  '(r, l) <- mul_digits a b (length out) ;;
  Ret (mkBig r l (if sgn_eqb (sign x) (sign y) then Positive else Negative)).

(** src/bigint/divrem.rs:366-382 *)
Definition div_rem (x y : bigint) : outcome (bigint * bigint) :=
  a <- as_digits x ;; b <- as_digits y ;;
  qo <- digitvec_with_len (length a) ;;
  ro <- digitvec_with_len (length b) ;;
  '(q, ql, (r, rl)) <- div_rem_digits a b (length qo) (length ro) ;;
  Ret (mkBig q ql (if sgn_eqb (sign x) (sign y) then Positive else Negative),
       mkBig r rl (sign x)).

(** src/bigint/divrem.rs:387-390, 420-423 *)
Definition bi_div (x y : bigint) : outcome bigint :=
  '(q, _) <- div_rem x y ;; Ret q.
Definition bi_rem (x y : bigint) : outcome bigint :=
  '(_, r) <- div_rem x y ;; Ret r.

(** src/bigint/bits.rs:12-21 *)
Definition bit_len_digits (a : list Z) : outcome Z :=
  debug_assert! is_valid_biguint_slice a ;;
  z <- is_zero_digits a ;;
  if z then Ret 0
  else
    msd <- index a (length a - 1) ;;
    Ret (Z.of_nat (length a) * BITS - leading_zeros msd).

(** src/bigint/bits.rs:26-28 *)
Definition bit_len (x : bigint) : outcome Z :=
  d <- as_digits x ;; bit_len_digits d.

(** src/bigint/bytes.rs:14-21 *)
Definition byte_len (x : bigint) : outcome Z :=
  z <- is_zero x ;;
  if z then Ret 0 else n <- bit_len x ;; Ret ((n + 7) / 8).

(** [for _ in 0..n { bits.push(digit & 1 == 1); digit >>= 1 }] *)
Fixpoint push_bits (n : nat) (digit : Z) : list bool :=
  match n with
  | O => []
  | S n' => Z.odd digit :: push_bits n' (digit / 2)
  end.

(** src/bigint/bits.rs:30-59 *)
Definition le_bits (x : bigint) : outcome (list bool) :=
  z <- is_zero x ;;
  if z then Ret []
  else
    digits <- as_digits x ;;
    match digits with
    | [] => Panic
    | _ =>
      let lst := last digits 0 in
      let bits := flat_map (push_bits (Z.to_nat BITS)) (removelast digits)
                  ++ push_bits (Z.to_nat (BITS - leading_zeros lst)) lst in
      n <- bit_len x ;;
      debug_assert! Z.of_nat (length bits) =? n ;;
      Ret bits
    end.

(** [slice.rotate_left(k)], panics when k > len. *)
Definition rotate_left (l : list Z) (k : nat) : outcome (list Z) :=
  if Nat.leb k (length l) then Ret (skipn k l ++ firstn k l) else Panic.
(** [slice.rotate_right(k)] *)
Definition rotate_right (l : list Z) (k : nat) : outcome (list Z) :=
  if Nat.leb k (length l) then
    Ret (skipn (length l - k) l ++ firstn (length l - k) l) else Panic.

(** src/bigint/shift.rs:36-41; the digits are given most significant first. *)
Fixpoint shr_loop (rdigits : list Z) (n next carry : Z) : outcome (list Z) :=
  match rdigits with
  | [] => Ret []
  | x :: rest =>
    t <- shl_digit x next ;;
    y <- shr_digit x n ;;
    ds <- shr_loop rest n next t ;;
    Ret (Z.lor y carry :: ds)
  end.

(** src/bigint/shift.rs:14-46. Returns the new digits and digits length. *)
Definition shift_right_digits (digits : list Z) (digits_len : nat) (n : Z)
  : outcome (list Z * nat) :=
  bl <- bit_len_digits digits ;;
  if bl <=? n then Ret (repeat 0 (length digits), 1%nat)
  else
    let sd := Z.to_nat (n / BITS) in
    let sb := n mod BITS in
    '(digits1, len1) <-
      (if Nat.ltb 0 sd then
         _ <- slice_to digits sd ;;
         r <- rotate_left (repeat 0 sd ++ skipn sd digits) sd ;;
         (* a usize subtraction; never below 0, as sd < digits.len() = digits_len *)
         assert! Nat.leb sd digits_len ;;
         Ret (r, (digits_len - sd)%nat)
       else Ret (digits, digits_len)) ;;
    if 0 <? sb then
      low <- slice_to digits1 len1 ;;
      ds <- shr_loop (rev low) sb (BITS - sb) 0 ;;
      let digits2 := rev ds ++ skipn len1 digits1 in
      l <- len_digits digits2 ;;
      Ret (digits2, l)
    else Ret (digits1, len1).

(** src/bigint/shift.rs:48-74 *)
Definition bi_shr (x : bigint) (n : Z) : outcome bigint :=
  d <- slice_to (storage x) (dlen x) ;;
  '(d', l) <- shift_right_digits d (dlen x) n ;;
  Ret (mkBig (d' ++ skipn (dlen x) (storage x)) l (sign x)).

(** src/bigint/shift.rs:103-107 *)
Fixpoint shl_loop (digits : list Z) (n next carry : Z) : outcome (list Z) :=
  match digits with
  | [] => Ret []
  | x :: rest =>
    t <- shr_digit x next ;;
    y <- shl_digit x n ;;
    ds <- shl_loop rest n next t ;;
    Ret (Z.lor y carry :: ds)
  end.

(** src/bigint/shift.rs:77-112 *)
Definition shift_left_digits (digits : list Z) (digits_len : nat) (n : Z)
  : outcome (list Z * nat) :=
  let sd := Z.to_nat (n / BITS) in
  let sb := n mod BITS in
  '(digits1, len1) <-
    (if Nat.ltb 0 sd then
       (* a usize subtraction; never below 0, as digits_len <= digits.len() *)
       assert! Nat.leb digits_len (length digits) ;;
       let available := (length digits - digits_len)%nat in
       let ext := if Nat.ltb available sd then digits ++ repeat 0 (sd - available) else digits in
       let len1 := (digits_len + sd)%nat in
       low <- slice_to ext len1 ;;
       r <- rotate_right low sd ;;
       Ret (r ++ skipn len1 ext, len1)
     else Ret (digits, digits_len)) ;;
  if 0 <? sb then
    let digits2 := if Nat.eqb len1 (length digits1) then digits1 ++ [0] else digits1 in
    low <- slice_to digits2 (len1 + 1) ;;
    ds <- shl_loop low sb (BITS - sb) 0 ;;
    l <- len_digits ds ;;
    Ret (ds ++ skipn (len1 + 1) digits2, l)
  else Ret (digits1, len1).

(** src/bigint/shift.rs:114-136 *)
Definition bi_shl (x : bigint) (n : Z) : outcome bigint :=
  '(d, l) <- shift_left_digits (storage x) (dlen x) n ;;
  Ret (mkBig d l (sign x)).

(** src/bigint/math.rs:11-14, 16-18 *)
Definition is_even (x : bigint) : outcome bool :=
  d <- index (storage x) 0 ;; Ret (Z.even d).
Definition is_odd (x : bigint) : outcome bool :=
  e <- is_even x ;; Ret (negb e).

(** [u::trailing_zeros()] of a nonzero digit. *)
Fixpoint ctz_pos (p : positive) : Z :=
  match p with xO p' => 1 + ctz_pos p' | _ => 0 end.
Definition ctz (x : Z) : Z := match x with Zpos p => ctz_pos p | _ => BITS end.

(** src/bigint/math.rs:22-30 *)
Definition trailing_zeros (x : bigint) : outcome Z :=
  z <- is_zero x ;;
  assert! negb z ;;
  d <- as_digits x ;;
  match position (fun y => negb (y =? 0)) d with
  | Some i => y <- index (storage x) i ;; Ret (Z.of_nat i * BITS + ctz y)
  | None => Panic
  end.

End Model.

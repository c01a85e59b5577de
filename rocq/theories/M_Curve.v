(** Model of src/math/elliptic_curve.rs, src/crypto/elliptic_curve_params.rs and src/crypto/secp256k1.rs. *)

From Coq Require Import String Ascii.
From Verif Require Import Base M_BigInt M_BigText M_Modular.
Open Scope Z_scope.

Section Model.
Context {cfg : digit_cfg}.

(** src/math/elliptic_curve.rs:13-17 *)
Record curve := mkCurve { c_a : bigint; c_b : bigint; c_p : bigint }.
(** src/math/elliptic_curve.rs:133-136 *)
Record point := mkPoint { px : bigint; py : bigint }.
(** src/crypto/elliptic_curve_params.rs:11-16 *)
Record params := mkParams { d_curve : curve; d_base : point; d_order : bigint; d_cofactor : Z }.

(** src/math/elliptic_curve.rs:143-145: [&&] is lazy *)
Definition is_identity_element (a : point) : outcome bool :=
  zx <- is_zero (px a) ;;
  if (zx : bool) then is_zero (py a) else Ret false.

(** src/math/elliptic_curve.rs:148-153 *)
Definition identity_element : outcome point :=
  x <- bi_zero ;; y <- bi_zero ;; Ret (mkPoint x y).

(** [#[derive(PartialEq)]] for Point, src/math/elliptic_curve.rs:132 *)
Definition point_eq (a b : point) : outcome bool :=
  ex <- bi_eq (px a) (px b) ;;
  if (ex : bool) then bi_eq (py a) (py b) else Ret false.

(** The asserted condition [v >= zero && v < p], src/math/elliptic_curve.rs:26-27, 53-56 *)
Definition in_field (v p : bigint) : outcome bool :=
  z <- bi_zero ;;
  c <- bi_ge v z ;;
  if (c : bool) then bi_lt v p else Ret false.

(** src/math/elliptic_curve.rs:20-22 *)
Definition curve_modulo (C : curve) (a : bigint) : outcome bigint := modulo a (c_p C).
(** src/math/elliptic_curve.rs:126-128 *)
Definition curve_invert (C : curve) (a : bigint) : outcome (option bigint) := invert a (c_p C).

(** src/math/elliptic_curve.rs:25-49 *)
Definition double_point (C : curve) (a : point) : outcome point :=
  debug_check! in_field (px a) (c_p C) ;;
  debug_check! in_field (py a) (c_p C) ;;
  id <- is_identity_element a ;;
  if (id : bool) then identity_element
  else
    two <- from_int 2 ;;
    three <- from_int 3 ;;
    t1 <- bi_mul three (px a) ;;
    t2 <- bi_mul t1 (px a) ;;
    t3 <- bi_add t2 (c_a C) ;;
    t4 <- bi_mul two (py a) ;;
    io <- curve_invert C t4 ;;
    i <- unwrap io ;;
    m0 <- bi_mul t3 i ;;
    m <- curve_modulo C m0 ;;
    x1 <- bi_mul m m ;;
    x2 <- bi_mul two (px a) ;;
    x3 <- bi_sub x1 x2 ;;
    x <- curve_modulo C x3 ;;
    y1 <- bi_sub (px a) x ;;
    y2 <- bi_mul m y1 ;;
    y3 <- bi_sub y2 (py a) ;;
    y <- curve_modulo C y3 ;;
    Ret (mkPoint x y).

(** src/math/elliptic_curve.rs:52-99; the identity tests of the three first [if]s are evaluated once
    (they are pure and, on well-formed numbers, do not panic) *)
Definition add_points (C : curve) (a b : point) : outcome point :=
  debug_check! in_field (px a) (c_p C) ;;
  debug_check! in_field (py a) (c_p C) ;;
  debug_check! in_field (px b) (c_p C) ;;
  debug_check! in_field (py b) (c_p C) ;;
  ia <- is_identity_element a ;;
  ib <- is_identity_element b ;;
  (* O + O = O; O + b = b; a + O = a *)
  if (ia && ib)%bool then identity_element
  else if (ia : bool) then Ret b
  else if (ib : bool) then Ret a
  else
    e <- point_eq a b ;;
    if (e : bool) then double_point C a
    else
      ex <- bi_eq (px a) (px b) ;;
      if (ex : bool) then
        ny <- curve_modulo C (bi_neg (py b)) ;;
        ey <- bi_eq (py a) ny ;;
        if (ey : bool) then identity_element else Panic
      else
        t1 <- bi_sub (py b) (py a) ;;
        t2 <- bi_sub (px b) (px a) ;;
        io <- curve_invert C t2 ;;
        i <- unwrap io ;;
        m0 <- bi_mul t1 i ;;
        m <- curve_modulo C m0 ;;
        x1 <- bi_mul m m ;;
        x2 <- bi_sub x1 (px a) ;;
        x3 <- bi_sub x2 (px b) ;;
        x <- curve_modulo C x3 ;;
        y1 <- bi_sub (px a) x ;;
        y2 <- bi_mul m y1 ;;
        y3 <- bi_sub y2 (py a) ;;
        y <- curve_modulo C y3 ;;
        Ret (mkPoint x y).

(** src/math/elliptic_curve.rs:115-120: the loop over the bits; the state is (base, result) *)
Fixpoint mul_loop (C : curve) (bits : list bool) (base result : point) : outcome point :=
  match bits with
  | [] => Ret result
  | bit :: bits' =>
      result' <- (if bit then add_points C base result else Ret result) ;;
      base' <- double_point C base ;;
      mul_loop C bits' base' result'
  end.

(** src/math/elliptic_curve.rs:102-122 *)
Definition mul_point (C : curve) (P : point) (n : bigint) : outcome point :=
  debug_check! (z <- bi_zero ;; bi_ge (px P) z) ;;
  debug_check! (z <- bi_zero ;; bi_ge (py P) z) ;;
  debug_check! (z <- bi_zero ;; bi_ge n z) ;;
  nz <- is_zero n ;;
  if (nz : bool) then identity_element
  else
    result <- identity_element ;;
    bits <- le_bits n ;;
    mul_loop C bits P result.

(** src/crypto/elliptic_curve_params.rs:48-86 *)
Definition validate_point (D : params) (P : point) : outcome bool :=
  zero <- bi_zero ;;
  x_neg <- bi_lt (px P) zero ;;
  neg <- (if (x_neg : bool) then Ret true else bi_lt (py P) zero) ;;
  if (neg : bool) then Ret false else
  x_big <- bi_ge (px P) (c_p (d_curve D)) ;;
  big <- (if (x_big : bool) then Ret true else bi_ge (py P) (c_p (d_curve D))) ;;
  if (big : bool) then Ret false else
  left0 <- bi_mul (py P) (py P) ;;
  left <- curve_modulo (d_curve D) left0 ;;
  r1 <- bi_mul (px P) (px P) ;;
  r2 <- bi_mul r1 (px P) ;;
  r3 <- bi_mul (c_a (d_curve D)) (px P) ;;
  r4 <- bi_add r2 r3 ;;
  r5 <- bi_add r4 (c_b (d_curve D)) ;;
  right <- curve_modulo (d_curve D) r5 ;;
  ne <- bi_ne left right ;;
  if (ne : bool) then Ret false else
  id <- is_identity_element P ;;
  if (id : bool) then Ret false else
  if negb (d_cofactor D =? 1) then
    np <- mul_point (d_curve D) P (d_order D) ;;
    idn <- is_identity_element np ;;
    if negb idn then Ret false else Ret true
  else Ret true.

(** [vec![0; len - bytes.len()]] followed by the bytes: if the subtraction of usize
    overflows, a debug build panics there, and a release build in [vec!], which cannot have as many
    elements as that is modulo 2^64. *)
Definition pad_to (len : Z) (bs : list Z) : outcome (list Z) :=
  let n := Z.of_nat (length bs) in
  assert! (n <=? len) ;;
  Ret (repeat 0 (Z.to_nat (len - n)) ++ bs).

(** src/crypto/elliptic_curve_params.rs:90-103 *)
Definition point_to_bytes (D : params) (P : point) : outcome (list Z) :=
  len <- byte_len (d_order D) ;;
  bx <- bi_to_be_bytes (px P) ;;
  dx <- pad_to len bx ;;
  by_ <- bi_to_be_bytes (py P) ;;
  dy <- pad_to len by_ ;;
  Ret (dx ++ dy).

(** The bytes of a string literal. *)
Definition ascii_codes (s : string) : list Z := map (fun c => Z.of_N (N_of_ascii c)) (list_ascii_of_string s).
(** [BigInt::from_hex(..).unwrap()] on a string literal *)
Definition hex_lit (s : string) : outcome bigint := r <- bi_from_hex (ascii_codes s) ;; unwrap_res r.

(** src/crypto/secp256k1.rs:15-47; the once-initialised static is modelled by its value *)
Definition secp256k1 : outcome params :=
  a <- from_int 0 ;;
  b <- from_int 7 ;;
  p <- hex_lit "fffffffffffffffffffffffffffffffffffffffffffffffffffffffefffffc2f" ;;
  x <- hex_lit "79be667ef9dcbbac55a06295ce870b07029bfcdb2dce28d959f2815b16f81798" ;;
  y <- hex_lit "483ada7726a3c4655da4fbfc0e1108a8fd17b448a68554199c47d08ffb10d4b8" ;;
  n <- hex_lit "fffffffffffffffffffffffffffffffebaaedce6af48a03bbfd25e8cd0364141" ;;
  Ret (mkParams (mkCurve a b p) (mkPoint x y) n 1).

End Model.

(** Model of src/crypto/sec1.rs, src/crypto/p1363.rs and src/crypto/ecdsa/ecdsa_encoding.rs.

    Texts are lists of bytes.  The boxed errors of the traits are modelled by the error type the callers downcast them
    to (every error these functions return has that type). *)

From Verif Require Import Base M_Codec M_BigInt M_BigText M_Modular M_Curve M_Ecdsa.
Open Scope Z_scope.

Section Model.
Context {cfg : digit_cfg}.

(** [format!("{s:0>len$}")]: '0' = 48 on the left up to [len] characters, nothing is cut *)
Definition pad_hex (len : Z) (s : list Z) : list Z := repeat 48 (Z.to_nat (len - Z.of_nat (length s))) ++ s.

(** src/crypto/sec1.rs:18-24 *)
Inductive point_decoding_error := PDInvalidFormat | PDInvalidX | PDInvalidY | PDYNotFound | PDInvalidPoint.

(** [BigInt::from_hex(..)] with the error replaced by the given one, sec1.rs:65-70, 72-77, 93-98, p1363.rs:51-62 *)
Definition hex_or {E : Type} (e : E) (s : list Z) : outcome (result E bigint) :=
  r <- bi_from_hex s ;; Ret (map_err (fun _ => e) r).

(** src/crypto/sec1.rs:79-84, 126-131: the check of the decoded point *)
Definition checked_point (D : params) (P : point) : outcome (result point_decoding_error point) :=
  v <- validate_point D P ;;
  Ret (if (v : bool) then Ok P else Err PDInvalidPoint).

(** [prefix == b"0c"]; '0' = 48 *)
Definition prefix_is (prefix : list Z) (c : Z) : bool :=
  match prefix with [a; b] => (a =? 48) && (b =? c) | _ => false end.

(** src/crypto/sec1.rs:46-132; '2' = 50, '3' = 51, '4' = 52 *)
Definition decode_point (data : list Z) (D : params) : outcome (result point_decoding_error point) :=
  let C := d_curve D in
  bl <- byte_len (d_order D) ;;
  let hex_len := Z.to_nat (bl * 2) in
  if Nat.ltb (length data) (hex_len + 2) then Ret (Err PDInvalidFormat) else
  prefix <- slice_to data 2 ;;
  if prefix_is prefix 52 then
    if negb (Nat.eqb (length data) (hex_len * 2 + 2)) then Ret (Err PDInvalidFormat) else
    xs <- slice data 2 (hex_len + 2) ;;
    x <-? hex_or PDInvalidX xs ;;
    ys <- slice_from data (hex_len + 2) ;;
    y <-? hex_or PDInvalidY ys ;;
    checked_point D (mkPoint x y)
  else if (negb (prefix_is prefix 50) && negb (prefix_is prefix 51))%bool then Ret (Err PDInvalidFormat)
  else
    xs <- slice_from data 2 ;;
    x <-? hex_or PDInvalidX xs ;;
    t1 <- bi_mul x x ;;
    t2 <- bi_mul t1 x ;;
    t3 <- bi_mul (c_a C) x ;;
    t4 <- bi_add t2 t3 ;;
    t5 <- bi_add t4 (c_b C) ;;
    y_squared <- modulo t5 (c_p C) ;;
    roots <- sqrt y_squared (c_p C) ;;
    match roots with
    | None => Ret (Err PDYNotFound)
    | Some (root1, root2) =>
        y <- (if prefix_is prefix 50
              then e <- is_even root1 ;; Ret (if (e : bool) then root1 else root2)
              else o <- is_odd root1 ;; Ret (if (o : bool) then root1 else root2)) ;;
        checked_point D (mkPoint x y)
    end.

(** src/crypto/sec1.rs:145-166; the assertions' condition is that of [in_range] *)
Definition encode_point (P : point) (D : params) (compressed : bool) : outcome (list Z) :=
  cx <- in_range (px P) (d_order D) ;; assert! cx ;;
  cy <- in_range (py P) (d_order D) ;; assert! cy ;;
  bl <- byte_len (d_order D) ;;
  let hex_len := bl * 2 in
  if compressed then
    e <- is_even (py P) ;;
    x_hex <- bi_to_lower_hex (px P) ;;
    Ret (48 :: (if (e : bool) then 50 else 51) :: pad_hex hex_len x_hex)
  else
    bs <- point_to_bytes D P ;;
    Ret (48 :: 52 :: bytes_to_lower_hex bs).

(** src/crypto/ecdsa/ecdsa_encoding.rs:40-53 *)
Definition from_sec1_hex (hex : list Z) (D : params) : outcome (result point_decoding_error public_key) :=
  P <-? decode_point hex D ;; Ret (Ok (mkPk P D)).
(** src/crypto/ecdsa/ecdsa_encoding.rs:56-58 *)
Definition to_sec1_hex (pk : public_key) (compressed : bool) : outcome (list Z) :=
  encode_point (pk_data pk) (pk_params pk) compressed.

(** src/crypto/p1363.rs:21-24 *)
Inductive signature_decoding_error := SDInvalidFormat | SDInvalidSignature.

(** src/crypto/p1363.rs:38-68 and src/crypto/ecdsa/ecdsa_encoding.rs:24-30 *)
Definition from_p1363_hex (data : list Z) (D : params) : outcome (result signature_decoding_error signature) :=
  bl <- byte_len (d_order D) ;;
  let hex_len := Z.to_nat (bl * 2) in
  if negb (Nat.eqb (length data) (hex_len * 2)) then Ret (Err SDInvalidFormat) else
  rs <- slice_to data hex_len ;;
  ss <- slice_from data hex_len ;;
  r <-? hex_or SDInvalidFormat rs ;;
  s <-? hex_or SDInvalidFormat ss ;;
  o <- signature_new r s D ;;
  Ret (match o with Some sg => Ok sg | None => Err SDInvalidSignature end).

(** src/crypto/p1363.rs:74-80 and src/crypto/ecdsa/ecdsa_encoding.rs:33-35 *)
Definition to_p1363_hex (sg : signature) : outcome (list Z) :=
  bl <- byte_len (d_order (sig_params sg)) ;;
  let hex_len := bl * 2 in
  r_hex <- bi_to_lower_hex (sig_r sg) ;;
  s_hex <- bi_to_lower_hex (sig_s sg) ;;
  Ret (pad_hex hex_len r_hex ++ pad_hex hex_len s_hex).

End Model.

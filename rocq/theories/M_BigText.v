(** Model of the text conversions of [BigInt] and of [BigUint]. *)

From Verif Require Import Base M_Codec M_BigInt.
Open Scope Z_scope.

(** src/bigint/bigint_new.rs:150-155 *)
Inductive parse_int_error : Set := PCodecs (e : codecs_error) | PInvalidInput.

Section Model.
Context {cfg : digit_cfg}.

(** src/bigint/bigint_new.rs:46-50, 77-81: '-' = 45, '+' = 43 *)
Definition split_sign (s : list Z) : sgn * list Z :=
  match s with
  | c :: s' => if c =? 45 then (Negative, s') else if c =? 43 then (Positive, s') else (Positive, s)
  | [] => (Positive, [])
  end.

(** src/bigint/bigint_new.rs:40-61 *)
Definition bi_from_hex (hex : list Z) : outcome (result parse_int_error bigint) :=
  match hex with
  | [] => z <- from_int 0 ;; Ret (Ok z)
  | _ =>
    let '(sign, hex1) := split_sign hex in
    match hex1 with
    | [] => Ret (Err PInvalidInput)
    | _ =>
      match hex_to_bytes hex1 with
      | Ok bs => r <- bi_from_be_bytes bs sign ;; Ret (Ok r)
      | Err e => Ret (Err (PCodecs e))
      end
    end
  end.

(** src/bigint/bigint_new.rs:91-96 *)
Definition radix_char (c : Z) : option Z :=
  if ((48 <=? c) && (c <=? 57))%bool then Some (c - 48)
  else if ((97 <=? c) && (c <=? 122))%bool then Some (c - 87)
  else if ((65 <=? c) && (c <=? 90))%bool then Some (c - 55)
  else None.

(** src/bigint/bigint_new.rs:90-102 *)
Fixpoint radix_loop (s : list Z) (radix : Z) (radix_bigint acc : bigint)
  : outcome (result parse_int_error bigint) :=
  match s with
  | [] => Ret (Ok acc)
  | c :: s' =>
    match radix_char c with
    | None => Ret (Err PInvalidInput)
    | Some n =>
      if radix <? n then Ret (Err PInvalidInput)
      else
        m <- bi_mul acc radix_bigint ;;
        d <- from_uint n ;;
        acc' <- bi_add m d ;;
        radix_loop s' radix radix_bigint acc'
    end
  end.

(** [result.sign = sign] *)
Definition set_sign (x : bigint) (s : sgn) : bigint := mkBig (storage x) (dlen x) s.

(** src/bigint/bigint_new.rs:69-106 *)
Definition bi_from_str_radix (s : list Z) (radix : Z) : outcome (result parse_int_error bigint) :=
  debug_assert! ((2 <=? radix) && (radix <=? 36))%bool ;;
  match s with
  | [] => z <- from_int 0 ;; Ret (Ok z)
  | _ =>
    let '(sign, s1) := split_sign s in
    match s1 with
    | [] => Ret (Err PInvalidInput)
    | _ =>
      radix_bigint <- from_uint radix ;;
      z <- bi_zero ;;
      r <-? radix_loop s1 radix radix_bigint z ;;
      Ret (Ok (set_sign r sign))
    end
  end.

(** src/bigint/bigint_into.rs:18-33 *)
Definition bi_to_lower_hex (x : bigint) : outcome (list Z) :=
  z <- is_zero x ;;
  if z then Ret [48; 48]
  else
    bs <- bi_to_be_bytes x ;;
    let hex := bytes_to_lower_hex bs in
    Ret (match sign x with Positive => hex | Negative => 45 :: hex end).

(** src/bigint/bigint_display.rs:11-16 *)
Definition bi_display (x : bigint) : outcome (list Z) :=
  hex <- bi_to_lower_hex x ;; Ret (48 :: 120 :: hex).

(** [BigUint] is a newtype around [BigInt]: src/bigint/biguint.rs:13-14 *)

(** src/bigint/biguint.rs:16-31 *)
Definition bu_from_uint (n : Z) : outcome bigint := from_u128 n Positive.
(** src/bigint/biguint.rs:34-36 *)
Definition bu_from_be_bytes (bs : list Z) : outcome bigint := bi_from_be_bytes bs Positive.
(** src/bigint/biguint.rs:38-44 *)
Definition bu_from_bigint (n : bigint) : option bigint :=
  if is_sign_negative n then None else Some n.
(** src/bigint/biguint.rs:46-53 *)
Definition bu_from_hex (hex : list Z) : outcome (result parse_int_error bigint) :=
  n <-? bi_from_hex hex ;;
  if is_sign_negative n then Ret (Err PInvalidInput) else Ret (Ok n).
(** src/bigint/biguint.rs:55-57 *)
Definition bu_from_str_radix (s : list Z) (radix : Z) : outcome (result parse_int_error bigint) :=
  bi_from_str_radix s radix.
(** src/bigint/biguint.rs:59-65 *)
Definition bu_to_be_bytes (x : bigint) : outcome (list Z) := bi_to_be_bytes x.
Definition bu_to_lower_hex (x : bigint) : outcome (list Z) := bi_to_lower_hex x.
(** src/bigint/biguint.rs:78-88; "0x" = 48, 120 *)
Definition bu_try_from (s : list Z) : outcome (result parse_int_error bigint) :=
  match s with
  | 48 :: 120 :: s' => bu_from_hex s'
  | _ => bu_from_str_radix s 10
  end.
(** src/bigint/biguint.rs:90-136 *)
Definition bu_add (x y : bigint) : outcome bigint := bi_add x y.
Definition bu_sub (x y : bigint) : outcome bigint := bi_sub x y.
Definition bu_mul (x y : bigint) : outcome bigint := bi_mul x y.
Definition bu_shr (x : bigint) (n : Z) : outcome bigint := bi_shr x n.
(** src/bigint/biguint.rs:138-142 *)
Definition bu_display (x : bigint) : outcome (list Z) := bi_display x.

End Model.

(** Model of src/crypto/ecdsa: ecdsa_key.rs, ecdsa_core.rs, ecdsa_verifying.rs, ecdsa_public_key_recovery.rs.

    The references to the curve parameters inside keys and signatures are modelled by the parameters. *)

From Verif Require Import Base M_BigInt M_Modular M_Curve.
From Verif Require Export M_Parity.
Open Scope Z_scope.

Section Model.
Context {cfg : digit_cfg}.

(** src/crypto/ecdsa/ecdsa_key.rs:11-14 *)
Record private_key := mkSk { sk_data : bigint; sk_params : params }.
(** src/crypto/ecdsa/ecdsa_key.rs:17-20 *)
Record public_key := mkPk { pk_data : point; pk_params : params }.
(** src/crypto/ecdsa/ecdsa_core.rs:15-20 *)
Record signature := mkSig { sig_r : bigint; sig_s : bigint; sig_params : params }.

(** [v > BigInt::zero() && v < n] *)
Definition in_range (v n : bigint) : outcome bool :=
  z <- bi_zero ;;
  c <- bi_gt v z ;;
  if (c : bool) then bi_lt v n else Ret false.

(** src/crypto/ecdsa/ecdsa_key.rs:23-30: new, is_valid *)
Definition private_key_new (data : bigint) (D : params) : outcome (option private_key) :=
  v <- in_range data (d_order D) ;;
  Ret (if (v : bool) then Some (mkSk data D) else None).

(** src/crypto/ecdsa/ecdsa_key.rs:43-51: new, is_valid *)
Definition public_key_new (data : point) (D : params) : outcome (option public_key) :=
  v <- validate_point D data ;;
  Ret (if (v : bool) then Some (mkPk data D) else None).

(** src/crypto/ecdsa/ecdsa_key.rs:32-39 *)
Definition public_key_of (sk : private_key) : outcome public_key :=
  let D := sk_params sk in
  data <- mul_point (d_curve D) (d_base D) (sk_data sk) ;;
  o <- public_key_new data D ;;
  unwrap o.

(** src/crypto/ecdsa/ecdsa_core.rs:23-37: new, is_valid *)
Definition signature_new (r s : bigint) (D : params) : outcome (option signature) :=
  vr <- in_range r (d_order D) ;;
  v <- (if (vr : bool) then in_range s (d_order D) else Ret false) ;;
  Ret (if (v : bool) then Some (mkSig r s D) else None).

(** src/crypto/ecdsa/ecdsa_core.rs:39-45 *)
Definition is_low_s_signature (sg : signature) : outcome bool :=
  debug_check! is_odd (d_order (sig_params sg)) ;;
  h <- bi_shr (d_order (sig_params sg)) 1 ;;
  bi_le (sig_s sg) h.

(** src/crypto/ecdsa/ecdsa_core.rs:198-203, with the discriminants 0, 1, 2, 3 *)
Inductive recovery_id := LowXEvenY | LowXOddY | HighXEvenY | HighXOddY.
(** [recovery_id as u8] *)
Definition recid_u8 (i : recovery_id) : Z :=
  match i with LowXEvenY => 0 | LowXOddY => 1 | HighXEvenY => 2 | HighXOddY => 3 end.
(** src/crypto/ecdsa/ecdsa_core.rs:206-214 *)
Definition recid_from_u8 (n : Z) : option recovery_id :=
  if n =? 0 then Some LowXEvenY else if n =? 1 then Some LowXOddY
  else if n =? 2 then Some HighXEvenY else if n =? 3 then Some HighXOddY else None.

(** src/crypto/ecdsa/ecdsa_core.rs:216-221 *)
Definition recid_y_parity (i : recovery_id) : y_parity :=
  match i with LowXOddY | HighXOddY => Odd | LowXEvenY | HighXEvenY => Even end.

(** [hash.bit_len() <= order.bit_len()], src/crypto/ecdsa/ecdsa_core.rs:61, 112 *)
Definition hash_fits (hash : bigint) (D : params) : outcome bool :=
  hl <- bit_len hash ;; nl <- bit_len (d_order D) ;; Ret (hl <=? nl).

(** src/crypto/ecdsa/ecdsa_core.rs:56-95, PrivateKey::sign *)
Definition sk_sign (sk : private_key) (hash k : bigint) : outcome (option (signature * recovery_id)) :=
  let D := sk_params sk in
  c1 <- hash_fits hash D ;; assert! c1 ;;
  c2 <- in_range k (d_order D) ;; assert! c2 ;;
  kg <- mul_point (d_curve D) (d_base D) k ;;
  r <- modulo (px kg) (d_order D) ;;
  rz <- is_zero r ;;
  if (rz : bool) then Ret None else
  t1 <- bi_mul r (sk_data sk) ;;
  t2 <- bi_add hash t1 ;;
  ko <- invert k (d_order D) ;;
  ki <- unwrap ko ;;
  t3 <- bi_mul t2 ki ;;
  s <- modulo t3 (d_order D) ;;
  sz <- is_zero s ;;
  if (sz : bool) then Ret None else
  hi <- bi_ne (px kg) r ;;
  od <- is_odd (py kg) ;;
  id <- unwrap (recid_from_u8 (Z.lor (Z.shiftl (Z.b2z hi) 1) (Z.b2z od))) ;;
  so <- signature_new r s D ;;
  sg <- unwrap so ;;
  Ret (Some (sg, id)).

(** src/crypto/ecdsa/ecdsa_core.rs:111-135, PublicKey::verify *)
Definition pk_verify (pk : public_key) (hash : bigint) (sg : signature) : outcome bool :=
  let D := pk_params pk in
  c1 <- hash_fits hash D ;; assert! c1 ;;
  wo <- invert (sig_s sg) (d_order D) ;;
  w <- unwrap wo ;;
  u0 <- bi_mul w hash ;;
  u <- modulo u0 (d_order D) ;;
  v0 <- bi_mul w (sig_r sg) ;;
  v <- modulo v0 (d_order D) ;;
  ug <- mul_point (d_curve D) (d_base D) u ;;
  vp <- mul_point (d_curve D) (pk_data pk) v ;;
  q <- add_points (d_curve D) ug vp ;;
  qx <- modulo (px q) (d_order D) ;;
  bi_eq qx (sig_r sg).

(** src/crypto/ecdsa/ecdsa_core.rs:139-150 *)
Definition hash_length_matches (len : Z) (D : params) : outcome bool :=
  debug_check! (bl <- bit_len (d_order D) ;; Ret (bl mod 8 =? 0)) ;;
  bl <- bit_len (d_order D) ;;
  Ret (len * 8 =? bl).

(** src/crypto/ecdsa/ecdsa_core.rs:154-174; every call passes Sign::Positive *)
Definition from_be_bytes_max (bs : list Z) (max_bits_len : Z) : outcome bigint :=
  debug_assert! (0 <? max_bits_len) ;;
  if Z.of_nat (length bs) * 8 <=? max_bits_len then bi_from_be_bytes bs Positive
  else
    let bytes_len := max_bits_len / 8 in
    let rest := max_bits_len mod 8 in
    if rest =? 0 then
      b <- slice_to bs (Z.to_nat bytes_len) ;;
      bi_from_be_bytes b Positive
    else
      b <- slice_to bs (S (Z.to_nat bytes_len)) ;;
      n <- bi_from_be_bytes b Positive ;;
      bi_shr n (8 - rest).

(** src/crypto/ecdsa/ecdsa_verifying.rs:59-62 *)
Record verifying_options := mkVO { vo_low_s : bool; vo_strict : bool }.
(** src/crypto/ecdsa/ecdsa_verifying.rs:66-71 *)
Definition verifying_default := mkVO false true.
(** src/crypto/ecdsa/ecdsa_verifying.rs:76-81 *)
Inductive verifying_error := VEmptyHash | VZeroHash | VStrictHighS | VHashBitLength.

(** src/crypto/ecdsa/ecdsa_verifying.rs:26-57 *)
Definition verify_with_options (hash : list Z) (sg : signature) (pk : public_key) (o : verifying_options)
  : outcome (result verifying_error bool) :=
  match hash with [] => Ret (Err VEmptyHash) | _ =>
  high <- (if vo_low_s o then low <- is_low_s_signature sg ;; Ret (negb low) else Ret false) ;;
  if (high : bool) then Ret (Err VStrictHighS) else
  bad <- (if vo_strict o then m <- hash_length_matches (Z.of_nat (length hash)) (pk_params pk) ;; Ret (negb m) else Ret false) ;;
  if (bad : bool) then Ret (Err VHashBitLength) else
  bl <- bit_len (d_order (pk_params pk)) ;;
  hash_n <- from_be_bytes_max hash bl ;;
  hz <- is_zero hash_n ;;
  if (hz : bool) then Ret (Err VZeroHash) else
  b <- pk_verify pk hash_n sg ;;
  Ret (Ok b)
  end.
(** src/crypto/ecdsa/ecdsa_verifying.rs:18-24 *)
Definition verify (hash : list Z) (sg : signature) (pk : public_key) := verify_with_options hash sg pk verifying_default.

(** src/crypto/ecdsa/ecdsa_public_key_recovery.rs:154-164: options and their default *)
Record recovery_options := mkRO { ro_strict : bool }.
Definition recovery_default := mkRO true.
(** src/crypto/ecdsa/ecdsa_public_key_recovery.rs:169-174 *)
Inductive recovery_error := REmptyHash | RZeroHash | RHashBitLength | RInvalidSignature.

(** src/crypto/ecdsa/ecdsa_public_key_recovery.rs:126-147: one candidate point *)
Definition recover_candidate (sg : signature) (hash_n e_neg r_inverse : bigint) (R : point) : outcome (list public_key) :=
  let D := sig_params sg in
  sr <- mul_point (d_curve D) R (sig_s sg) ;;
  eg <- mul_point (d_curve D) (d_base D) e_neg ;;
  q0 <- add_points (d_curve D) sr eg ;;
  q <- mul_point (d_curve D) q0 r_inverse ;;
  o <- public_key_new q D ;;
  match o with
  | None => Ret []
  | Some pk => b <- pk_verify pk hash_n sg ;; Ret (if (b : bool) then [pk] else [])
  end.
(** the loop over [points] *)
Fixpoint recover_points (sg : signature) (hash_n e_neg r_inverse : bigint) (points : list point) : outcome (list public_key) :=
  match points with
  | [] => Ret []
  | R :: rest =>
      ks <- recover_candidate sg hash_n e_neg r_inverse R ;;
      ks' <- recover_points sg hash_n e_neg r_inverse rest ;;
      Ret (ks ++ ks')
  end.
(** src/crypto/ecdsa/ecdsa_public_key_recovery.rs:103-124: the points with abscissa x to try *)
Definition select_points (id : option recovery_id) (x y1 y2 : bigint) : outcome (list point) :=
  match id with
  | Some LowXEvenY | Some HighXEvenY => e <- is_even y1 ;; Ret [mkPoint x (if (e : bool) then y1 else y2)]
  | Some LowXOddY | Some HighXOddY => o <- is_odd y1 ;; Ret [mkPoint x (if (o : bool) then y1 else y2)]
  | None => Ret [mkPoint x y1; mkPoint x y2]
  end.
(** src/crypto/ecdsa/ecdsa_public_key_recovery.rs:83-148: [for j in j..=j_higher_bound], with [n] iterations left *)
Fixpoint recover_loop (sg : signature) (hash_n e_neg r_inverse : bigint) (id : option recovery_id) (n : nat) (j : Z)
  : outcome (list public_key) :=
  match n with
  | O => Ret []
  | S n' =>
      let D := sig_params sg in let C := d_curve D in
      jb <- from_uint j ;;
      jn <- bi_mul jb (d_order D) ;;
      x <- bi_add (sig_r sg) jn ;;
      big <- bi_ge x (c_p C) ;;
      if (big : bool) then Ret [] else
      t1 <- bi_mul x x ;;
      t2 <- bi_mul t1 x ;;
      t3 <- bi_mul (c_a C) x ;;
      t4 <- bi_add t2 t3 ;;
      t5 <- bi_add t4 (c_b C) ;;
      y_squared <- modulo t5 (c_p C) ;;
      roots <- sqrt y_squared (c_p C) ;;
      match roots with
      | None => recover_loop sg hash_n e_neg r_inverse id n' (j + 1)
      | Some (y1, y2) =>
          points <- select_points id x y1 y2 ;;
          ks <- recover_points sg hash_n e_neg r_inverse points ;;
          ks' <- recover_loop sg hash_n e_neg r_inverse id n' (j + 1) ;;
          Ret (ks ++ ks')
      end
  end.

(** src/crypto/ecdsa/ecdsa_public_key_recovery.rs:62-72 *)
Definition j_bounds (id : option recovery_id) (D : params) : Z * Z :=
  match id with
  | Some LowXEvenY | Some LowXOddY => (0, 0)
  | Some HighXEvenY | Some HighXOddY => (1, d_cofactor D)
  | None => (0, d_cofactor D)
  end.

(** src/crypto/ecdsa/ecdsa_public_key_recovery.rs:34-152 *)
Definition recover_with_options (sg : signature) (hash : list Z) (id : option recovery_id) (o : recovery_options)
  : outcome (result recovery_error (list public_key)) :=
  let D := sig_params sg in
  match hash with [] => Ret (Err REmptyHash) | _ =>
  bad <- (if ro_strict o then m <- hash_length_matches (Z.of_nat (length hash)) D ;; Ret (negb m) else Ret false) ;;
  if (bad : bool) then Ret (Err RHashBitLength) else
  bl <- bit_len (d_order D) ;;
  hash_n <- from_be_bytes_max hash bl ;;
  hz <- is_zero hash_n ;;
  if (hz : bool) then Ret (Err RZeroHash) else
  let '(lo, hi) := j_bounds id D in
  ro <- invert (sig_r sg) (d_order D) ;;
  match ro with
  | None => Ret (Err RInvalidSignature)
  | Some r_inverse =>
      e_neg <- modulo (bi_neg hash_n) (d_order D) ;;
      ks <- recover_loop sg hash_n e_neg r_inverse id (Z.to_nat (hi - lo + 1)) lo ;;
      Ret (Ok ks)
  end
  end.
(** src/crypto/ecdsa/ecdsa_public_key_recovery.rs:21-32 *)
Definition recover (sg : signature) (hash : list Z) (id : option recovery_id) := recover_with_options sg hash id recovery_default.

End Model.

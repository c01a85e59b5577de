(** Model of src/crypto/rfc6979.rs and src/crypto/ecdsa/ecdsa_signing.rs.

    [rng i] is the result of the i-th call of random::generator::get_os_random_bytes(32) (see M_Random.v).
    The unbounded loops get a bound of 2^fuel iterations and report [OutOfFuel] beyond it. *)

From Verif Require Import Base M_BigInt M_Modular M_Curve M_Loop M_Hmac M_Random M_Ecdsa.
Open Scope Z_scope.

Section Model.
Context {cfg : digit_cfg}.

(** src/crypto/rfc6979.rs:16-28 *)
Record rfc6979 := mkRfc { rf_q : bigint; rf_qlen : Z; rf_rlen : Z; rf_extra : bool }.

(** src/crypto/rfc6979.rs:31-41 *)
Definition rfc6979_new (q : bigint) (extra : bool) : outcome rfc6979 :=
  qlen <- bit_len q ;;
  let rlen := (qlen + 7) / 8 * 8 in
  Ret (mkRfc q qlen rlen extra).

(** src/crypto/rfc6979.rs:145-149 *)
Inductive generate_nonce_error := FailedToGenerateRandomBytes (e : get_os_random_bytes_error).

(** src/crypto/rfc6979.rs:113-122 *)
Definition bits2int (self : rfc6979) (bs : list Z) : outcome bigint :=
  n <- bi_from_be_bytes bs Positive ;;
  let blen := Z.of_nat (length bs) * 8 in
  if rf_qlen self <? blen then bi_shr n (blen - rf_qlen self) else Ret n.

(** src/crypto/rfc6979.rs:124-135 *)
Definition int2octets (self : rfc6979) (n : bigint) : outcome (list Z) :=
  c <- bi_lt n (rf_q self) ;; assert! c ;;
  bs <- bi_to_be_bytes n ;;
  let len := Z.of_nat (length bs) in
  if len <? rf_rlen self / 8 then
    let padding_len := Z.to_nat (rf_rlen self / 8 - len) in
    rotate_right (bs ++ repeat 0 padding_len) padding_len
  else Ret bs.

(** src/crypto/rfc6979.rs:137-142 *)
Definition bits2octets (self : rfc6979) (bs : list Z) : outcome (list Z) :=
  z1 <- bits2int self bs ;;
  z2 <- bi_rem z1 (rf_q self) ;;
  int2octets self z2.

Section Hasher.
Context (h : hasher).

(** src/crypto/rfc6979.rs:90-94: [while t.len() * 8 < self.qlen]; each round adds a digest, so that qlen
    rounds are enough for any digest of at least one byte *)
Fixpoint fill_t (fuel : nat) (self : rfc6979) (k v t : list Z) (st : h_state h) : outcome (list Z * list Z * h_state h) :=
  if Z.of_nat (length t) * 8 <? rf_qlen self then
    match fuel with
    | O => OutOfFuel
    | S f =>
        '(v, st) <- hmac h k v st ;;
        fill_t f self k v (t ++ v) st
    end
  else Ret (t, v, st).

(** src/crypto/rfc6979.rs:85-109: one round of the outer loop; the state is (k, v, hasher) *)
Definition nonce_body (self : rfc6979) (s : list Z * list Z * h_state h)
  : outcome (list Z * list Z * h_state h + bigint * h_state h) :=
  let '(k, v, st) := s in
  '(t, v, st) <- fill_t (Z.to_nat (rf_qlen self)) self k v [] st ;;
  nonce <- bits2int self t ;;
  ok <- in_range nonce (rf_q self) ;;
  if (ok : bool) then Ret (inr (nonce, st))
  else
    '(k, st) <- hmac h k (v ++ [0]) st ;;
    '(v, st) <- hmac h k v st ;;
    Ret (inl (k, v, st)).

(** src/crypto/rfc6979.rs:43-110; [random]: what get_os_random_bytes(32) returns if it is called *)
Definition generate_nonce (fuel : nat) (self : rfc6979) (hash : list Z) (sk : private_key)
    (random : outcome (result get_os_random_bytes_error (list Z))) (st : h_state h)
  : outcome (result generate_nonce_error (bigint * h_state h)) :=
  debug_check! bi_eq (rf_q self) (d_order (sk_params sk)) ;;
  x <- int2octets self (sk_data sk) ;;
  h1 <- bits2octets self hash ;;
  let key_and_msg := x ++ h1 in
  rnd <- (if rf_extra self then random else Ret (Ok [])) ;;
  match rnd with
  | Err err => Ret (Err (FailedToGenerateRandomBytes err))
  | Ok extra =>
      let key_and_msg := key_and_msg ++ extra in
      let v := repeat 1 (OUTPUT_BYTE_LENGTH h) in
      let k := repeat 0 (OUTPUT_BYTE_LENGTH h) in
      '(k, st) <- hmac h k ((v ++ [0]) ++ key_and_msg) st ;;
      '(v, st) <- hmac h k v st ;;
      '(k, st) <- hmac h k ((v ++ [1]) ++ key_and_msg) st ;;
      '(v, st) <- hmac h k v st ;;
      r <- run_loop fuel (nonce_body self) (k, v, st) ;;
      Ret (Ok r)
  end.

(** src/crypto/ecdsa/ecdsa_signing.rs:108-113 *)
Record signing_options := mkSO { so_low_s : bool; so_strict : bool; so_extra : bool; so_zero : bool }.
(** src/crypto/ecdsa/ecdsa_signing.rs:115-124 *)
Definition signing_default := mkSO true true true false.
(** src/crypto/ecdsa/ecdsa_signing.rs:127-132 *)
Inductive signing_error := SEmptyHash | SZeroHash | SHashBitLength | SFailedToGenerateNonce (e : generate_nonce_error).

(** src/crypto/ecdsa/ecdsa_signing.rs:82-103: what is returned once the key has signed *)
Definition finish (o : signing_options) (sg : signature) (id : recovery_id) : outcome (signature * recovery_id) :=
  high <- (if so_low_s o then low <- is_low_s_signature sg ;; Ret (negb low) else Ret false) ;;
  if (high : bool) then
    ns <- bi_sub (d_order (sig_params sg)) (sig_s sg) ;;
    so <- signature_new (sig_r sg) ns (sig_params sg) ;;
    sg' <- unwrap so ;;
    id' <- unwrap (recid_from_u8 (Z.lxor (recid_u8 id) 1)) ;;
    Ret (sg', id')
  else Ret (sg, id).

(** src/crypto/ecdsa/ecdsa_signing.rs:64-105: one round of the loop; the state is (calls of the random
    number generator made so far, hasher) *)
Definition sign_body (fuel : nat) (hash : list Z) (sk : private_key) (o : signing_options)
    (rng : nat -> outcome (result get_os_random_bytes_error (list Z))) (rf : rfc6979) (hash_n : bigint)
    (s : nat * h_state h) : outcome (nat * h_state h + result signing_error (signature * recovery_id)) :=
  let '(i, st) := s in
  r <- generate_nonce fuel rf hash sk (rng i) st ;;
  match r with
  | Err err => Ret (inr (Err (SFailedToGenerateNonce err)))
  | Ok (k, st) =>
      sr <- sk_sign sk hash_n k ;;
      match sr with
      | None => Ret (inl (S i, st))
      | Some (sg, id) => f <- finish o sg id ;; Ret (inr (Ok f))
      end
  end.

(** src/crypto/ecdsa/ecdsa_signing.rs:35-106, sign_with_options_and_rfc6979_hmac_hasher *)
Definition sign_with_hasher (fuel : nat) (hash : list Z) (sk : private_key) (o : signing_options)
    (rng : nat -> outcome (result get_os_random_bytes_error (list Z))) (st : h_state h)
  : outcome (result signing_error (signature * recovery_id)) :=
  match hash with [] => Ret (Err SEmptyHash) | _ =>
  bad <- (if so_strict o then m <- hash_length_matches (Z.of_nat (length hash)) (sk_params sk) ;; Ret (negb m) else Ret false) ;;
  if (bad : bool) then Ret (Err SHashBitLength) else
  bl <- bit_len (d_order (sk_params sk)) ;;
  hash_n <- from_be_bytes_max hash bl ;;
  hz <- (if so_zero o then Ret false else is_zero hash_n) ;;
  if (hz : bool) then Ret (Err SZeroHash) else
  rf <- rfc6979_new (d_order (sk_params sk)) (so_extra o) ;;
  run_loop fuel (sign_body fuel hash sk o rng rf hash_n) (O, st)
  end.
End Hasher.

(** src/crypto/ecdsa/ecdsa_signing.rs:28-33 *)
Definition sign_with_options (be : bool) (fuel : nat) (hash : list Z) (sk : private_key) (o : signing_options)
    (rng : nat -> outcome (result get_os_random_bytes_error (list Z))) :=
  sign_with_hasher (hasher_of be Sha256) fuel hash sk o rng (h_new (hasher_of be Sha256)).
(** src/crypto/ecdsa/ecdsa_signing.rs:21-26 *)
Definition sign_default (be : bool) (fuel : nat) (hash : list Z) (sk : private_key) (rng : nat -> outcome (result get_os_random_bytes_error (list Z))) :=
  sign_with_options be fuel hash sk signing_default rng.

End Model.

(** Words for stating what signing does. *)

From Verif Require Import Base M_BigInt M_Curve M_Hmac M_Random M_Ecdsa M_Rfc6979 S_BigInt S_Curve S_EcModel S_Hash S_Ecdsa S_Rfc6979.
Open Scope Z_scope.

(** A source of randomness that, each time, returns 32 bytes or an error (see C54 for the operating system's). *)
Definition rng_ok (rng : nat -> outcome (result get_os_random_bytes_error (list Z))) : Prop :=
  forall i, (exists bs, rng i = Ret (Ok bs) /\ bytes bs /\ length bs = 32%nat) \/ exists e, rng i = Ret (Err e).
(** The additional data of the i-th attempt. *)
Definition extra_data (o : signing_options) (rng : nat -> outcome (result get_os_random_bytes_error (list Z))) (i : nat) (ex : list Z) : Prop :=
  if so_extra o then rng i = Ret (Ok ex) else ex = [].
(** RFC 6979 with HMAC over the named hash function. *)
Definition RFC6979 (nm : hash_name) : Z -> Z -> list Z -> list Z -> Z -> Prop := IS_NONCE (HMAC (HASH nm) (block_len nm)) (out_len nm).
Definition RFC6979_candidate (nm : hash_name) : Z -> Z -> list Z -> list Z -> nat -> Z := NONCE (HMAC (HASH nm) (block_len nm)) (out_len nm).
(** The nonce of the i-th attempt. *)
Definition nonce_of_attempt (nm : hash_name) (n d : Z) (hash : list Z) (o : signing_options)
    (rng : nat -> outcome (result get_os_random_bytes_error (list Z))) (i : nat) (k : Z) : Prop :=
  exists ex, extra_data o rng i ex /\ RFC6979 nm n d hash ex k.
(** The source of randomness is needed and fails in the i-th attempt. *)
Definition no_randomness (o : signing_options) (rng : nat -> outcome (result get_os_random_bytes_error (list Z))) (i : nat) : Prop :=
  so_extra o = true /\ exists e, rng i = Ret (Err e).

(** Parameters whose cofactor is a [u32], on a curve without points of order two (if the cofactor is 1 there are none). *)
Definition recoverable {cfg : digit_cfg} (D : params) : Prop :=
  0 <= d_cofactor D < 2 ^ 32 /\ (d_cofactor D = 1 \/ no_two_torsion (curve_val (d_curve D))).
(** Hasse's bound gives this for every curve with cofactor h: the candidates r, r + n, ..., r + h n cover all abscissas. *)
Definition covers {cfg : digit_cfg} (D : params) : Prop :=
  bi_val (c_p (d_curve D)) <= (d_cofactor D + 1) * order D.
(** The hash length and the order fit strict mode: the order has whole bytes and the hash as many. *)
Definition strict_ok (n : Z) (hash : list Z) : Prop := nbits n mod 8 = 0 /\ 8 * Z.of_nat (length hash) = nbits n.
Definition accepted {cfg : digit_cfg} (hash : list Z) (sg : signature) (pk : public_key) (o : verifying_options) : Prop :=
  verify_with_options hash sg pk o = Ret (Ok true).

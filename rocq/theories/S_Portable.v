(** What signing returns, as a relation between numbers and byte strings: no digit size, no byte order, no fuel. *)

From Verif Require Import Base M_BigInt M_Curve M_Hmac M_Random M_Ecdsa M_Rfc6979 S_BigInt S_Curve S_EcModel S_Hash S_Ecdsa S_Rfc6979 S_Sign.
Open Scope Z_scope.

(** The key d signs the hash over the parameters D with the options o, the random source being rng: the result is an
    error, or the numbers r, s and the recovery id. *)
Definition SIGNING (nm : hash_name) (D : eparams) (d : Z) (hash : list Z) (o : signing_options)
    (rng : nat -> outcome (result get_os_random_bytes_error (list Z))) (v : result signing_error (Z * Z * Z)) : Prop :=
  let n := e_order D in
  let e := hash_int n hash in
  match hash with
  | [] => v = Err SEmptyHash
  | _ =>
    if so_strict o && negb (8 * Z.of_nat (length hash) =? nbits n) then v = Err SHashBitLength
    else if negb (so_zero o) && (e =? 0) then v = Err SZeroHash
    else exists i,
      (* the attempts before the i-th have a nonce that cannot sign *)
      (forall j, (j < i)%nat -> exists k, nonce_of_attempt nm n d hash o rng j k /\ ecdsa_sign D d e k = None) /\
      (* the i-th succeeds or has no randomness *)
      match v with
      | Ok (r, s, id) => exists k, nonce_of_attempt nm n d hash o rng i k /\ signature_of D (so_low_s o) d e k r s id
      | Err err => so_extra o = true /\ exists x, rng i = Ret (Err x) /\ err = SFailedToGenerateNonce (FailedToGenerateRandomBytes x)
      end
  end.
(** The numbers in a result. *)
Definition sign_val {cfg : digit_cfg} (r : result signing_error (signature * recovery_id)) : result signing_error (Z * Z * Z) :=
  match r with Ok (sg, id) => Ok (bi_val (sig_r sg), bi_val (sig_s sg), recid_u8 id) | Err e => Err e end.

(** Two lists of keys, on machines with digits of different sizes, denote the same set of points. *)
Definition same_keys (cfg cfg' : digit_cfg) (ks ks' : list public_key) : Prop :=
  forall P, (exists pk, In pk ks /\ @pt_val cfg (pk_data pk) = P) <-> (exists pk, In pk ks' /\ @pt_val cfg' (pk_data pk) = P).

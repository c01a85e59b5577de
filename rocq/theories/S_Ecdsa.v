(** ECDSA as in SEC 1 version 2.0, sections 4.1.3, 4.1.4 and 4.1.6, over the textbook curves of S_Curve.v, and what
    the program's keys and signatures denote. *)

From Verif Require Import Base M_BigInt M_Curve M_Ecdsa S_BigInt S_Curve S_EcModel.
Open Scope Z_scope.

(** The number of bits of n > 0. *)
Definition nbits (n : Z) : Z := Z.log2 n + 1.

(** Strict mode can be used with the order n: a debug build insists (by panicking) on an order of whole bytes, a release
    build does not look. *)
Definition strict_usable (cfg : digit_cfg) (n : Z) : Prop := nbits n mod 8 = 0 \/ debug_checks cfg = false.
(** Two builds that agree on that. *)
Definition strict_alike (cfg cfg' : digit_cfg) (n : Z) : Prop := strict_usable cfg n <-> strict_usable cfg' n.

(** The leftmost [nbits n] bits of the hash, as an integer (the whole hash if it is not longer than that). *)
Definition hash_int (n : Z) (hash : list Z) : Z :=
  be_val hash / 2 ^ Z.max 0 (8 * Z.of_nat (length hash) - nbits n).

Section Ecdsa.
Variable D : eparams.
Let C := e_curve D.
Let G := e_base D.
Let n := e_order D.

(** 4.1.3 with the private key d, the hash e and the nonce k: (r, s); [None] asks for another nonce. *)
Definition ecdsa_sign (d e k : Z) : option (Z * Z) :=
  match emul C k G with
  | None => None
  | Some (x, y) =>
      let r := x mod n in
      let s := (zinv n k * (e + r * d)) mod n in
      if (r =? 0) || (s =? 0) then None else Some (r, s)
  end.

(** 4.1.4 with the public key Q and the hash e: R = (e/s) G + (r/s) Q is not the identity and its abscissa is r modulo n. *)
Definition ecdsa_valid (Q : epoint) (e r s : Z) : Prop :=
  exists x y, eadd C (emul C ((e * zinv n s) mod n) G) (emul C ((r * zinv n s) mod n) Q) = Some (x, y) /\ x mod n = r.
End Ecdsa.

Section Code.
Context {cfg : digit_cfg}.

Definition order (D : params) : Z := bi_val (d_order D).
(** A private key in [1, n-1], on sound parameters. *)
Definition code_sk (sk : private_key) : Prop :=
  code_params (sk_params sk) /\ wf (sk_data sk) /\ 1 <= bi_val (sk_data sk) < order (sk_params sk).
(** A valid public key, on sound parameters. *)
Definition code_pk (pk : public_key) : Prop :=
  code_params (pk_params pk) /\ wf_point (pk_data pk) /\
  valid_public (params_val (pk_params pk)) (bi_val (px (pk_data pk))) (bi_val (py (pk_data pk))).
(** A signature with r and s in [1, n-1], on sound parameters. *)
Definition code_sig (sg : signature) : Prop :=
  code_params (sig_params sg) /\ wf (sig_r sg) /\ wf (sig_s sg) /\
  1 <= bi_val (sig_r sg) < order (sig_params sg) /\ 1 <= bi_val (sig_s sg) < order (sig_params sg).
(** The public key of a private key: d G. *)
Definition matching (sk : private_key) (pk : public_key) : Prop :=
  pk_params pk = sk_params sk /\ wf_point (pk_data pk) /\
  pt_val (pk_data pk) = emul (curve_val (d_curve (sk_params sk))) (bi_val (sk_data sk)) (pt_val (d_base (sk_params sk))).
(** A program value for the hash as an integer. *)
Definition code_hash (D : params) (h : bigint) : Prop := wf h /\ 0 <= bi_val h /\ bi_val h < 2 ^ nbits (order D).
End Code.

(** The signature (r, s) and recovery id made from the nonce k.  The id has bit 1 set when the abscissa of R was reduced
    modulo n, and bit 0 when the ordinate of R is odd.  Low-s normalisation replaces s by n - s and so R by -R. *)
Definition signature_of (D : eparams) (low : bool) (d e k r s id : Z) : Prop :=
  let n := e_order D in
  exists x y s0, emul (e_curve D) k (e_base D) = Some (x, y) /\ ecdsa_sign D d e k = Some (r, s0) /\
    let flip := low && (n / 2 <? s0) in
    s = (if flip then n - s0 else s0) /\ id = 2 * Z.b2z (n <=? x) + Z.b2z (xorb (Z.odd y) flip).

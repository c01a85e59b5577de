(** When signing a transaction returns. *)

From Verif Require Import Base M_BigInt M_Curve M_Hmac M_Random M_Ecdsa M_Rfc6979 M_Tx M_Eoa M_TxSign.
From Verif Require Import S_BigInt S_Curve S_EcModel S_Hash S_Ecdsa S_Rfc6979 S_Sign S_Tx S_Eoa.
From Verif Require Import P_Hash P_EcdsaProp P_EcdsaProp2 P_SignExact P_Tx P_Eoa P_TxSign.
Open Scope Z_scope.

Section Live.
Context {cfg : digit_cfg} (be : bool) (rng : nat -> outcome (result get_os_random_bytes_error (list Z))) (D : params) (sk : private_key).
Context (ED : secp256k1 = Ret D) (HK : code_sk sk) (EP : sk_params sk = D) (HR : rng_ok rng).
Context (p : payload) (m : list Z) (HP : payload_ok p) (EM : PREIMAGE p = Some m) (o : signing_options).
Local Notation n := (e_order SECP256K1).
Local Notation d := (bi_val (sk_data sk)).
Local Notation attempt := (nonce_of_attempt Sha256 n d (KECCAK256 m) o rng).
Local Notation signs k := (ecdsa_sign SECP256K1 d (hash_int n (KECCAK256 m)) k).

Lemma order_secp : order (sk_params sk) = n /\ params_val (sk_params sk) = SECP256K1 /\ nbits (order (sk_params sk)) < 2 ^ 60.
Proof.
  destruct (secp_fields D ED) as (_ & V & SZ & _). rewrite EP. split; [|split; assumption].
  change (order D) with (e_order (params_val D)). now rewrite V.
Qed.
Lemma strict_secp : strict_ok (order (sk_params sk)) (KECCAK256 m).
Proof. destruct (secp_fields D ED) as (_ & _ & _ & _ & _ & ST & _). rewrite EP. apply ST. apply (keccak_digest be m (preimage_bytes p m HP EM)). Qed.
Lemma payload_ret fuel : (exists r, sign_payload be fuel rng p sk o = Ret r) <-> exists r, sign_with_options be fuel (KECCAK256 m) sk o rng = Ret r.
Proof.
  destruct order_secp as (_ & _ & SZ). pose proof (sign_payload_spec be fuel rng HR sk HK SZ o p m HP EM) as S. cbv zeta in S.
  destruct (sign_with_options be fuel (KECCAK256 m) sk o rng) as [[[sg id]|e]| |].
  - destruct S as (t & E & _). split; eauto.
  - split; eauto.
  - rewrite S. split; intros (r & X); discriminate X.
  - rewrite S. split; intros (r & X); discriminate X.
Qed.
Lemma hash_facts : bytes (KECCAK256 m) /\ KECCAK256 m <> [].
Proof. destruct (keccak_digest be m (preimage_bytes p m HP EM)) as (_ & HB & HL). split; [exact HB|]. intros E. rewrite E in HL. discriminate HL. Qed.

Lemma tx_returns : (so_zero o = false -> hash_int n (KECCAK256 m) <> 0) ->
  (exists fuel r, sign_payload be fuel rng p sk o = Ret r) <->
  exists i, (forall j, (j < i)%nat -> exists k, attempt j k /\ signs k = None) /\ (no_randomness o rng i \/ exists k, attempt i k /\ signs k <> None).
Proof.
  intros ZH. destruct order_secp as (EN & EV & SZ). destruct hash_facts as (HB & HN). rewrite <- EN in ZH.
  pose proof (returns_exactly be Sha256 sk HK SZ (KECCAK256 m) HB HN o (fun _ => strict_secp) ZH rng HR _ (new_obj be Sha256)) as R. cbv zeta in R.
  rewrite EN, EV in R. rewrite <- R.
  split; intros (fuel & X); exists fuel; now apply payload_ret.
Qed.
Lemma tx_returns_deterministic : (so_zero o = false -> hash_int n (KECCAK256 m) <> 0) -> so_extra o = false ->
  (exists fuel r, sign_payload be fuel rng p sk o = Ret r) <-> exists k, RFC6979 Sha256 n d (KECCAK256 m) [] k /\ signs k <> None.
Proof.
  intros ZH EX. destruct order_secp as (EN & EV & SZ). destruct hash_facts as (HB & HN). rewrite <- EN in ZH.
  pose proof (deterministic_exactly be Sha256 sk HK SZ (KECCAK256 m) HB HN o (fun _ => strict_secp) ZH rng HR _ (new_obj be Sha256) EX) as R.
  rewrite EN, EV in R. rewrite <- R.
  split; intros (fuel & X); exists fuel; now apply payload_ret.
Qed.
Lemma tx_no_panic fuel : sign_payload be fuel rng p sk o <> Panic.
Proof.
  destruct order_secp as (EN & EV & SZ). destruct hash_facts as (HB & HN).
  pose proof (sign_payload_spec be fuel rng HR sk HK SZ o p m HP EM) as S. cbv zeta in S.
  destruct (sign_with_options be fuel (KECCAK256 m) sk o rng) as [[[sg id]|e]| |] eqn:ES.
  - destruct S as (t & -> & _). discriminate.
  - rewrite S. discriminate.
  - exfalso. revert ES. apply (sign_no_panic be Sha256 sk HK SZ (KECCAK256 m) HB HN o rng HR _ (new_obj be Sha256)).
    intros _. left. exact (proj1 strict_secp).
  - rewrite S. discriminate.
Qed.
End Live.

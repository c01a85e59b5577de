(** When signing returns, exactly. *)

From Coq Require Import Lia.
From Verif Require Import Base M_BigInt M_Curve M_Hmac M_Random M_Ecdsa M_Rfc6979 S_BigInt S_Curve S_EcModel S_Hash S_Ecdsa S_Rfc6979 S_Sign S_Portable
  P_Hash P_Rfc6979 P_Sign P_EcdsaProp P_EcdsaProp2 P_Portable.
Open Scope Z_scope.

Section Exact.
Context {cfg : digit_cfg} (be : bool) (nm : hash_name) (sk : private_key) (HK : code_sk sk).
Local Notation D := (sk_params sk).
Local Notation n := (order D).
Local Notation d := (bi_val (sk_data sk)).
Context (SZ : nbits n < 2 ^ 60) (hash : list Z) (Hb : bytes hash) (Hne : hash <> []) (o : signing_options).
Context (ST : so_strict o = true -> strict_ok n hash) (ZH : so_zero o = false -> hash_int n hash <> 0).
Context (rng : nat -> outcome (result get_os_random_bytes_error (list Z))) (HR : rng_ok rng).
Context (st : h_state (hasher_of be nm)) (Ho : obj nm be st).
Local Notation out fuel := (sign_with_hasher (hasher_of be nm) fuel hash sk o rng st).
Local Notation attempt := (nonce_of_attempt nm n d hash o rng).
Local Notation signs k := (ecdsa_sign (params_val D) d (hash_int n hash) k).

Lemma usable : so_strict o = true -> strict_usable cfg n.
Proof. intros S. left. apply (ST S). Qed.

Lemma returns_exactly : (exists fuel r, out fuel = Ret r) <->
  exists i, (forall j, (j < i)%nat -> exists k, attempt j k /\ signs k = None) /\ (no_randomness o rng i \/ exists k, attempt i k /\ signs k <> None).
Proof.
  split.
  - intros (fuel & r & EQ). pose proof (signing_sound be nm sk HK SZ hash Hb o rng HR st Ho fuel r EQ) as V. unfold SIGNING in V. cbv zeta in V. change (e_order (params_val D)) with n in V.
    destruct hash as [|b0 bs0] eqn:EH; [congruence|]. rewrite <- EH in *.
    assert (G1 : so_strict o && negb (8 * Z.of_nat (length hash) =? nbits n) = false).
    { destruct (so_strict o); [|reflexivity]. destruct (ST eq_refl) as [_ E]. rewrite E, Z.eqb_refl. reflexivity. }
    assert (G2 : negb (so_zero o) && (hash_int n hash =? 0) = false).
    { destruct (so_zero o); [reflexivity|]. apply Z.eqb_neq, ZH. reflexivity. }
    rewrite G1, G2 in V. destruct V as (i & F & R). exists i. split; [exact F|].
    destruct (sign_val r) as [[[r0 s0] id]|err].
    + right. destruct R as (k & A & (x & y & s1 & _ & S & _)). exists k. split; [exact A|congruence].
    + left. destruct R as (SE & x & RX & _). split; [exact SE|eauto].
  - intros (i & F & L). destruct (sign_terminates be nm sk HK SZ hash Hb Hne o rng HR st Ho usable i) as (fuel & H).
    + intros j Hj. destruct (Nat.eq_dec j i) as [->|NE].
      * destruct L as [L|(k & A & _)]; [now left|right; eauto].
      * destruct (F j ltac:(lia)) as (k & A & _). right. eauto.
    + exact L.
    + exists fuel. apply H. lia.
Qed.

(** A call that does not return with some fuel runs out of it. *)
Lemma loops_exactly : (forall fuel, out fuel = OutOfFuel) <-> ~ exists fuel r, out fuel = Ret r.
Proof.
  split.
  - intros H (fuel & r & E). rewrite H in E. discriminate.
  - intros H fuel. destruct (out fuel) as [r| |] eqn:E; [exfalso; apply H; eauto| |reflexivity].
    exfalso. exact (sign_no_panic be nm sk HK SZ hash Hb Hne o rng HR st Ho usable fuel E).
Qed.

(** Without additional data all attempts are the same. *)
Lemma deterministic_exactly : so_extra o = false ->
  ((exists fuel r, out fuel = Ret r) <-> exists k, RFC6979 nm n d hash [] k /\ signs k <> None).
Proof.
  intros EX. rewrite returns_exactly. split.
  - intros (i & _ & [(E & _)|(k & (ex & X & N) & S)]); [congruence|]. unfold extra_data in X. rewrite EX in X. subst ex. exists k. auto.
  - intros (k & N & S). exists 0%nat. split; [intros j Hj; lia|]. right. exists k. split; [|exact S]. exists []. split; [|exact N]. unfold extra_data. rewrite EX. reflexivity.
Qed.
End Exact.

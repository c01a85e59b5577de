(** Lemmas behind the BigInt property theorems. *)

From Verif Require Import Base M_Codec M_BigInt M_BigText S_BigInt S_Codec S_BigApi P_BigInt1 P_BigInt2 P_BigInt3 P_BigInt4 P_Codec.
From Coq Require Import ZifyBool ZifyNat.
Open Scope Z_scope.
Ltac Zify.zify_post_hook ::= idtac.

Section Proofs.
Context {cfg : digit_cfg}.

Lemma returns_ret o v r : returns (cfg:=cfg) o v -> o = Ret r -> wf r.
Proof. intros (r' & E & W & _) H. congruence. Qed.

Lemma from_radix_wf s radix r : 0 <= radix < 256 -> bi_from_str_radix s radix = Ret (Ok r) -> wf r.
Proof.
  intros H8 H. assert (Hr : radix_passes (cfg:=cfg) radix).
  { unfold bi_from_str_radix, dassert in H. destruct ((2 <=? radix) && (radix <=? 36))%bool eqn:E; [left; lia|].
    unfold radix_passes. destruct (debug_checks cfg); [discriminate|auto]. }
  destruct (accepts_dec radix s) as [[v A]|A].
  - destruct (bi_from_str_radix_ok s radix v Hr A) as (r' & E & W & _). congruence.
  - rewrite (bi_from_str_radix_err s radix Hr A) in H. discriminate.
Qed.

Lemma api_wf x : api_value false x -> wf x.
Proof.
  induction 1.
  - eapply returns_ret; [apply from_u128_spec; eassumption|eassumption].
  - eapply returns_ret; [apply from_i128_spec; eassumption|eassumption].
  - destruct bs as [|b bs]; [discriminate|].
    eapply returns_ret; [apply bi_from_be_bytes_spec; [|eassumption]; discriminate|eassumption].
  - pose proof (bi_from_hex_spec s H) as HH. rewrite H0 in HH. inversion HH; assumption.
  - eapply from_radix_wf; eassumption.
  - apply bi_neg_spec. assumption.
  - eapply returns_ret; [apply (bi_add_spec x y); assumption|assumption].
  - eapply returns_ret; [apply (bi_sub_spec x y); assumption|assumption].
  - eapply returns_ret; [apply (bi_mul_spec x y); assumption|assumption].
  - destruct (Z.eq_dec (bi_val y) 0) as [E|E].
    + unfold bi_div in H1. rewrite div_rem_zero in H1 by assumption. discriminate.
    + eapply returns_ret; [apply (bi_div_spec x y); assumption|assumption].
  - destruct (Z.eq_dec (bi_val y) 0) as [E|E].
    + unfold bi_rem in H1. rewrite div_rem_zero in H1 by assumption. discriminate.
    + eapply returns_ret; [apply (bi_rem_spec x y); assumption|assumption].
  - eapply returns_ret; [apply (bi_shr_spec x n); assumption|assumption].
  - destruct (bi_shl_spec x n IHapi_value H) as (r' & E & _ & W). assert (r' = r) by congruence. subst.
    apply W. destruct H0 as [H0|[H0|H0]]; [discriminate|auto|auto].
Qed.

Lemma canonical_same_digits x y : wf x -> wf y -> Z.abs (bi_val x) = Z.abs (bi_val y) ->
  firstn (dlen x) (storage x) = firstn (dlen y) (storage y).
Proof.
  intros Wx Wy. destruct (wf_inv x Wx) as (a & Ea & Ca & Da & Va & Es & La & Ls).
  destruct (wf_inv y Wy) as (b & Eb & Cb & Db & Vb & Es' & La' & Ls').
  rewrite (abs_val x Wx a Ea), (abs_val y Wy b Eb). intros E.
  rewrite Es, Es', <- La, <- La', !firstn_app_exact. apply canon_inj; assumption.
Qed.

Lemma division_full x y : wf x -> wf y -> bi_val y <> 0 ->
  exists q r, bi_div x y = Ret q /\ bi_rem x y = Ret r /\ wf q /\ wf r /\
    bi_val x = bi_val q * bi_val y + bi_val r /\
    Z.abs (bi_val r) < Z.abs (bi_val y) /\
    (bi_val r = 0 \/ Z.sgn (bi_val r) = Z.sgn (bi_val x)).
Proof.
  intros Wx Wy Hy. destruct (div_rem_spec x y Wx Wy Hy) as (q & r & E & Wq & Wr & Vq & Vr).
  exists q, r. unfold bi_div, bi_rem. rewrite E. cbn [obind]. rewrite Vq, Vr.
  split; [reflexivity|]. split; [reflexivity|]. split; [assumption|]. split; [assumption|].
  split; [rewrite Z.mul_comm; apply Z.quot_rem; assumption|].
  split; [apply Z.rem_bound_abs; assumption|].
  destruct (Z.eq_dec (Z.rem (bi_val x) (bi_val y)) 0) as [E0|E0]; [left; assumption|right].
  apply Z.rem_sign_nz; assumption.
Qed.

Lemma div_panics x y : wf x -> wf y -> (bi_div x y = Panic <-> bi_val y = 0) /\ (bi_rem x y = Panic <-> bi_val y = 0).
Proof.
  intros Wx Wy. split; (split; [intros H; destruct (Z.eq_dec (bi_val y) 0) as [E|E]; [assumption|];
    destruct (division_full x y Wx Wy E) as (q & r & E1 & E2 & _); congruence|]);
  intros E; unfold bi_div, bi_rem; rewrite div_rem_zero by assumption; reflexivity.
Qed.

Lemma shr_full x n : wf x -> 0 <= n ->
  returns (bi_shr x n) (Z.sgn (bi_val x) * (Z.abs (bi_val x) / 2 ^ n)).
Proof.
  intros W Hn. destruct (bi_shr_spec x n W Hn) as (r & E & Wr & V). exists r. split; [assumption|]. split; [assumption|].
  rewrite V. clear E V. destruct (wf_inv x W) as (a & Ea & _ & Da & Va & _). pose proof (val_nonneg a Da).
  assert (P : 0 < 2 ^ n) by (apply Z.pow_pos_nonneg; lia).
  destruct (Z.eq_dec (bi_val x) 0) as [E|E].
  - rewrite E. cbn [Z.abs Z.sgn]. rewrite Z.div_0_l by lia. destruct (sign x); reflexivity.
  - destruct (sign x); cbn [sgz] in *.
    + rewrite Z.sgn_pos by lia. lia.
    + rewrite Z.sgn_neg by lia. lia.
Qed.

Lemma bit_len_full x : wf x -> exists n, bit_len x = Ret n /\ byte_len x = Ret ((n + 7) / 8) /\
  is_bit_len (Z.abs (bi_val x)) n /\ le_bits x = Ret (bits_of (Z.to_nat n) (Z.abs (bi_val x))).
Proof.
  intros W. exists (blen (Z.abs (bi_val x))). rewrite bit_len_spec, byte_len_spec, le_bits_spec by assumption.
  split; [reflexivity|]. split; [reflexivity|]. split; [|reflexivity].
  destruct (blen_spec (Z.abs (bi_val x)) ltac:(lia)) as (H1 & H2 & H3). split; [assumption|]. split; [assumption|].
  destruct (Z.eq_dec (Z.abs (bi_val x)) 0) as [E|E]; [left; split; [assumption|rewrite E; reflexivity]|right; apply H3; lia].
Qed.

Lemma is_bit_len_unique v n m : 0 <= v -> is_bit_len v n -> is_bit_len v m -> n = m.
Proof.
  intros Hv (H1 & H2 & H3) (H4 & H5 & H6).
  destruct (Z.lt_ge_cases (n - 1) 0) as [L|L].
  { assert (n = 0) by lia. subst n. change (2 ^ 0) with 1 in H2. destruct H6 as [[_ H6]|H6]; [lia|].
    destruct (Z.lt_ge_cases (m - 1) 0) as [L'|L']; [lia|]. assert (0 < 2 ^ (m - 1)) by (apply Z.pow_pos_nonneg; lia). lia. }
  assert (0 < 2 ^ (n - 1)) by (apply Z.pow_pos_nonneg; lia).
  destruct (Z.lt_ge_cases (m - 1) 0) as [L'|L'].
  { assert (m = 0) by lia. subst m. change (2 ^ 0) with 1 in H5. lia. }
  assert (0 < 2 ^ (m - 1)) by (apply Z.pow_pos_nonneg; lia).
  assert (n - 1 < m) by (apply (Z.pow_lt_mono_r_iff 2); lia).
  assert (m - 1 < n) by (apply (Z.pow_lt_mono_r_iff 2); lia). lia.
Qed.

Lemma bytes_roundtrip x : wf x -> bi_val x <> 0 ->
  exists bs r, bi_to_be_bytes x = Ret bs /\ bi_from_be_bytes bs (sign x) = Ret r /\ wf r /\ bi_val r = bi_val x.
Proof.
  intros W Hx. destruct (bi_to_be_bytes_spec x W) as (l & E & (Hb & Hv & Hh)).
  destruct (bi_from_be_bytes_spec (cfg:=cfg) l (sign x)) as (r & E2 & Wr & Vr); [|assumption|].
  - intros ->. cbn in Hv. lia.
  - exists l, r. repeat (split; [assumption|]). rewrite Vr, Hv.
    destruct (wf_inv x W) as (a & Ea & _ & Da & Va & _). rewrite (abs_val x W a Ea). symmetry. exact Va.
Qed.

Lemma from_hex_full s : bytes s ->
  (forall v, denotes 16 s v -> Nat.even (digit_count s) = true ->
     exists r, bi_from_hex s = Ret (Ok r) /\ wf r /\ bi_val r = v) /\
  ((forall v, denotes 16 s v -> Nat.even (digit_count s) = false) -> exists e, bi_from_hex s = Ret (Err e)).
Proof.
  intros Hb. pose proof (bi_from_hex_spec s Hb) as H. split.
  - intros v Hd He. inversion H as [w r Hw _ W V E|e Hn E].
    + exists r. split; [reflexivity|]. split; [assumption|]. rewrite V. eapply denotes_fun; eassumption.
    + rewrite (Hn v Hd) in He. discriminate.
  - intros Hn. inversion H as [w r Hw He W V E|e _ E]; [|eauto]. rewrite (Hn _ Hw) in He. discriminate.
Qed.

Lemma radix_partial s radix : 2 <= radix <= 36 -> no_radix_digit radix s ->
  (forall v, denotes radix s v -> exists r, bi_from_str_radix s radix = Ret (Ok r) /\ wf r /\ bi_val r = v) /\
  ((forall v, ~ denotes radix s v) -> exists e, bi_from_str_radix s radix = Ret (Err e)).
Proof.
  intros Hr Hn. split.
  - intros v Hd. apply bi_from_str_radix_ok; [left; assumption|]. apply denotes_accepts. assumption.
  - intros H. eexists. apply bi_from_str_radix_err; [left; assumption|]. intros v A. apply (H v). apply accepts_denotes; assumption.
Qed.

End Proofs.

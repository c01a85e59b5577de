(** Bit length, bit iterator, byte output, shifts, trailing zeros. *)

From Verif Require Import Base M_BigInt S_BigInt P_BigInt1 P_BigInt2 P_BigInt3.
From Coq Require Import ZifyBool ZifyNat.
Open Scope Z_scope.
Ltac Zify.zify_post_hook ::= idtac.

Section Proofs.
Context {cfg : digit_cfg}.
Local Notation BITS := (digit_bits cfg).
Local Notation B := (digit_base cfg).
Local Notation val := (@digits_val cfg).
Local Notation pw := (@pw cfg).

Lemma pw_pow2 n : pw n = 2 ^ (Z.of_nat n * BITS).
Proof.
  unfold P_BigInt1.pw. rewrite base_pow, <- Z.pow_mul_r; [f_equal; lia|pose proof (bits_pos cfg); lia|lia].
Qed.

(** number of binary digits *)
Definition blen (v : Z) : Z := if v =? 0 then 0 else Z.log2 v + 1.

Lemma blen_spec v : 0 <= v -> 0 <= blen v /\ v < 2 ^ blen v /\ (0 < v -> 2 ^ (blen v - 1) <= v).
Proof.
  intros H. unfold blen. destruct (Z.eqb_spec v 0) as [E|E].
  - subst. cbn. lia.
  - pose proof (Z.log2_spec v ltac:(lia)) as [L1 L2]. pose proof (Z.log2_nonneg v).
    replace (Z.log2 v + 1 - 1) with (Z.log2 v) by lia. rewrite <- Z.add_1_r in L2. lia.
Qed.

Lemma log2_msd l x : Forall (@digit cfg) l -> 0 < x < B ->
  Z.log2 (val (l ++ [x])) = Z.of_nat (length l) * BITS + Z.log2 x.
Proof.
  intros Hl Hx. rewrite val_app, val_single.
  pose proof (val_bound l Hl) as Bd. rewrite pw_pow2 in *.
  pose proof (Z.log2_spec x ltac:(lia)) as [L1 L2]. pose proof (Z.log2_nonneg x).
  set (k := Z.of_nat (length l) * BITS) in *. pose proof (bits_pos cfg).
  assert (0 <= k) by (unfold k; lia).
  rewrite Z.pow_succ_r in L2 by lia.
  assert (0 < 2 ^ k) by (apply Z.pow_pos_nonneg; lia).
  apply Z.log2_unique; [lia|]. rewrite Z.pow_succ_r, !Z.pow_add_r by lia. split.
  - assert (2 ^ k * 2 ^ Z.log2 x <= 2 ^ k * x) by (apply Z.mul_le_mono_nonneg_l; lia). lia.
  - assert (2 ^ k * (x + 1) <= 2 ^ k * (2 * 2 ^ Z.log2 x)) by (apply Z.mul_le_mono_nonneg_l; lia). lia.
Qed.

Lemma canon_split ds : canon ds -> Forall (@digit cfg) ds -> val ds <> 0 ->
  exists l x, ds = l ++ [x] /\ Forall (@digit cfg) l /\ 0 < x < B.
Proof.
  intros C D V. destruct (exists_last (canon_nonempty _ C)) as (l & x & ->).
  apply Forall_app in D as [D1 D2]. inversion D2 as [|? ? Dx _]; subst. unfold digit in Dx.
  exists l, x. repeat split; auto; try lia.
  destruct C as [_ [C|C]].
  - rewrite app_length in C. cbn in C. destruct l; [|cbn in C; lia]. cbn [app] in V. rewrite val_single in V. lia.
  - rewrite last_app_single in C. lia.
Qed.

Lemma bit_len_digits_spec a : canon a -> Forall digit a -> bit_len_digits a = Ret (blen (val a)).
Proof.
  intros C D. unfold bit_len_digits. rewrite valid_slice by assumption. cbn [oassert dassert].
  rewrite is_zero_digits_spec by assumption. cbn [obind].
  unfold blen. destruct (Z.eqb_spec (val a) 0) as [E|E]; [reflexivity|].
  destruct (canon_split a C D E) as (l & x & -> & Dl & Hx).
  rewrite log2_msd by assumption. rewrite app_length. cbn [length].
  replace (length l + 1 - 1)%nat with (length l) by lia.
  unfold index. rewrite nth_error_app2, Nat.sub_diag by lia. cbn [nth_error obind]. f_equal.
  unfold leading_zeros. destruct (Z.eqb_spec x 0); [lia|]. rewrite Nat2Z.inj_add. lia.
Qed.

Lemma abs_val x : wf (cfg:=cfg) x -> forall a, as_digits x = Ret a -> Z.abs (bi_val x) = val a.
Proof.
  intros W a Ha. destruct (wf_inv x W) as (a' & Ea & Ca & Da & Va & _). rewrite Ea in Ha. injection Ha as ->.
  rewrite Va. apply digits_nonneg_sgz. assumption.
Qed.

Lemma bit_len_spec x : wf x -> bit_len x = Ret (blen (Z.abs (bi_val x))).
Proof.
  intros W. destruct (wf_inv x W) as (a & Ea & Ca & Da & Va & _).
  rewrite (abs_val x W a Ea). unfold bit_len. rewrite Ea. cbn [obind]. apply bit_len_digits_spec; assumption.
Qed.

Lemma byte_len_spec x : wf x -> byte_len x = Ret ((blen (Z.abs (bi_val x)) + 7) / 8).
Proof.
  intros W. unfold byte_len. rewrite is_zero_spec, bit_len_spec by assumption. cbn [obind].
  destruct (Z.eqb_spec (bi_val x) 0) as [->|E]; reflexivity.
Qed.

(** bits *)

Lemma bits_of_S n v : 0 <= v -> bits_of (S n) v = Z.odd v :: bits_of n (v / 2).
Proof.
  intros Hv. unfold bits_of. cbn [seq map]. f_equal.
  rewrite <- seq_shift, map_map. apply map_ext. intros i.
  rewrite <- Z.div2_div, Z.div2_spec, Z.shiftr_spec by lia. f_equal. lia.
Qed.

Lemma push_bits_spec n d : 0 <= d -> push_bits n d = bits_of n d.
Proof.
  revert d. induction n as [|n IH]; intros d Hd; [reflexivity|].
  cbn [push_bits]. rewrite bits_of_S by assumption. f_equal. apply IH. apply Z.div_pos; lia.
Qed.

Lemma bits_of_app n m v w : 0 <= v < 2 ^ Z.of_nat n ->
  bits_of n v ++ bits_of m w = bits_of (n + m) (v + 2 ^ Z.of_nat n * w).
Proof.
  intros Hv. unfold bits_of. rewrite seq_app, map_app. f_equal.
  - apply map_ext_in. intros i Hi. apply in_seq in Hi.
    rewrite Z.mul_comm. rewrite <- (Z.mod_pow2_bits_low (v + w * _) (Z.of_nat n)) by lia.
    rewrite Z.mod_add, Z.mod_small by lia. reflexivity.
  - rewrite Nat.add_0_l.
    replace (seq n m) with (map (Nat.add n) (seq 0 m)).
    2:{ clear. rewrite <- (Nat.add_0_r n) at 2. generalize 0%nat. induction m; intros s; [reflexivity|]. cbn [seq map]. f_equal. rewrite IHm. f_equal. lia. }
    rewrite map_map. apply map_ext. intros i.
    replace (Z.of_nat (n + i)) with (Z.of_nat i + Z.of_nat n) by lia.
    rewrite <- Z.div_pow2_bits by lia. rewrite Z.mul_comm, Z.div_add, Z.div_small by lia. reflexivity.
Qed.

Lemma flat_bits l : Forall (@digit cfg) l ->
  flat_map (push_bits (Z.to_nat BITS)) l = bits_of (length l * Z.to_nat BITS) (val l).
Proof.
  pose proof (bits_pos cfg) as Hb.
  induction 1 as [|x l Hx Hl IH]; [reflexivity|].
  cbn [flat_map length digits_val]. rewrite IH, push_bits_spec by apply Hx.
  unfold digit in Hx. rewrite base_pow in *. rewrite bits_of_app; rewrite Z2Nat.id by lia; [f_equal; lia|assumption].
Qed.

Lemma le_bits_spec x : wf x ->
  le_bits x = Ret (bits_of (Z.to_nat (blen (Z.abs (bi_val x)))) (Z.abs (bi_val x))).
Proof.
  intros W. unfold le_bits. rewrite is_zero_spec, bit_len_spec by assumption. cbn [obind].
  destruct (wf_inv x W) as (a & Ea & Ca & Da & Va & _). pose proof (abs_val x W a Ea) as Av.
  destruct (Z.eqb_spec (bi_val x) 0) as [E|E]; [rewrite E; reflexivity|].
  rewrite Ea. cbn [obind]. rewrite Av.
  assert (Nz : val a <> 0) by lia.
  destruct (canon_split a Ca Da Nz) as (l & d & -> & Dl & Hx).
  destruct (l ++ [d]) eqn:El; [destruct l; discriminate|]. rewrite <- El in *. clear El z l0.
  rewrite last_app_single, removelast_last.
  pose proof (bits_pos cfg) as Hb. pose proof (Z.log2_nonneg d).
  assert (Z.log2 d < BITS) by (apply Z.log2_lt_pow2; [lia|]; rewrite <- base_pow; lia).
  rewrite flat_bits, push_bits_spec by (auto; lia).
  unfold leading_zeros. destruct (Z.eqb_spec d 0); [lia|].
  assert (EL : blen (val (l ++ [d])) = Z.of_nat (length l) * BITS + Z.log2 d + 1).
  { unfold blen. destruct (Z.eqb_spec (val (l ++ [d])) 0); [lia|]. rewrite log2_msd by assumption. reflexivity. }
  rewrite bits_of_app.
  2:{ pose proof (val_bound l Dl) as Bd. rewrite pw_pow2 in Bd. rewrite Nat2Z.inj_mul, Z2Nat.id by lia. exact Bd. }
  assert (En : (length l * Z.to_nat BITS + Z.to_nat (BITS - (BITS - 1 - Z.log2 d)))%nat = Z.to_nat (blen (val (l ++ [d])))).
  { rewrite EL. lia. }
  rewrite En. unfold bits_of at 1. rewrite map_length, seq_length.
  rewrite Z2Nat.id by lia. rewrite Z.eqb_refl. cbn [oassert dassert]. do 2 f_equal.
  rewrite val_app, val_single, pw_pow2, Nat2Z.inj_mul, Z2Nat.id by lia. reflexivity.
Qed.

(** minimal big-endian bytes *)

Lemma minimal_be_unique l1 l2 v : minimal_be l1 v -> minimal_be l2 v -> l1 = l2.
Proof.
  assert (G : forall l v, minimal_be l v -> l <> [] -> 256 ^ (Z.of_nat (length l) - 1) <= v < 256 ^ Z.of_nat (length l)).
  { intros l w (H1 & H2 & H3) Hne. destruct H3 as [->|H3]; [congruence|].
    destruct l as [|x l]; [congruence|]. cbn [hd] in H3. inversion H1 as [|? ? Hx Hl]; subst. unfold byte in Hx.
    pose proof (be_val_bound (x :: l) H1). pose proof (be_val_bound l Hl). rewrite be_val_cons in *. cbn [length] in *.
    replace (Z.of_nat (S (length l)) - 1) with (Z.of_nat (length l)) by lia.
    set (p := 256 ^ Z.of_nat (length l)) in *.
    assert (1 * p <= x * p) by (apply Z.mul_le_mono_nonneg_r; lia). lia. }
  intros H1 H2. destruct l1 as [|x1 t1]; destruct l2 as [|x2 t2]; [reflexivity| | |].
  - pose proof (G _ _ H2 ltac:(discriminate)). destruct H1 as (_ & E & _). cbn in E. subst v.
    assert (0 < 256 ^ (Z.of_nat (length (x2 :: t2)) - 1)) by (apply Z.pow_pos_nonneg; cbn [length]; lia). lia.
  - pose proof (G _ _ H1 ltac:(discriminate)). destruct H2 as (_ & E & _). cbn in E. subst v.
    assert (0 < 256 ^ (Z.of_nat (length (x1 :: t1)) - 1)) by (apply Z.pow_pos_nonneg; cbn [length]; lia). lia.
  - pose proof (G _ _ H1 ltac:(discriminate)) as G1. pose proof (G _ _ H2 ltac:(discriminate)) as G2.
    destruct H1 as (B1 & E1 & _). destruct H2 as (B2 & E2 & _).
    apply be_val_inj; auto; [|congruence].
    destruct (Nat.lt_trichotomy (length (x1 :: t1)) (length (x2 :: t2))) as [L|[L|L]]; [exfalso|assumption|exfalso].
    + assert (256 ^ Z.of_nat (length (x1 :: t1)) <= 256 ^ (Z.of_nat (length (x2 :: t2)) - 1)) by (apply Z.pow_le_mono_r; lia). lia.
    + assert (256 ^ Z.of_nat (length (x2 :: t2)) <= 256 ^ (Z.of_nat (length (x1 :: t1)) - 1)) by (apply Z.pow_le_mono_r; lia). lia.
Qed.

Lemma to_be_head n v : 0 <= v < 256 ^ Z.of_nat (S n) -> exists t, to_be (S n) v = v / 256 ^ Z.of_nat n :: t.
Proof.
  intros Hv. pose proof (to_be_length (S n) v) as L. pose proof (to_be_bytes_range (S n) v) as Hb.
  pose proof (be_val_to_be (S n) v Hv) as E. destruct (to_be (S n) v) as [|x t]; [discriminate|].
  exists t. f_equal. cbn [length] in L. assert (Lt : length t = n) by lia. rewrite be_val_cons, Lt in E.
  inversion Hb as [|? ? Hx Ht]; subst. pose proof (be_val_bound t Ht) as Bd.
  apply (Z.div_unique_pos _ _ _ (be_val t)); lia.
Qed.

Lemma flat_to_be l : Forall (@digit cfg) l ->
  bytes (flat_map (to_be (digit_bytes cfg)) l) /\
  length (flat_map (to_be (digit_bytes cfg)) l) = (length l * digit_bytes cfg)%nat /\
  be_val (flat_map (to_be (digit_bytes cfg)) l) = val (rev l).
Proof.
  induction 1 as [|x l Hx Hl (I1 & I2 & I3)]; [repeat split; constructor|].
  cbn [flat_map length rev]. repeat split.
  - apply Forall_app_intro; [apply to_be_bytes_range|assumption].
  - rewrite app_length, to_be_length, I2. lia.
  - rewrite be_val_app, I2, I3, val_app, val_single, rev_length, be_val_to_be.
    2:{ rewrite <- base_bytes. apply Hx. }
    unfold P_BigInt1.pw. rewrite base_bytes, <- Z.pow_mul_r by lia.
    replace (Z.of_nat (digit_bytes cfg) * Z.of_nat (length l)) with (Z.of_nat (length l * digit_bytes cfg)) by lia. ring.
Qed.

Lemma bi_to_be_bytes_spec x : wf x ->
  exists l, bi_to_be_bytes x = Ret l /\ minimal_be l (Z.abs (bi_val x)).
Proof.
  intros W. destruct (wf_inv x W) as (a & Ea & Ca & Da & Va & _). rewrite (abs_val x W a Ea).
  unfold bi_to_be_bytes. rewrite Ea. cbn [obind]. eexists. split; [reflexivity|].
  pose proof (bits_bytes cfg) as BB. pose proof (bytes_pos cfg) as BP.
  destruct (Z.eq_dec (val a) 0) as [E|E].
  - apply (canon_zero_iff a Ca Da) in E as ->. cbn [rev app be_digits_to_be_bytes flat_map].
    unfold leading_zeros. cbn [Z.eqb]. rewrite BB.
    replace (8 * Z.of_nat (digit_bytes cfg) / 8) with (Z.of_nat (digit_bytes cfg)) by (rewrite Z.mul_comm, Z.div_mul; lia).
    rewrite Nat2Z.id, skipn_all2 by (rewrite to_be_length; lia). cbn [app].
    rewrite val_single. repeat split; [constructor|left; reflexivity].
  - destruct (canon_split a Ca Da E) as (l & d & -> & Dl & Hd).
    rewrite rev_app_distr. cbn [rev app be_digits_to_be_bytes].
    unfold leading_zeros. destruct (Z.eqb_spec d 0); [lia|].
    pose proof (Z.log2_spec d ltac:(lia)) as [L1 L2]. pose proof (Z.log2_nonneg d).
    assert (Hlog : Z.log2 d < BITS) by (apply Z.log2_lt_pow2; [lia|]; rewrite <- base_pow; lia).
    set (k := Z.to_nat ((BITS - 1 - Z.log2 d) / 8)).
    (* m bytes remain *)
    set (m := Z.to_nat (Z.log2 d / 8)).
    assert (Hm8 : Z.of_nat m = Z.log2 d / 8) by (unfold m; rewrite Z2Nat.id; [reflexivity|apply Z.div_pos; lia]).
    assert (Hk : (digit_bytes cfg = k + S m)%nat).
    { unfold k. assert (Z.of_nat (digit_bytes cfg) = (BITS - 1 - Z.log2 d) / 8 + 1 + Z.of_nat m); [|lia].
      rewrite Hm8. pose proof (Z.div_mod (Z.log2 d) 8 ltac:(lia)). pose proof (Z.mod_pos_bound (Z.log2 d) 8 ltac:(lia)).
      pose proof (Z.div_mod (BITS - 1 - Z.log2 d) 8 ltac:(lia)). pose proof (Z.mod_pos_bound (BITS - 1 - Z.log2 d) 8 ltac:(lia)). lia. }
    pose proof (Z.div_mod (Z.log2 d) 8 ltac:(lia)) as DM. pose proof (Z.mod_pos_bound (Z.log2 d) 8 ltac:(lia)) as MB.
    assert (Hd2 : 256 ^ Z.of_nat m <= d < 256 ^ Z.of_nat (S m)).
    { change 256 with (2 ^ 8). rewrite <- !Z.pow_mul_r by lia. split.
      - apply Z.le_trans with (2 ^ Z.log2 d); [|lia]. apply Z.pow_le_mono_r; lia.
      - apply Z.lt_le_trans with (2 ^ Z.succ (Z.log2 d)); [lia|]. apply Z.pow_le_mono_r; lia. }
    rewrite Hk at 1. rewrite to_be_pad by lia.
    rewrite skipn_app, repeat_length, Nat.sub_diag, skipn_all2 by (rewrite repeat_length; lia).
    cbn [app skipn].
    destruct (flat_to_be (rev l) (Forall_rev Dl)) as (F1 & F2 & F3). rewrite rev_involutive, rev_length in *.
    repeat split.
    + apply Forall_app_intro; [apply to_be_bytes_range|assumption].
    + rewrite be_val_app, F2, F3, be_val_to_be, val_app, val_single by lia.
      unfold P_BigInt1.pw. rewrite base_bytes, <- Z.pow_mul_r by lia.
      replace (Z.of_nat (digit_bytes cfg) * Z.of_nat (length l)) with (Z.of_nat (length l * digit_bytes cfg)) by lia. ring.
    + right. destruct (to_be_head m d ltac:(lia)) as [t ->]. cbn [app hd].
      assert (0 < 256 ^ Z.of_nat m) by (apply Z.pow_pos_nonneg; lia).
      assert (0 < d / 256 ^ Z.of_nat m); [|lia]. apply Z.div_str_pos. lia.
Qed.

(** right shift *)
Lemma shr_loop_spec l n t :
  0 < n < BITS -> Forall (@digit cfg) l -> 0 <= t < 2 ^ n ->
  exists ds, shr_loop l n (BITS - n) (2 ^ (BITS - n) * t) = Ret ds /\ length ds = length l /\ Forall digit ds /\
    val (rev ds) = (t * pw (length l) + val (rev l)) / 2 ^ n.
Proof.
  intros Hn. pose proof (split_base (cfg:=cfg) (BITS - n) ltac:(lia)) as (P1 & P2 & E).
  replace (BITS - (BITS - n)) with n in * by lia.
  intros Hl. revert t. induction Hl as [|x l Hx Hl IH]; intros t Ht; cbn [shr_loop].
  - exists []. repeat split; auto. cbn [length rev digits_val]. rewrite pw_0, Z.div_small by lia. reflexivity.
  - rewrite shl_digit_ret, shr_digit_ret by lia. cbn [obind]. rewrite shl_mod by lia.
    replace (BITS - (BITS - n)) with n by lia.
    destruct (IH (x mod 2 ^ n)) as (ds & -> & L & D & V); [apply Z.mod_pos_bound; lia|]. cbn [obind].
    eexists. split; [reflexivity|]. rewrite Z.lor_comm.
    assert (Hy : 0 <= x / 2 ^ n < 2 ^ (BITS - n)).
    { unfold digit in Hx. split; [apply Z.div_pos; lia|]. apply Z.div_lt_upper_bound; lia. }
    rewrite (lor_add_disjoint _ _ (BITS - n)); [|lia|assumption|rewrite Z.mul_comm; apply Z.mod_mul; lia].
    cbn [length rev]. split; [lia|]. split.
    + constructor; [|assumption]. unfold digit. rewrite <- E.
      assert (0 <= 2 ^ (BITS - n) * t) by (apply Z.mul_nonneg_nonneg; lia).
      assert (2 ^ (BITS - n) * (t + 1) <= 2 ^ (BITS - n) * 2 ^ n) by (apply Z.mul_le_mono_nonneg_l; lia). lia.
    + rewrite !val_app, !val_single, !rev_length, V, L, pw_S.
      rewrite <- E. rewrite (Z.div_mod x (2 ^ n)) at 3 by lia.
      replace (t * (2 ^ (BITS - n) * 2 ^ n * pw (length l)) + (val (rev l) + pw (length l) * (2 ^ n * (x / 2 ^ n) + x mod 2 ^ n)))
        with ((pw (length l) * (2 ^ (BITS - n) * t + x / 2 ^ n)) * 2 ^ n + (x mod 2 ^ n * pw (length l) + val (rev l))) by ring.
      rewrite Z.div_add_l by lia. ring.
Qed.

Lemma val_div_pw l k : Forall (@digit cfg) l -> (k <= length l)%nat -> val (skipn k l) = val l / pw k.
Proof.
  intros D Hk. rewrite (val_firstn_skipn k l). rewrite firstn_length_le by assumption.
  pose proof (val_bound _ (Forall_firstn _ k l D)) as Bd. rewrite firstn_length_le in Bd by assumption.
  rewrite Z.mul_comm, Z.div_add, Z.div_small by lia. reflexivity.
Qed.

Lemma blen_le_small v n : 0 <= v -> blen v <= n -> v / 2 ^ n = 0.
Proof.
  intros Hv Hn. destruct (blen_spec v Hv) as (H1 & H2 & _). apply Z.div_small. split; [lia|].
  apply Z.lt_le_trans with (2 ^ blen v); [lia|]. apply Z.pow_le_mono_r; lia.
Qed.

Lemma shift_right_digits_spec a n :
  canon a -> Forall (@digit cfg) a -> 0 <= n ->
  exists d l, shift_right_digits a (length a) n = Ret (d, l) /\ buf (cfg:=cfg) d l (length a) (val a / 2 ^ n).
Proof.
  intros C D Hn. unfold shift_right_digits. rewrite bit_len_digits_spec by assumption. cbn [obind].
  pose proof (canon_len _ C) as L. pose proof (val_nonneg _ D) as Vn.
  destruct (Z.leb_spec (blen (val a)) n) as [Hb|Hb].
  - do 2 eexists. split; [reflexivity|]. rewrite blen_le_small by assumption.
    replace (repeat 0 (length a)) with ([0] ++ repeat 0 (length a - length [0])).
    + apply (buf_prefix [0]); [cbn [length]; lia|apply canon_single|apply Forall_cons; [apply digit_0|apply Forall_nil]|apply val_single].
    + cbn [length]. destruct (length a); [lia|]. cbn [app repeat]. rewrite Nat.sub_succ, Nat.sub_0_r. reflexivity.
  - pose proof (bits_pos cfg) as BP.
    assert (Nz : val a <> 0) by (intros E; rewrite E in Hb; cbn in Hb; lia).
    destruct (canon_split a C D Nz) as (lo & x & Ea & Dlo & Hx).
    pose proof (Z.div_mod n BITS ltac:(lia)) as DM. pose proof (Z.mod_pos_bound n BITS ltac:(lia)) as MB.
    assert (Hq0 : 0 <= n / BITS) by (apply Z.div_pos; lia).
    set (sd := Z.to_nat (n / BITS)) in *. assert (Hsd : Z.of_nat sd = n / BITS) by (unfold sd; lia). clearbody sd.
    assert (Hsdlt : (sd < length a)%nat).
    { assert (blen (val a) <= Z.of_nat (length a) * BITS).
      { unfold blen. destruct (Z.eqb_spec (val a) 0); [lia|]. rewrite Ea at 1. rewrite log2_msd by assumption.
        rewrite Ea, app_length. cbn [length].
        assert (Z.log2 x < BITS) by (apply Z.log2_lt_pow2; [lia|]; rewrite <- base_pow; lia). nia. }
      assert (HH : Z.of_nat sd * BITS < Z.of_nat (length a) * BITS) by lia.
      apply Z.mul_lt_mono_pos_r in HH; lia. }
    assert (H1 : (if Nat.ltb 0 sd then
         _ <- slice_to a sd ;;
         r <- rotate_left (repeat 0 sd ++ skipn sd a) sd ;;
         assert! Nat.leb sd (length a) ;;
         Ret (r, (length a - sd)%nat)
       else Ret (a, length a)) = Ret (skipn sd a ++ repeat 0 sd, (length a - sd)%nat)).
    { destruct (Nat.ltb_spec 0 sd) as [H0|H0].
      - rewrite slice_to_ret by lia. cbn [obind]. unfold rotate_left. rewrite app_length, repeat_length.
        destruct (Nat.leb_spec sd (sd + length (skipn sd a))); [|lia]. cbn [obind].
        destruct (Nat.leb_spec sd (length a)); [|lia]. cbn [oassert dassert].
        rewrite firstn_app, skipn_app, repeat_length, Nat.sub_diag.
        rewrite firstn_all2, skipn_all2 by (rewrite repeat_length; lia).
        cbn [firstn skipn app]. rewrite app_nil_r. reflexivity.
      - assert (sd = 0%nat) by lia. rewrite H. cbn [skipn repeat]. rewrite app_nil_r, Nat.sub_0_r. reflexivity. }
    rewrite H1. cbn [obind]. clear H1.
    assert (Lsk : length (skipn sd a) = (length a - sd)%nat) by apply skipn_length.
    assert (Csk : canon (skipn sd a)).
    { split; [intros E; rewrite E in Lsk; cbn in Lsk; lia|]. right.
      rewrite Ea, skipn_app. rewrite Ea, app_length in Hsdlt. cbn [length] in Hsdlt.
      replace (sd - length lo)%nat with 0%nat by lia. cbn [skipn]. rewrite last_app_single. lia. }
    assert (Dsk : Forall (@digit cfg) (skipn sd a)) by (apply Forall_skipn; assumption).
    assert (Vsk : val (skipn sd a) = val a / pw sd) by (apply val_div_pw; [assumption|lia]).
    assert (Epw : pw sd = 2 ^ (BITS * (n / BITS))) by (rewrite pw_pow2, Hsd; f_equal; lia).
    assert (EV : val a / 2 ^ n = val (skipn sd a) / 2 ^ (n mod BITS)).
    { rewrite Vsk, Epw, Z.div_div, <- Z.pow_add_r by (try apply Z.pow_nonzero; try apply Z.pow_pos_nonneg; try nia). f_equal. f_equal. lia. }
    rewrite EV.
    destruct (Z.ltb_spec 0 (n mod BITS)) as [Hs|Hs].
    + rewrite slice_to_ret by (rewrite app_length, repeat_length, Lsk; clear; lia). cbn [obind].
      rewrite <- Lsk, firstn_app_exact, skipn_app_exact.
      destruct (shr_loop_spec (rev (skipn sd a)) (n mod BITS) 0) as (ds & E & Ld & Dd & Vd).
      * lia.
      * apply Forall_rev; assumption.
      * split; [lia|apply Z.pow_pos_nonneg; lia].
      * rewrite Z.mul_0_r in E. rewrite E. cbn [obind].
        rewrite rev_involutive, rev_length in *. rewrite Z.mul_0_l, Z.add_0_l in Vd.
        destruct (buf_len_digits (rev ds ++ repeat 0 sd) (length a) (val (skipn sd a) / 2 ^ (n mod BITS))) as (l & -> & Hbuf).
        -- rewrite app_length, repeat_length, rev_length. clear - Ld Lsk Hsdlt. lia.
        -- clear - L. lia.
        -- apply Forall_app_intro; [apply Forall_rev; assumption|apply digits_repeat0].
        -- rewrite val_app, val_repeat0, Vd. lia.
        -- cbn [obind]. do 2 eexists. split; [reflexivity|assumption].
    + replace (n mod BITS) with 0 by lia. rewrite Z.pow_0_r, Z.div_1_r.
      do 2 eexists. split; [reflexivity|]. rewrite <- Lsk.
      replace (repeat 0 sd) with (repeat 0 (length a - length (skipn sd a))) by (f_equal; clear - Lsk Hsdlt; lia).
      apply buf_prefix; auto. clear - Lsk. lia.
Qed.

Lemma bi_shr_spec x n : wf x -> 0 <= n ->
  returns (bi_shr x n) (sgz (sign x) (Z.abs (bi_val x) / 2 ^ n)).
Proof.
  intros W Hn. destruct (wf_inv x W) as (a & Ea & Ca & Da & Va & Es & La & Ls).
  rewrite (abs_val x W a Ea). unfold bi_shr. rewrite slice_to_ret by assumption. cbn [obind].
  rewrite Es, <- La, firstn_app_exact, skipn_app_exact.
  destruct (shift_right_digits_spec a n Ca Da Hn) as (d & l & -> & (B1 & B2 & B3 & B4 & B5 & B6)). cbn [obind].
  eapply returns_buf with (n := length (storage x)); [|reflexivity].
  unfold buf. rewrite app_length, repeat_length, firstn_app, skipn_app.
  replace (l - length d)%nat with 0%nat by lia. cbn [firstn skipn]. rewrite app_nil_r.
  split; [lia|]. split; [apply Forall_app_intro; [assumption|apply digits_repeat0]|]. split; [lia|].
  split; [assumption|]. split; [apply Forall_app_intro; [assumption|apply Forall_repeat; reflexivity]|assumption].
Qed.

(** left shift *)
Lemma shl_loop_spec l n c :
  0 < n < BITS -> Forall (@digit cfg) l -> 0 <= c < 2 ^ n ->
  exists ds c', shl_loop l n (BITS - n) c = Ret ds /\ length ds = length l /\ Forall digit ds /\ 0 <= c' /\
    val ds + pw (length l) * c' = val l * 2 ^ n + c.
Proof.
  intros Hn. pose proof (split_base (cfg:=cfg) n ltac:(lia)) as (P1 & P2 & E).
  intros Hl. revert c. induction Hl as [|x l Hx Hl IH]; intros c Hc; cbn [shl_loop].
  - exists [], c. repeat split; auto; try lia. cbn [length digits_val]. rewrite pw_0. lia.
  - rewrite shl_digit_ret, shr_digit_ret by lia. cbn [obind].
    destruct (IH (x / 2 ^ (BITS - n))) as (ds & c' & -> & L & D & Hc' & V); [apply shr_small; auto; lia|]. cbn [obind].
    eexists _, c'. split; [reflexivity|]. rewrite shl_mod by lia.
    rewrite (lor_add_disjoint _ _ n); [|lia|assumption|rewrite Z.mul_comm; apply Z.mod_mul; lia].
    cbn [length digits_val]. split; [lia|]. split; [constructor; [apply shift_digit; [lia|assumption]|assumption]|].
    split; [assumption|]. rewrite pw_S.
    replace (2 ^ n * (x mod 2 ^ (BITS - n)) + c + B * val ds + B * pw (length l) * c')
      with (2 ^ n * (x mod 2 ^ (BITS - n)) + c + B * (val ds + pw (length l) * c')) by ring.
    rewrite V. pose proof (Z.div_mod x (2 ^ (BITS - n)) ltac:(lia)) as DM. rewrite DM at 3. rewrite <- E. ring.
Qed.

(** The value is always right; the representation is canonical unless zero is
    shifted by a positive whole number of digits. *)
Lemma bi_shl_spec x n : wf x -> 0 <= n ->
  exists r, bi_shl x n = Ret r /\ bi_val r = bi_val x * 2 ^ n /\
    (bi_val x <> 0 \/ n mod BITS <> 0 \/ n < BITS -> wf r).
Proof.
  intros W Hn. destruct (wf_inv x W) as (a & Ea & Ca & Da & Va & Es & La & Ls).
  pose proof (bits_pos cfg) as BP. pose proof (canon_len _ Ca) as La1. pose proof (val_bound a Da) as Vb.
  unfold bi_shl, shift_left_digits. cbn zeta.
  pose proof (Z.div_mod n BITS ltac:(lia)) as DM. pose proof (Z.mod_pos_bound n BITS ltac:(lia)) as MB.
  assert (Hq0 : 0 <= n / BITS) by (apply Z.div_pos; lia).
  set (sd := Z.to_nat (n / BITS)) in *. assert (Hsd : Z.of_nat sd = n / BITS) by (unfold sd; lia). clearbody sd.
  assert (Epw : pw sd = 2 ^ (BITS * (n / BITS))) by (rewrite pw_pow2, Hsd; f_equal; lia).
  assert (Ep : 2 ^ n = pw sd * 2 ^ (n mod BITS)).
  { rewrite Epw, <- Z.pow_add_r by nia. f_equal. lia. }
  assert (H1 : exists tl, (if Nat.ltb 0 sd then
       assert! Nat.leb (dlen x) (length (storage x)) ;;
       let available := (length (storage x) - dlen x)%nat in
       let ext := if Nat.ltb available sd then storage x ++ repeat 0 (sd - available) else storage x in
       let len1 := (dlen x + sd)%nat in
       low <- slice_to ext len1 ;;
       r <- rotate_right low sd ;;
       Ret (r ++ skipn len1 ext, len1)
     else Ret (storage x, dlen x)) = Ret (repeat 0 sd ++ a ++ repeat 0 tl, (sd + length a)%nat)).
  { set (av := (length (storage x) - length a)%nat) in *. rewrite Es. rewrite <- La.
    assert (Lst : length (a ++ repeat 0 av) = (length a + av)%nat) by (rewrite app_length, repeat_length; reflexivity).
    destruct (Nat.ltb_spec 0 sd) as [H0|H0].
    - rewrite Lst. destruct (Nat.leb_spec (length a) (length a + av)); [|lia]. cbn [oassert dassert].
      replace (length a + av - length a)%nat with av by lia.
      exists (av - sd)%nat. cbn zeta.
      assert (Eext : (if Nat.ltb av sd then (a ++ repeat 0 av) ++ repeat 0 (sd - av) else a ++ repeat 0 av) =
                     (a ++ repeat 0 sd) ++ repeat 0 (av - sd)).
      { destruct (Nat.ltb_spec av sd); rewrite <- !app_assoc, <- !repeat_app; do 2 f_equal; lia. }
      rewrite Eext. replace (length a + sd)%nat with (length (a ++ repeat 0 sd)) by (rewrite app_length, repeat_length; lia).
      rewrite slice_to_ret by (rewrite (app_length (a ++ _)); lia). rewrite firstn_app_exact, skipn_app_exact. cbn [obind].
      unfold rotate_right. rewrite app_length, repeat_length.
      destruct (Nat.leb_spec sd (length a + sd)); [|lia]. cbn [obind].
      replace (length a + sd - sd)%nat with (length a) by lia. rewrite firstn_app_exact, skipn_app_exact.
      rewrite <- app_assoc. do 2 f_equal. lia.
    - assert (E0 : sd = 0%nat) by lia. rewrite E0. exists av. cbn [repeat app]. reflexivity. }
  destruct H1 as (tl & H1). cbn zeta in H1. rewrite H1. clear H1. cbn [obind].
  assert (Lz : length (repeat 0 sd ++ a ++ repeat 0 tl) = (sd + length a + tl)%nat) by (rewrite !app_length, !repeat_length; lia).
  destruct (Z.ltb_spec 0 (n mod BITS)) as [Hs|Hs].
  - assert (E2 : exists tl', (if Nat.eqb (sd + length a) (length (repeat 0 sd ++ a ++ repeat 0 tl)) then (repeat 0 sd ++ a ++ repeat 0 tl) ++ [0]
      else repeat 0 sd ++ a ++ repeat 0 tl) = (repeat 0 sd ++ a ++ [0]) ++ repeat 0 tl').
    { rewrite Lz. destruct (Nat.eqb_spec (sd + length a) (sd + length a + tl)).
      - assert (tl = 0%nat) by lia. subst tl. exists 0%nat. cbn [repeat]. rewrite !app_nil_r, <- app_assoc. reflexivity.
      - destruct tl as [|tl]; [lia|]. exists tl. cbn [repeat]. rewrite <- !app_assoc. reflexivity. }
    destruct E2 as (tl' & ->).
    replace (sd + length a + 1)%nat with (length (repeat 0 sd ++ a ++ [0])) by (rewrite !app_length, repeat_length; cbn [length]; lia).
    rewrite slice_to_ret by (rewrite (app_length (_ ++ _)); lia). rewrite firstn_app_exact, skipn_app_exact. cbn [obind].
    set (z := repeat 0 sd ++ a ++ [0]).
    assert (Dz : Forall (@digit cfg) z).
    { repeat apply Forall_app_intro; auto; [apply digits_repeat0|apply Forall_cons; [apply digit_0|apply Forall_nil]]. }
    assert (Vz : val z = pw sd * val a).
    { unfold z. rewrite !val_app, val_repeat0, repeat_length, val_single. lia. }
    assert (Lzz : length z = (sd + S (length a))%nat) by (unfold z; rewrite !app_length, repeat_length; cbn [length]; lia).
    destruct (shl_loop_spec z (n mod BITS) 0) as (ds & c' & -> & L & D & Hc' & V); [lia|assumption|split; [lia|apply Z.pow_pos_nonneg; lia]|].
    cbn [obind].
    assert (c' = 0).
    { pose proof (val_nonneg _ D) as Nd.
      assert (val z * 2 ^ (n mod BITS) < pw (length z)).
      { rewrite Vz, Lzz, pw_add, pw_S. pose proof (pw_pos (cfg:=cfg) sd).
        assert (2 ^ (n mod BITS) < B) by (rewrite base_pow; apply Z.pow_lt_mono_r; lia).
        assert (0 < 2 ^ (n mod BITS)) by (apply Z.pow_pos_nonneg; lia).
        rewrite <- Z.mul_assoc. apply Z.mul_lt_mono_pos_l; [assumption|].
        rewrite (Z.mul_comm B). apply Z.mul_lt_mono_nonneg; lia. }
      assert (c' < 1); [|lia]. apply (Z.mul_lt_mono_pos_l (pw (length z))); [apply pw_pos|lia]. }
    subst c'. rewrite Z.mul_0_r, !Z.add_0_r in V.
    destruct (buf_len_digits ds (length z) (val a * 2 ^ n)) as (l & -> & (B1 & B2 & B3 & B4 & B5 & B6)); auto; [lia| |].
    { rewrite V, Vz, Ep. ring. }
    cbn [obind]. eexists. split; [reflexivity|].
    assert (Hbuf : buf (cfg:=cfg) (ds ++ repeat 0 tl') l (length z + tl') (val a * 2 ^ n)).
    { unfold buf. rewrite app_length, repeat_length, firstn_app, skipn_app.
      replace (l - length ds)%nat with 0%nat by lia. cbn [firstn skipn]. rewrite app_nil_r.
      split; [lia|]. split; [apply Forall_app_intro; [assumption|apply digits_repeat0]|]. split; [lia|].
      split; [assumption|]. split; [apply Forall_app_intro; [assumption|apply Forall_repeat; reflexivity]|assumption]. }
    destruct (buf_wf _ _ _ _ (sign x) Hbuf) as [Wr Vr]. rewrite Vr, Va. split; [|auto].
    destruct (sign x); cbn [sgz]; ring.
  - assert (Hz : n mod BITS = 0) by lia.
    eexists. split; [reflexivity|]. rewrite bi_val_sgz. cbn [storage dlen sign].
    assert (Lsa : (sd + length a)%nat = length (repeat 0 sd ++ a)) by (rewrite app_length, repeat_length; reflexivity).
    split.
    + rewrite app_assoc, Lsa, firstn_app_exact, val_app, val_repeat0, repeat_length, Va, Ep, Hz, Z.pow_0_r.
      destruct (sign x); cbn [sgz]; ring.
    + intros Hor. unfold wf. cbn [storage dlen].
      rewrite app_assoc, Lsa, firstn_app_exact, skipn_app_exact.
      split; [apply Forall_app_intro; [apply Forall_app_intro; [apply digits_repeat0|assumption]|apply digits_repeat0]|].
      split; [rewrite (app_length (_ ++ _)); lia|]. split; [|apply Forall_repeat; reflexivity].
      split; [destruct a; [cbn in La1; lia|destruct sd; discriminate]|].
      destruct (Nat.eq_dec sd 0) as [E0|E0].
      * rewrite E0. cbn [repeat app]. apply Ca.
      * right. assert (Nz : val a <> 0).
        { destruct Hor as [Hor|[Hor|Hor]].
          - rewrite Va in Hor. destruct (sign x); cbn [sgz] in Hor; lia.
          - lia.
          - exfalso. apply E0. rewrite Z.div_small in Hsd by lia. lia. }
        destruct (canon_split a Ca Da Nz) as (lo & d & -> & Dl & Hd). rewrite app_assoc, last_app_single. lia.
Qed.

(** trailing zeros *)
Lemma ctz_pos_spec p : exists m, Z.pos p = (2 * m + 1) * 2 ^ ctz_pos p /\ 0 <= ctz_pos p /\ 0 <= m.
Proof.
  induction p as [p IH|p IH|].
  - exists (Z.pos p). cbn [ctz_pos]. rewrite Z.pow_0_r. lia.
  - destruct IH as (m & E & H & Hm). exists m. cbn [ctz_pos]. rewrite Z.pow_add_r, Z.pow_1_r by lia.
    rewrite Pos2Z.inj_xO, E. split; [ring|lia].
  - exists 0. cbn. lia.
Qed.

Lemma position_nz l : Forall (@digit cfg) l -> val l <> 0 ->
  exists i y tl, position (fun y => negb (y =? 0)) l = Some i /\ l = repeat 0 i ++ y :: tl /\ 0 < y < B /\ Forall (@digit cfg) tl.
Proof.
  induction 1 as [|x l Hx Hl IH]; intros V; [cbn in V; lia|].
  cbn [position]. destruct (Z.eqb_spec x 0) as [->|E]; cbn [negb].
  - cbn [digits_val] in V. destruct IH as (i & y & tl & -> & -> & Hy & Ht); [lia|].
    exists (S i), y, tl. repeat split; auto; lia.
  - exists 0%nat, x, l. unfold digit in Hx. repeat split; auto; lia.
Qed.

Lemma trailing_zeros_spec x : wf x -> bi_val x <> 0 ->
  exists k m, trailing_zeros x = Ret k /\ 0 <= k /\ Z.abs (bi_val x) = (2 * m + 1) * 2 ^ k.
Proof.
  intros W Hv. destruct (wf_inv x W) as (a & Ea & Ca & Da & Va & Es & La & Ls).
  rewrite (abs_val x W a Ea). unfold trailing_zeros. rewrite is_zero_spec by assumption. cbn [obind].
  destruct (Z.eqb_spec (bi_val x) 0); [congruence|]. cbn [negb oassert dassert]. rewrite Ea. cbn [obind].
  assert (Nz : val a <> 0) by (rewrite Va in Hv; destruct (sign x); cbn [sgz] in Hv; lia).
  destruct (position_nz a Da Nz) as (i & y & tl & -> & Eq & Hy & Ht).
  rewrite Es, Eq, <- !app_assoc. unfold index.
  rewrite nth_error_app2, repeat_length, Nat.sub_diag by (rewrite repeat_length; lia). cbn [app nth_error obind].
  destruct y as [|p|p]; try lia. cbn [ctz]. destruct (ctz_pos_spec p) as (m & E & H0 & Hm).
  exists (Z.of_nat i * BITS + ctz_pos p).
  assert (Hc : ctz_pos p < BITS).
  { apply (Z.pow_lt_mono_r_iff 2); [lia|pose proof (bits_pos cfg); lia|]. rewrite <- base_pow.
    assert (1 * 2 ^ ctz_pos p <= (2 * m + 1) * 2 ^ ctz_pos p); [|lia].
    apply Z.mul_le_mono_nonneg_r; [apply Z.pow_nonneg; lia|lia]. }
  exists (m + 2 ^ (BITS - ctz_pos p - 1) * val tl). split; [reflexivity|]. pose proof (bits_pos cfg). split; [lia|].
  rewrite val_app, val_repeat0, repeat_length. cbn [digits_val]. rewrite pw_pow2, E, base_pow.
  rewrite Z.pow_add_r by lia.
  replace BITS with (1 + (BITS - ctz_pos p - 1) + ctz_pos p) at 2 by lia.
  rewrite !Z.pow_add_r, Z.pow_1_r by lia. ring.
Qed.

Lemma is_even_spec x : wf x -> is_even x = Ret (Z.even (bi_val x)).
Proof.
  intros W. destruct (wf_inv x W) as (a & Ea & Ca & Da & Va & Es & La & Ls).
  unfold is_even. rewrite Es. destruct a as [|d a]; [destruct Ca; congruence|]. cbn [app index nth_error obind].
  unfold index. cbn [nth_error obind]. f_equal. rewrite Va. cbn [digits_val].
  replace (Z.even (sgz (sign x) (d + B * val a))) with (Z.even (d + B * val a)).
  2:{ destruct (sign x); cbn [sgz]; [reflexivity|]. symmetry. apply Z.even_opp. }
  rewrite Z.even_add, Z.even_mul. replace (Z.even B) with true by (destruct cfg; reflexivity). cbn [orb].
  destruct (Z.even d); reflexivity.
Qed.
Lemma is_odd_spec x : wf x -> is_odd x = Ret (Z.odd (bi_val x)).
Proof. intros W. unfold is_odd. rewrite is_even_spec by assumption. cbn [obind]. rewrite Z.negb_even. reflexivity. Qed.

End Proofs.

(** BigInt-level operations: refinement to the integers. *)

From Verif Require Import Base M_BigInt S_BigInt P_BigInt1 P_BigInt2.
From Coq Require Import ZifyBool ZifyNat.
Open Scope Z_scope.
Ltac Zify.zify_post_hook ::= idtac.

Definition sgz (s : sgn) (v : Z) : Z := match s with Positive => v | Negative => - v end.

(** Big-endian byte strings *)
Lemma fold_be_acc l acc : fold_left (fun a x => 256 * a + x) l acc = acc * 256 ^ Z.of_nat (length l) + be_val l.
Proof.
  unfold be_val. revert acc. induction l as [|x l IH]; intros acc; cbn [fold_left length].
  - change (256 ^ Z.of_nat 0) with 1. lia.
  - rewrite IH, (IH (256 * 0 + x)). rewrite Nat2Z.inj_succ, Z.pow_succ_r by lia. ring.
Qed.
Lemma be_val_cons x l : be_val (x :: l) = x * 256 ^ Z.of_nat (length l) + be_val l.
Proof. unfold be_val at 1. cbn [fold_left]. rewrite fold_be_acc. replace (256 * 0 + x) with x by lia. reflexivity. Qed.
Lemma be_val_nil : be_val [] = 0. Proof. reflexivity. Qed.
Lemma be_val_app a b : be_val (a ++ b) = be_val a * 256 ^ Z.of_nat (length b) + be_val b.
Proof. unfold be_val at 1. rewrite fold_left_app. rewrite fold_be_acc. reflexivity. Qed.
Lemma be_val_bound l : bytes l -> 0 <= be_val l < 256 ^ Z.of_nat (length l).
Proof.
  induction 1 as [|x l Hx Hl IH]; [cbn; lia|].
  rewrite be_val_cons. cbn [length]. rewrite Nat2Z.inj_succ, Z.pow_succ_r by lia. unfold byte in Hx.
  set (p := 256 ^ Z.of_nat (length l)) in *.
  assert (0 <= x * p) by (apply Z.mul_nonneg_nonneg; lia).
  assert (x * p <= 255 * p) by (apply Z.mul_le_mono_nonneg_r; lia). lia.
Qed.
Lemma be_val_zeros k : be_val (repeat 0 k) = 0.
Proof. induction k; [reflexivity|]. cbn [repeat]. rewrite be_val_cons. lia. Qed.
Lemma be_val_inj a b : length a = length b -> bytes a -> bytes b -> be_val a = be_val b -> a = b.
Proof.
  revert b. induction a as [|x a IH]; intros [|y b] L Ha Hb E; try discriminate; [reflexivity|].
  inversion Ha as [|? ? Hx Ha']; inversion Hb as [|? ? Hy Hb']; subst. cbn [length] in L.
  rewrite !be_val_cons in E. assert (L' : length a = length b) by lia. rewrite L' in E.
  pose proof (be_val_bound a Ha'). pose proof (be_val_bound b Hb'). rewrite L' in H. unfold byte in *.
  set (p := 256 ^ Z.of_nat (length b)) in *.
  assert (x = y).
  { destruct (Z.lt_trichotomy x y) as [H1|[H1|H1]]; [|assumption|].
    - assert ((x + 1) * p <= y * p) by (apply Z.mul_le_mono_nonneg_r; lia). lia.
    - assert ((y + 1) * p <= x * p) by (apply Z.mul_le_mono_nonneg_r; lia). lia. }
  subst y. f_equal. apply IH; auto. lia.
Qed.

Lemma to_be_length n v : length (to_be n v) = n.
Proof. revert v. induction n; intros v; cbn [to_be]; [reflexivity|]. rewrite app_length, IHn. cbn [length]. lia. Qed.
Lemma to_be_bytes_range n v : bytes (to_be n v).
Proof.
  unfold bytes. revert v. induction n; intros v; cbn [to_be]; [constructor|].
  apply Forall_app_intro; [apply IHn|]. constructor; [|constructor]. apply Z.mod_pos_bound. lia.
Qed.
Lemma be_val_to_be n v : 0 <= v < 256 ^ Z.of_nat n -> be_val (to_be n v) = v.
Proof.
  revert v. induction n as [|n IH]; intros v Hv; cbn [to_be].
  - cbn in Hv |- *. lia.
  - rewrite Nat2Z.inj_succ, Z.pow_succ_r in Hv by lia.
    rewrite be_val_app, IH. 2:{ split; [apply Z.div_pos; lia|apply Z.div_lt_upper_bound; lia]. }
    cbn [length]. rewrite be_val_cons, be_val_nil. cbn [length]. change (256 ^ Z.of_nat 1) with 256. change (256 ^ Z.of_nat 0) with 1.
    pose proof (Z.div_mod v 256). lia.
Qed.
Lemma to_be_be_val l : bytes l -> to_be (length l) (be_val l) = l.
Proof.
  intros H. apply be_val_inj; [apply to_be_length|apply to_be_bytes_range|assumption|].
  apply be_val_to_be. apply be_val_bound. assumption.
Qed.
Lemma to_be_pad k n v : 0 <= v < 256 ^ Z.of_nat n -> to_be (k + n) v = repeat 0 k ++ to_be n v.
Proof.
  intros Hv. apply be_val_inj.
  - rewrite app_length, repeat_length, !to_be_length. reflexivity.
  - apply to_be_bytes_range.
  - apply Forall_app_intro; [apply Forall_repeat; unfold byte; lia|apply to_be_bytes_range].
  - rewrite be_val_app, be_val_zeros, !be_val_to_be; auto. split; [lia|].
    apply Z.lt_le_trans with (256 ^ Z.of_nat n); [lia|]. apply Z.pow_le_mono_r; lia.
Qed.

Section Proofs.
Context {cfg : digit_cfg}.
Local Notation BITS := (digit_bits cfg).
Local Notation B := (digit_base cfg).
Local Notation val := (@digits_val cfg).
Local Notation pw := (@pw cfg).

Lemma base_bytes : B = 256 ^ Z.of_nat (digit_bytes cfg).
Proof. destruct cfg; reflexivity. Qed.

Lemma bi_val_sgz x : bi_val x = sgz (sign x) (val (firstn (dlen x) (storage x))).
Proof. reflexivity. Qed.

Lemma wf_inv x : wf x ->
  exists ds, as_digits x = Ret ds /\ canon ds /\ Forall digit ds /\ bi_val x = sgz (sign x) (val ds) /\
    storage x = ds ++ repeat 0 (length (storage x) - length ds) /\ length ds = dlen x /\ (dlen x <= length (storage x))%nat.
Proof.
  intros (H1 & H2 & H3 & H4). exists (firstn (dlen x) (storage x)).
  pose proof (canon_len _ H3) as L. rewrite firstn_length_le in L by assumption.
  unfold as_digits. destruct (Nat.ltb_spec 0 (dlen x)); [|lia]. cbn [oassert dassert].
  rewrite slice_to_ret by assumption. split; [reflexivity|]. split; [assumption|].
  split; [apply Forall_firstn; assumption|]. split; [reflexivity|].
  rewrite firstn_length_le by assumption. split; [|split; [reflexivity|assumption]].
  rewrite <- (firstn_skipn (dlen x) (storage x)) at 1. f_equal.
  rewrite (zeros_eq_repeat _ H4). rewrite skipn_length. reflexivity.
Qed.

Lemma buf_wf r l n v s : buf (cfg:=cfg) r l n v -> wf (mkBig r l s) /\ bi_val (mkBig r l s) = sgz s v.
Proof.
  intros (L & D & Hl & C & Z0 & V). split.
  - unfold wf. cbn [storage dlen]. repeat split; auto; try apply C. lia.
  - rewrite bi_val_sgz. cbn [storage dlen sign]. rewrite V. reflexivity.
Qed.

Lemma returns_buf r l n v s w : buf (cfg:=cfg) r l n v -> sgz s v = w -> returns (Ret (mkBig r l s)) w.
Proof. intros H E. destruct (buf_wf r l n v s H) as [W V]. eexists. split; [reflexivity|]. split; [assumption|]. congruence. Qed.

Lemma returns_inv o v : returns (cfg:=cfg) o v -> exists r, o = Ret r /\ wf r /\ bi_val r = v.
Proof. auto. Qed.

Lemma digits_nonneg_sgz s ds : Forall (@digit cfg) ds -> Z.abs (sgz s (val ds)) = val ds.
Proof. intros H. pose proof (val_nonneg _ H). destruct s; cbn [sgz]; lia. Qed.

(** bytes to digits *)
Lemma chunk_digits_spec k l :
  length l = (k * digit_bytes cfg)%nat -> bytes l ->
  length (chunk_digits k l) = k /\ Forall (@digit cfg) (chunk_digits k l) /\ val (rev (chunk_digits k l)) = be_val l.
Proof.
  revert l. induction k as [|k IH]; intros l L Hb; cbn [chunk_digits].
  - destruct l; [|discriminate]. repeat split; constructor.
  - pose proof (bytes_pos cfg) as Hp. set (db := digit_bytes cfg) in *.
    assert (L1 : length (firstn db l) = db) by (apply firstn_length_le; lia).
    assert (L2 : length (skipn db l) = (k * db)%nat) by (rewrite skipn_length; lia).
    destruct (IH (skipn db l) L2 (Forall_skipn _ _ _ Hb)) as (I1 & I2 & I3).
    pose proof (be_val_bound (firstn db l) (Forall_firstn _ _ _ Hb)) as Bd. rewrite L1 in Bd.
    change (256 ^ Z.of_nat db) with (256 ^ Z.of_nat (digit_bytes cfg)) in Bd. rewrite <- base_bytes in Bd.
    repeat split; [cbn [length]; lia| |].
    + constructor; assumption.
    + cbn [rev]. rewrite val_app, val_single, rev_length, I1, I3.
      rewrite <- (firstn_skipn db l) at 3. rewrite be_val_app, L2.
      assert (E : pw k = 256 ^ Z.of_nat (k * db)).
      { unfold P_BigInt1.pw. rewrite base_bytes, Nat2Z.inj_mul, Z.mul_comm, Z.pow_mul_r by lia. reflexivity. }
      rewrite E. ring.
Qed.

Lemma be_bytes_to_le_digits_spec bs :
  bs <> [] -> bytes bs ->
  be_bytes_to_le_digits bs <> [] /\ Forall (@digit cfg) (be_bytes_to_le_digits bs) /\ val (be_bytes_to_le_digits bs) = be_val bs.
Proof.
  intros Hne Hb. unfold be_bytes_to_le_digits, be_bytes_to_be_digits. destruct bs as [|b0 bs0]; [congruence|].
  set (bs := b0 :: bs0) in *. pose proof (bytes_pos cfg) as Hp. set (db := digit_bytes cfg) in *.
  set (ext := (db - length bs mod db)%nat). set (padded := repeat 0 ext ++ bs).
  pose proof (Nat.mod_upper_bound (length bs) db ltac:(lia)) as Hm.
  pose proof (Nat.div_mod (length bs) db ltac:(lia)) as Hd.
  assert (Lp : length padded = ((length bs / db + 1) * db)%nat).
  { unfold padded. rewrite app_length, repeat_length. unfold ext. lia. }
  assert (Dp : (length padded / db)%nat = (length bs / db + 1)%nat) by (rewrite Lp; apply Nat.div_mul; lia).
  assert (Bp : bytes padded) by (apply Forall_app_intro; [apply Forall_repeat; unfold byte; lia|assumption]).
  rewrite Dp. destruct (chunk_digits_spec (length bs / db + 1) padded Lp Bp) as (C1 & C2 & C3).
  repeat split.
  - intros E. apply (f_equal (@length Z)) in E. rewrite rev_length, C1 in E. cbn [length] in E. lia.
  - apply Forall_rev. assumption.
  - rewrite C3. unfold padded. rewrite be_val_app, be_val_zeros. lia.
Qed.

Lemma bi_from_be_bytes_spec bs s :
  bs <> [] -> bytes bs -> returns (bi_from_be_bytes bs s) (sgz s (be_val bs)).
Proof.
  intros Hne Hb. destruct (be_bytes_to_le_digits_spec bs Hne Hb) as (H1 & H2 & H3).
  unfold bi_from_be_bytes.
  destruct (buf_len_digits (be_bytes_to_le_digits bs) (length (be_bytes_to_le_digits bs)) (be_val bs)) as (l & -> & Hbuf); auto.
  { destruct (be_bytes_to_le_digits bs); [congruence|cbn [length]; lia]. }
  cbn [obind]. eapply returns_buf; [exact Hbuf|reflexivity].
Qed.

Lemma from_u128_spec n s : 0 <= n < 2 ^ 128 -> returns (from_u128 n s) (sgz s n).
Proof.
  intros Hn. change (2 ^ 128) with (256 ^ Z.of_nat 16) in Hn.
  pose proof (bi_from_be_bytes_spec (to_be 16 n) s) as H.
  rewrite be_val_to_be in H by assumption. apply H; [|apply to_be_bytes_range].
  intros E. apply (f_equal (@length Z)) in E. rewrite to_be_length in E. discriminate.
Qed.

Lemma from_i128_spec i : - 2 ^ 127 <= i < 2 ^ 127 -> returns (from_i128 i) i.
Proof.
  intros Hi. unfold from_i128. destruct (Z.leb_spec 0 i).
  - apply (from_u128_spec i Positive). change (2 ^ 128) with (2 * 2 ^ 127). lia.
  - destruct (Z.eqb_spec i (- 2 ^ 127)) as [E|E].
    + subst i. apply (from_u128_spec (2 ^ 127) Negative). split; [lia|reflexivity].
    + replace i with (sgz Negative (- i)) at 2 by (cbn [sgz]; lia). apply from_u128_spec. change (2 ^ 128) with (2 * 2 ^ 127). lia.
Qed.

Lemma from_int_0 : returns (from_int 0) 0.
Proof. apply from_i128_spec. change (2 ^ 127) with 170141183460469231731687303715884105728. lia. Qed.
Lemma from_int_small i : -1000000 <= i <= 1000000 -> returns (from_int i) i.
Proof. intros. apply from_i128_spec. change (2 ^ 127) with 170141183460469231731687303715884105728. lia. Qed.
Lemma bi_zero_spec : returns bi_zero 0. Proof. apply from_int_0. Qed.
Lemma bi_one_spec : returns bi_one 1. Proof. apply from_int_small. lia. Qed.

(** negation, addition, subtraction, multiplication *)
Lemma bi_neg_spec x : wf x -> wf (bi_neg x) /\ bi_val (bi_neg x) = - bi_val x.
Proof.
  intros W. split; [exact W|]. rewrite !bi_val_sgz. unfold bi_neg. cbn [storage dlen sign].
  destruct (sign x); cbn [neg_sgn sgz]; lia.
Qed.

Lemma digitvec_ret n : (1 <= n)%nat -> digitvec_with_len n = Ret (repeat 0 n).
Proof. intros H. unfold digitvec_with_len. destruct (Nat.ltb_spec 0 n); [reflexivity|lia]. Qed.

Lemma bi_add_spec x y : wf x -> wf y -> returns (bi_add x y) (bi_val x + bi_val y).
Proof.
  intros Wx Wy.
  destruct (wf_inv x Wx) as (a & Ea & Ca & Da & Va & _). destruct (wf_inv y Wy) as (b & Eb & Cb & Db & Vb & _).
  pose proof (canon_len _ Ca) as La. pose proof (canon_len _ Cb) as Lb.
  unfold bi_add. rewrite Ea, Eb. cbn [obind]. rewrite Va, Vb.
  assert (H0 : returns (from_int 0) 0) by apply from_int_0.
  assert (LM : (1 <= Nat.max (length a) (length b))%nat) by lia.
  destruct (sgn_eqb (sign x) (sign y)) eqn:ES.
  - rewrite digitvec_ret by (unfold adding_output_max_len; lia). cbn [obind]. rewrite repeat_length.
    destruct (add_digits_spec a b (adding_output_max_len (length a) (length b))) as (r & l & -> & Hb); auto.
    cbn [obind]. eapply returns_buf; [exact Hb|]. destruct (sign x), (sign y); try discriminate; cbn [sgz]; lia.
  - rewrite cmp_digits_spec by assumption. cbn [obind].
    destruct (Z.compare_spec (val a) (val b)) as [E|E|E].
    + replace (sgz (sign x) (val a) + sgz (sign y) (val b)) with 0; [exact H0|].
      destruct (sign x), (sign y); try discriminate; cbn [sgz]; lia.
    + rewrite digitvec_ret by (unfold subtracting_output_max_len; lia). cbn [obind]. rewrite repeat_length.
      destruct (sub_digits_spec b a (subtracting_output_max_len (length b) (length a))) as (r & l & -> & Hb); auto; try lia.
      cbn [obind]. eapply returns_buf; [exact Hb|]. destruct (sign x), (sign y); try discriminate; cbn [sgz]; lia.
    + rewrite digitvec_ret by (unfold subtracting_output_max_len; lia). cbn [obind]. rewrite repeat_length.
      destruct (sub_digits_spec a b (subtracting_output_max_len (length a) (length b))) as (r & l & -> & Hb); auto; try lia.
      cbn [obind]. eapply returns_buf; [exact Hb|]. destruct (sign x), (sign y); try discriminate; cbn [sgz]; lia.
Qed.

Lemma bi_sub_spec x y : wf x -> wf y -> returns (bi_sub x y) (bi_val x - bi_val y).
Proof.
  intros Wx Wy.
  destruct (wf_inv x Wx) as (a & Ea & Ca & Da & Va & _). destruct (wf_inv y Wy) as (b & Eb & Cb & Db & Vb & _).
  pose proof (canon_len _ Ca) as La. pose proof (canon_len _ Cb) as Lb.
  unfold bi_sub. rewrite Ea, Eb. cbn [obind]. rewrite Va, Vb.
  assert (H0 : returns (from_int 0) 0) by apply from_int_0.
  destruct (sgn_eqb (sign x) (sign y)) eqn:ES; cbn [negb].
  - rewrite cmp_digits_spec by assumption. cbn [obind].
    destruct (Z.compare_spec (val a) (val b)) as [E|E|E].
    + replace (sgz (sign x) (val a) - sgz (sign y) (val b)) with 0; [exact H0|].
      destruct (sign x), (sign y); try discriminate; cbn [sgz]; lia.
    + rewrite digitvec_ret by (unfold subtracting_output_max_len; lia). cbn [obind]. rewrite repeat_length.
      destruct (sub_digits_spec b a (subtracting_output_max_len (length b) (length a))) as (r & l & -> & Hb); auto; try lia.
      cbn [obind]. eapply returns_buf; [exact Hb|]. destruct (sign x), (sign y); try discriminate; cbn [sgz neg_sgn]; lia.
    + rewrite digitvec_ret by (unfold subtracting_output_max_len; lia). cbn [obind]. rewrite repeat_length.
      destruct (sub_digits_spec a b (subtracting_output_max_len (length a) (length b))) as (r & l & -> & Hb); auto; try lia.
      cbn [obind]. eapply returns_buf; [exact Hb|]. destruct (sign x), (sign y); try discriminate; cbn [sgz]; lia.
  - rewrite digitvec_ret by (unfold adding_output_max_len; lia). cbn [obind]. rewrite repeat_length.
    destruct (add_digits_spec a b (adding_output_max_len (length a) (length b))) as (r & l & -> & Hb); auto.
    cbn [obind]. eapply returns_buf; [exact Hb|]. destruct (sign x), (sign y); try discriminate; cbn [sgz]; lia.
Qed.

Lemma bi_mul_spec x y : wf x -> wf y -> returns (bi_mul x y) (bi_val x * bi_val y).
Proof.
  intros Wx Wy.
  destruct (wf_inv x Wx) as (a & Ea & Ca & Da & Va & _). destruct (wf_inv y Wy) as (b & Eb & Cb & Db & Vb & _).
  pose proof (canon_len _ Ca) as La. pose proof (canon_len _ Cb) as Lb.
  unfold bi_mul. rewrite Ea, Eb. cbn [obind]. rewrite Va, Vb.
  rewrite digitvec_ret by lia. cbn [obind]. rewrite repeat_length.
  destruct (mul_digits_spec a b (length a + length b)) as (r & l & -> & Hb); auto.
  cbn [obind]. eapply returns_buf; [exact Hb|]. destruct (sign x), (sign y); cbn [sgn_eqb sgz]; lia.
Qed.

(** division *)
Lemma div_rem_spec x y : wf x -> wf y -> bi_val y <> 0 ->
  exists q r, div_rem x y = Ret (q, r) /\ wf q /\ wf r /\
    bi_val q = Z.quot (bi_val x) (bi_val y) /\ bi_val r = Z.rem (bi_val x) (bi_val y).
Proof.
  intros Wx Wy Hy.
  destruct (wf_inv x Wx) as (a & Ea & Ca & Da & Va & _). destruct (wf_inv y Wy) as (b & Eb & Cb & Db & Vb & _).
  pose proof (canon_len _ Ca) as La. pose proof (canon_len _ Cb) as Lb.
  pose proof (val_nonneg _ Da) as Na. pose proof (val_nonneg _ Db) as Nb.
  assert (Hb0 : 0 < val b) by (rewrite Vb in Hy; destruct (sign y); cbn [sgz] in Hy; lia).
  unfold div_rem. rewrite Ea, Eb. cbn [obind]. rewrite Va, Vb.
  rewrite !digitvec_ret by lia. cbn [obind]. rewrite !repeat_length.
  assert (Hq : exists q ql r rl, div_rem_digits a b (length a) (length b) = Ret (q, ql, (r, rl)) /\
    buf (cfg:=cfg) q ql (length a) (val a / val b) /\ buf (cfg:=cfg) r rl (length b) (val a mod val b)).
  { destruct (Nat.le_gt_cases (length b) (length a + 2)) as [L|L].
    - apply div_rem_digits_spec; auto.
    - (* a is much shorter than b: the Lt branch *)
      assert (Hlt : val a < val b) by (apply len_lt_val; auto; [apply Ca|lia]).
      unfold div_rem_digits. rewrite !valid_slice by assumption. cbn [oassert dassert].
      rewrite !Nat.leb_refl. cbn [oassert dassert]. rewrite !is_zero_digits_spec by assumption. cbn [obind].
      destruct (Z.eqb_spec (val b) 0); [lia|]. cbn [negb oassert dassert].
      assert (Hz0 : forall n, (1 <= n)%nat -> buf (cfg:=cfg) (repeat 0 n) 1 n 0).
      { intros m Hm. replace (repeat 0 m) with ([0] ++ repeat 0 (m - length [0])).
        - apply (buf_prefix [0]); [cbn [length]; lia|apply canon_single|apply Forall_cons; [apply digit_0|apply Forall_nil]|apply val_single].
        - destruct m; [lia|]. cbn [length app repeat]. rewrite Nat.sub_succ, Nat.sub_0_r. reflexivity. }
      destruct (Z.eqb_spec (val a) 0) as [E0|E0].
      + do 4 eexists. split; [reflexivity|]. rewrite E0, Z.div_0_l, Z.mod_0_l by lia. split; apply Hz0; lia.
      + rewrite cmp_digits_spec by assumption. cbn [obind].
        destruct (Z.compare_spec (val a) (val b)); try lia.
        rewrite fill_buffer_ret by lia. cbn [obind]. do 4 eexists. split; [reflexivity|].
        rewrite Z.div_small, Z.mod_small by lia. split; [apply Hz0; lia|]. apply buf_prefix; auto. lia. }
  destruct Hq as (q & ql & r & rl & -> & B1 & B2). cbn [obind].
  do 2 eexists. split; [reflexivity|].
  destruct (buf_wf q ql _ _ (if sgn_eqb (sign x) (sign y) then Positive else Negative) B1) as [W1 V1].
  destruct (buf_wf r rl _ _ (sign x) B2) as [W2 V2]. rewrite V1, V2.
  split; [assumption|]. split; [assumption|].
  destruct (sign x), (sign y); cbn [sgz sgn_eqb];
    rewrite ?Z.quot_opp_opp, ?Z.quot_opp_l, ?Z.quot_opp_r, ?Z.rem_opp_opp, ?Z.rem_opp_r, ?Z.rem_opp_l by lia;
    rewrite Z.quot_div_nonneg, Z.rem_mod_nonneg by lia; split; reflexivity.
Qed.

Lemma div_rem_zero x y : wf x -> wf y -> bi_val y = 0 -> div_rem x y = Panic.
Proof.
  intros Wx Wy Hy.
  destruct (wf_inv x Wx) as (a & Ea & Ca & Da & Va & _). destruct (wf_inv y Wy) as (b & Eb & Cb & Db & Vb & _).
  pose proof (canon_len _ Ca) as La. pose proof (canon_len _ Cb) as Lb.
  assert (Hb0 : val b = 0) by (rewrite Vb in Hy; destruct (sign y); cbn [sgz] in Hy; lia).
  unfold div_rem. rewrite Ea, Eb. cbn [obind].
  rewrite !digitvec_ret by lia. cbn [obind]. rewrite !repeat_length.
  unfold div_rem_digits. rewrite !valid_slice by assumption. cbn [oassert dassert].
  rewrite !Nat.leb_refl. cbn [oassert dassert]. rewrite !is_zero_digits_spec by assumption. cbn [obind].
  rewrite Hb0. reflexivity.
Qed.

Lemma bi_div_spec x y : wf x -> wf y -> bi_val y <> 0 -> returns (bi_div x y) (Z.quot (bi_val x) (bi_val y)).
Proof. intros. unfold bi_div. destruct (div_rem_spec x y) as (q & r & -> & ? & ? & ? & ?); auto. eexists; split; [reflexivity|]; auto. Qed.
Lemma bi_rem_spec x y : wf x -> wf y -> bi_val y <> 0 -> returns (bi_rem x y) (Z.rem (bi_val x) (bi_val y)).
Proof. intros. unfold bi_rem. destruct (div_rem_spec x y) as (q & r & -> & ? & ? & ? & ?); auto. eexists; split; [reflexivity|]; auto. Qed.

(** comparison *)
Lemma is_zero_spec x : wf x -> is_zero x = Ret (bi_val x =? 0).
Proof.
  intros W. destruct (wf_inv x W) as (a & Ea & Ca & Da & Va & _).
  unfold is_zero. rewrite Ea. cbn [obind]. rewrite is_zero_digits_spec by assumption. f_equal.
  rewrite Va. destruct (sign x); cbn [sgz]; destruct (Z.eqb_spec (val a) 0); destruct (Z.eqb_spec (- val a) 0); lia.
Qed.

Lemma both_zero_spec x y : wf x -> wf y -> both_zero x y = Ret ((bi_val x =? 0) && (bi_val y =? 0))%bool.
Proof. intros. unfold both_zero. rewrite is_zero_spec by assumption. cbn [obind]. destruct (bi_val x =? 0); [|reflexivity]. rewrite is_zero_spec by assumption. reflexivity. Qed.

Lemma bi_eq_spec x y : wf x -> wf y -> bi_eq x y = Ret (bi_val x =? bi_val y).
Proof.
  intros Wx Wy. unfold bi_eq. rewrite both_zero_spec by assumption. cbn [obind].
  destruct (wf_inv x Wx) as (a & Ea & Ca & Da & Va & _). destruct (wf_inv y Wy) as (b & Eb & Cb & Db & Vb & _).
  pose proof (val_nonneg _ Da) as Na. pose proof (val_nonneg _ Db) as Nb.
  destruct (Z.eqb_spec (bi_val x) 0) as [E1|E1]; destruct (Z.eqb_spec (bi_val y) 0) as [E2|E2]; cbn [andb];
    [f_equal; symmetry; apply Z.eqb_eq; congruence| | | ].
  all: destruct (sgn_eqb (sign x) (sign y)) eqn:ES;
    [|f_equal; symmetry; apply Z.eqb_neq; rewrite Va, Vb in *; destruct (sign x), (sign y); try discriminate; cbn [sgz] in *; lia].
  all: rewrite Ea, Eb; cbn [obind]; unfold eq_digits; rewrite !valid_slice by assumption; cbn [oassert dassert]; f_equal.
  all: apply eq_true_iff_eq; rewrite list_eqb_eq, Z.eqb_eq, Va, Vb; split; intros HH.
  all: try (apply canon_inj; auto; destruct (sign x), (sign y); try discriminate; cbn [sgz] in *; lia).
  all: subst b; destruct (sign x), (sign y); try discriminate; reflexivity.
Qed.

Lemma bi_cmp_spec x y : wf x -> wf y -> bi_cmp x y = Ret (bi_val x ?= bi_val y).
Proof.
  intros Wx Wy. unfold bi_cmp. rewrite both_zero_spec by assumption. cbn [obind].
  destruct (wf_inv x Wx) as (a & Ea & Ca & Da & Va & _). destruct (wf_inv y Wy) as (b & Eb & Cb & Db & Vb & _).
  pose proof (val_nonneg _ Da) as Na. pose proof (val_nonneg _ Db) as Nb.
  destruct ((bi_val x =? 0) && (bi_val y =? 0))%bool eqn:EZ.
  - f_equal. symmetry. apply Z.compare_eq_iff. lia.
  - rewrite Va, Vb in *. destruct (sign x), (sign y); cbn [sgz] in *.
    + rewrite Ea, Eb. cbn [obind]. apply cmp_digits_spec; assumption.
    + f_equal. symmetry. apply Z.compare_gt_iff. lia.
    + f_equal. symmetry. apply Z.compare_lt_iff. lia.
    + rewrite Ea, Eb. cbn [obind]. rewrite cmp_digits_spec by assumption. f_equal.
      destruct (Z.compare_spec (val b) (val a)); symmetry; [apply Z.compare_eq_iff|apply Z.compare_lt_iff|apply Z.compare_gt_iff]; lia.
Qed.

Lemma bi_lt_spec x y : wf x -> wf y -> bi_lt x y = Ret (bi_val x <? bi_val y).
Proof. intros. unfold bi_lt. rewrite bi_cmp_spec by assumption. reflexivity. Qed.
Lemma bi_le_spec x y : wf x -> wf y -> bi_le x y = Ret (bi_val x <=? bi_val y).
Proof. intros. unfold bi_le. rewrite bi_cmp_spec by assumption. reflexivity. Qed.
Lemma bi_gt_spec x y : wf x -> wf y -> bi_gt x y = Ret (bi_val y <? bi_val x).
Proof. intros. unfold bi_gt. rewrite bi_cmp_spec by assumption. cbn [obind]. f_equal.
  destruct (Z.compare_spec (bi_val x) (bi_val y)), (Z.ltb_spec (bi_val y) (bi_val x)); lia. Qed.
Lemma bi_ge_spec x y : wf x -> wf y -> bi_ge x y = Ret (bi_val y <=? bi_val x).
Proof. intros. unfold bi_ge. rewrite bi_cmp_spec by assumption. cbn [obind]. f_equal.
  destruct (Z.compare_spec (bi_val x) (bi_val y)), (Z.leb_spec (bi_val y) (bi_val x)); lia. Qed.

End Proofs.

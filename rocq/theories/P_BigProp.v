(** Proofs of the theorems of Prop_BigInt.v. *)

From Verif Require Import Base M_Codec M_BigInt M_BigText S_BigInt S_Codec S_BigApi P_BigInt1 P_BigInt2 P_BigInt3 P_BigInt4 P_Codec P_BigApi.
From Coq Require Import ZifyBool ZifyNat.
Open Scope Z_scope.
Ltac Zify.zify_post_hook ::= idtac.

(** Decision procedure for [wf], for examples. *)
Definition wf_b (cfg : digit_cfg) (x : bigint) : bool :=
  (forallb (fun d => (0 <=? d) && (d <? digit_base cfg)) (storage x) &&
   Nat.leb (dlen x) (length (storage x)) && Nat.ltb 0 (length (firstn (dlen x) (storage x))) &&
   (Nat.eqb (length (firstn (dlen x) (storage x))) 1 || negb (last (firstn (dlen x) (storage x)) 0 =? 0)) &&
   forallb (fun d => d =? 0) (skipn (dlen x) (storage x)))%bool.
Lemma wf_b_ok cfg x : wf_b cfg x = true <-> @wf cfg x.
Proof.
  unfold wf_b, wf, canon. rewrite !andb_true_iff, orb_true_iff, negb_true_iff, Nat.ltb_lt, Nat.leb_le, Nat.eqb_eq, Z.eqb_neq, !forallb_forall.
  split.
  - intros ((((H1 & H2) & H3) & H4) & H5). repeat split; auto.
    + apply Forall_forall. intros d Hd. specialize (H1 d Hd). unfold digit. lia.
    + intros E. rewrite E in H3. cbn in H3. lia.
    + apply Forall_forall. intros d Hd. specialize (H5 d Hd). lia.
  - intros (H1 & H2 & (H3 & H4) & H5). repeat split; auto.
    + intros d Hd. rewrite Forall_forall in H1. specialize (H1 d Hd). unfold digit in H1. lia.
    + destruct (firstn (dlen x) (storage x)); [congruence|cbn [length]; lia].
    + intros d Hd. rewrite Forall_forall in H5. specialize (H5 d Hd). lia.
Qed.

Lemma ex_a_wf : @wf U64 (mkBig [5; 0; 18446744073709551615; 0] 3 Negative).
Proof. apply wf_b_ok. vm_compute. reflexivity. Qed.
Lemma ex_b_wf : @wf U64 (mkBig [18446744073709551615; 7] 2 Positive).
Proof. apply wf_b_ok. vm_compute. reflexivity. Qed.

Lemma shl_zero_refuted : exists x, @api_value U64 true x /\ ~ @wf U64 x /\ @bi_val U64 x = 0.
Proof.
  exists (mkBig [0; 0; 0] 2 Positive). split.
  - apply (api_shl true (mkBig [0; 0; 0] 1 Positive) 64); [lia|auto| |reflexivity].
    apply (api_from_unsigned true 0); [split; [lia|reflexivity]|reflexivity].
  - split; [|reflexivity]. intros H. apply wf_b_ok in H. vm_compute in H. discriminate.
Qed.

(** What a left shift of zero by whole digits returns, and what comes of it. *)
Section ShlZero.
Context {cfg : digit_cfg}.
Lemma zero_storage x : wf x -> bi_val x = 0 -> dlen x = 1%nat /\ storage x = repeat 0 (length (storage x)) /\ (1 <= length (storage x))%nat.
Proof.
  intros W V. destruct (P_BigInt3.wf_inv x W) as (ds & _ & C & F & Vd & Es & Ld & Ll). rewrite V in Vd.
  assert (V0 : S_BigInt.digits_val (cfg:=cfg) ds = 0) by (destruct (sign x); cbn [P_BigInt3.sgz] in Vd; lia).
  assert (E : ds = [0]).
  { apply (P_BigInt1.canon_inj (cfg:=cfg) ds [0]).
    all: try assumption. all: try (split; [discriminate|left; reflexivity]).
    all: try (constructor; [split; [lia|destruct cfg; reflexivity]|constructor]).
    rewrite V0. cbn [S_BigInt.digits_val]. lia. }
  subst ds. cbn [length app] in *. split; [congruence|]. split; [|lia].
  rewrite Es at 1. change (0 :: repeat 0 (length (storage x) - 1)) with (repeat 0 (S (length (storage x) - 1))). f_equal. lia.
Qed.
Lemma firstn_zeros (m n : nat) : (n <= m)%nat -> firstn n (repeat 0 m) = repeat 0 n.
Proof. revert m. induction n as [|n IH]; intros [|m] H; cbn; try reflexivity; try lia. f_equal. apply IH. lia. Qed.
Lemma skipn_zeros (m n : nat) : skipn n (repeat 0 m) = repeat 0 (m - n).
Proof. revert m. induction n as [|n IH]; intros [|m]; cbn; try reflexivity. apply IH. Qed.
Lemma shl_zero x k : wf x -> bi_val x = 0 -> 0 < k ->
  exists m, bi_shl x (k * digit_bits cfg) = Ret (mkBig (repeat 0 m) (S (Z.to_nat k)) (sign x)) /\ (S (Z.to_nat k) <= m)%nat.
Proof.
  intros W V K. destruct (zero_storage x W V) as (L & Es & L1). pose proof (bits_pos cfg) as BP.
  unfold bi_shl, shift_left_digits. rewrite Z.div_mul, Z.mod_mul by lia. change (0 <? 0) with false. cbv iota zeta.
  destruct (Nat.ltb_spec 0 (Z.to_nat k)) as [_|]; [|lia]. rewrite L.
  destruct (Nat.leb_spec 1 (length (storage x))) as [_|]; [|lia]. cbn [oassert].
  set (n := length (storage x)) in *. set (sd := Z.to_nat k) in *.
  assert (E : exists m, (if Nat.ltb (n - 1) sd then storage x ++ repeat 0 (sd - (n - 1)) else storage x) = repeat 0 m /\ (1 + sd <= m)%nat).
  { rewrite Es. destruct (Nat.ltb_spec (n - 1) sd) as [H|H].
    - rewrite <- repeat_app. eexists. split; [reflexivity|lia].
    - exists n. split; [reflexivity|lia]. }
  destruct E as (m & -> & Hm). rewrite P_BigInt1.slice_to_ret by (rewrite repeat_length; exact Hm). cbn [obind].
  rewrite firstn_zeros by exact Hm. unfold rotate_right. rewrite repeat_length.
  destruct (Nat.leb_spec sd (1 + sd)) as [_|]; [|lia]. cbn [obind].
  rewrite skipn_zeros, skipn_zeros, firstn_zeros, <- !repeat_app by lia. eexists. split; [reflexivity|lia].
Qed.
Lemma zeros_not_valid n : is_valid_biguint_slice (repeat 0 (S (S n))) = false.
Proof.
  unfold is_valid_biguint_slice, len_digits. cbn [repeat]. cbn [negb oassert].
  rewrite (proj2 (P_BigInt1.rposition_None (fun x => negb (x =? 0)) (0 :: 0 :: repeat 0 n))); [reflexivity|].
  do 2 (constructor; [reflexivity|]). apply Forall_forall. intros y I. apply repeat_spec in I. now subst y.
Qed.
Lemma shifted_zero x k : wf x -> bi_val x = 0 -> 0 < k ->
  exists y, bi_shl x (k * digit_bits cfg) = Ret y /\ bi_val y = 0 /\ ~ wf y /\
  forall z, wf z -> bi_val z = 0 ->
    (debug_checks cfg = true -> is_zero y = Panic /\ bi_eq y z = Panic /\ bi_cmp y z = Panic) /\
    (debug_checks cfg = false -> is_zero y = Ret false /\ bi_eq y z = Ret false /\
       bi_cmp y z = Ret (if is_sign_negative y then Lt else Gt)).
Proof.
  intros W V K. destruct (shl_zero x k W V K) as (m & E & Hm). rewrite E. eexists. split; [reflexivity|].
  destruct (Z.to_nat k) as [|n] eqn:EN; [lia|]. set (y := mkBig _ _ _).
  assert (F : firstn (dlen y) (storage y) = repeat 0 (S (S n))) by (apply firstn_zeros; exact Hm).
  assert (V0 : forall j, S_BigInt.digits_val (cfg:=cfg) (repeat 0 j) = 0) by (induction j as [|j IH]; cbn [repeat S_BigInt.digits_val]; [reflexivity|rewrite IH; lia]).
  assert (A : as_digits y = Ret (repeat 0 (S (S n)))).
  { unfold as_digits. cbn [dlen y Nat.ltb Nat.leb dassert]. rewrite P_BigInt1.slice_to_ret by (cbn [storage y]; rewrite repeat_length; exact Hm). f_equal. exact F. }
  split; [|split].
  - unfold bi_val. rewrite F, V0. now destruct (sign y).
  - intros (_ & _ & (_ & [H|H]) & _); rewrite F in H; [cbn in H; lia|]. apply H. clear. cbn [repeat]. generalize (repeat 0 n), (repeat_spec n 0). intros l. 
    intros R. change (last (0 :: 0 :: l) 0) with (last (0 :: l) 0). revert R. induction l as [|a l IH]; intros R; [reflexivity|].
    cbn [last]. rewrite (R a (or_introl eq_refl)). apply IH. intros q I. apply R. now right.
  - intros z Wz Vz. destruct (P_BigInt3.wf_inv z Wz) as (ds & Ez & C & Fd & Vd & Es & Ld & Ll).
    destruct (zero_storage z Wz Vz) as (Lz & _). split; intros G.
    + assert (Z0 : is_zero y = Panic) by (unfold is_zero; rewrite A; cbn [obind]; unfold is_zero_digits; rewrite zeros_not_valid; unfold dassert; now rewrite G).
      unfold bi_eq, bi_cmp, both_zero. now rewrite Z0.
    + assert (Z0 : is_zero y = Ret false) by (unfold is_zero; rewrite A; cbn [obind]; unfold is_zero_digits; rewrite zeros_not_valid; unfold dassert; now rewrite G).
      unfold bi_eq, bi_cmp, both_zero. rewrite Z0. cbn [obind]. rewrite A, Ez. cbn [obind].
      unfold eq_digits, cmp_digits, dassert. rewrite zeros_not_valid, P_BigInt1.valid_slice, G by assumption.
      rewrite Lz in Ld. destruct ds as [|d [|? ?]]; try discriminate. rewrite repeat_length. cbn [length Nat.compare].
      split; [reflexivity|]. split.
      * destruct (sgn_eqb (sign y) (sign z)); [|reflexivity]. cbn [repeat list_eqb]. now rewrite andb_false_r.
      * unfold is_sign_negative. now destruct (sign y), (sign z).
Qed.
End ShlZero.

Lemma api_example : exists x, @api_value U64 false x /\ @bi_val U64 x = 255 * 2 ^ 64 - 3.
Proof.
  assert (H1 : exists a, @api_value U64 false a /\ a = mkBig [255; 0; 0] 1 Positive).
  { eexists. split; [|reflexivity]. apply (api_from_unsigned false 255); [split; [lia|reflexivity]|reflexivity]. }
  destruct H1 as (a & Ha & ->).
  assert (H2 : exists a, @api_value U64 false a /\ @bi_shl U64 (mkBig [255; 0; 0] 1 Positive) 64 = Ret a).
  { eexists. split; [|vm_compute; reflexivity].
    eapply (api_shl false (mkBig [255; 0; 0] 1 Positive) 64); [lia|right; left; discriminate|exact Ha|vm_compute; reflexivity]. }
  destruct H2 as (b & Hb & Eb). vm_compute in Eb. injection Eb as <-.
  assert (H3 : exists a, @api_value U64 false a /\ @from_int U64 (-3) = Ret a).
  { eexists. split; [|vm_compute; reflexivity]. apply (api_from_signed false (-3)); [split; [discriminate|reflexivity]|vm_compute; reflexivity]. }
  destruct H3 as (c & Hc & Ec). vm_compute in Ec. injection Ec as <-.
  eexists. split; [eapply api_add; [exact Hb|exact Hc|vm_compute; reflexivity]|vm_compute; reflexivity].
Qed.

Lemma hex_denotes_example : denotes 16 [45; 49; 102; 65; 48] (- 8096).
Proof.
  apply (Den_minus 16 [49; 102; 65; 48] [1; 15; 10; 0]); [discriminate|].
  repeat (constructor; [split; [reflexivity|lia]|]). constructor.
Qed.
Lemma radix_example : denotes 10 [45; 57; 48; 55] (-907) /\ Forall (fun c => alnum_value c <> Some 10) [45; 57; 48; 55].
Proof.
  split; [|repeat (constructor; [discriminate|]); constructor].
  apply (Den_minus 10 [57; 48; 55] [9; 0; 7]); [discriminate|].
  repeat (constructor; [split; [reflexivity|lia]|]). constructor.
Qed.
Lemma radix_refuted : exists s r, (forall v, ~ denotes 10 s v) /\
  @bi_from_str_radix U64 s 10 = Ret (Ok r) /\ @bi_val U64 r = 20.
Proof.
  exists [49; 97]. eexists. split; [|split; [vm_compute; reflexivity|reflexivity]].
  intros v H. inversion H as [|? vs Hne Hd| |]; subst.
  inversion Hd as [|? ? ? ? _ Hd']; subst. inversion Hd' as [|? ? ? ? [E1 E2] _]; subst. injection E1 as <-. lia.
Qed.
Lemma sub_refuted : exists a b r, @bu_from_uint U64 1 = Ret a /\ @bu_from_uint U64 2 = Ret b /\
  @bu_sub U64 a b = Ret r /\ @bi_val U64 r = -1.
Proof. eexists _, _, _. repeat split; vm_compute; reflexivity. Qed.
Lemma text_refuted : exists r, @bu_from_str_radix U64 [45; 55] 10 = Ret (Ok r) /\ @bu_try_from U64 [45; 55] = Ret (Ok r) /\ @bi_val U64 r = -7.
Proof. eexists. split; [vm_compute; reflexivity|]. split; vm_compute; reflexivity. Qed.

Section Proofs.
Context {cfg : digit_cfg}.

Lemma arith_exact x y : wf x -> wf y ->
  returns (bi_add x y) (bi_val x + bi_val y) /\
  returns (bi_sub x y) (bi_val x - bi_val y) /\
  returns (bi_mul x y) (bi_val x * bi_val y) /\
  (wf (bi_neg x) /\ bi_val (bi_neg x) = - bi_val x).
Proof.
  intros Wx Wy. split; [apply bi_add_spec; assumption|]. split; [apply bi_sub_spec; assumption|].
  split; [apply bi_mul_spec; assumption|]. apply bi_neg_spec. assumption.
Qed.

Lemma comparison x y : wf x -> wf y ->
  bi_eq x y = Ret (bi_val x =? bi_val y) /\
  bi_cmp x y = Ret (bi_val x ?= bi_val y) /\
  bi_lt x y = Ret (bi_val x <? bi_val y) /\ bi_le x y = Ret (bi_val x <=? bi_val y) /\
  bi_gt x y = Ret (bi_val y <? bi_val x) /\ bi_ge x y = Ret (bi_val y <=? bi_val x) /\
  is_zero x = Ret (bi_val x =? 0) /\ is_even x = Ret (Z.even (bi_val x)) /\ is_odd x = Ret (Z.odd (bi_val x)).
Proof.
  intros Wx Wy. rewrite bi_eq_spec, bi_cmp_spec, bi_lt_spec, bi_le_spec, bi_gt_spec, bi_ge_spec, is_zero_spec, is_even_spec, is_odd_spec by assumption.
  repeat (split; [reflexivity|]). reflexivity.
Qed.

Lemma shifts x n : wf x -> 0 <= n ->
  returns (bi_shr x n) (Z.sgn (bi_val x) * (Z.abs (bi_val x) / 2 ^ n)) /\
  (exists r, bi_shl x n = Ret r /\ bi_val r = bi_val x * 2 ^ n).
Proof.
  intros W Hn. split; [apply shr_full; assumption|]. destruct (bi_shl_spec x n W Hn) as (r & E & V & _). eauto.
Qed.

Lemma from_be_bytes bs : bytes bs ->
  (bs <> [] -> returns (bi_from_be_bytes bs Positive) (be_val bs) /\ returns (bi_from_be_bytes bs Negative) (- be_val bs)) /\
  (forall s, bi_from_be_bytes bs s = Panic <-> bs = []).
Proof.
  intros Hb. split.
  - intros Hne. split; [apply (bi_from_be_bytes_spec bs Positive)|apply (bi_from_be_bytes_spec bs Negative)]; assumption.
  - intros s. split; [|intros ->; reflexivity]. intros H. destruct bs as [|b bs]; [reflexivity|].
    destruct (bi_from_be_bytes_spec (cfg:=cfg) (b :: bs) s ltac:(discriminate) Hb) as (r & E & _). congruence.
Qed.

Lemma hex_print x : wf x ->
  exists ns r, let text := (if bi_val x <? 0 then [45] else []) ++ map lower_hex_digit ns in
    bi_to_lower_hex x = Ret text /\
    Forall (fun n => 0 <= n < 16) ns /\ Nat.even (length ns) = true /\ positional 16 ns = Z.abs (bi_val x) /\
    bi_from_hex text = Ret (Ok r) /\ wf r /\ bi_val r = bi_val x.
Proof.
  intros W. destruct (bi_to_lower_hex_spec x W) as (bs & Hb & _ & Hv & E).
  destruct (hex_roundtrip_bigint x W) as (t & r & E' & He & Er & Wr & Vr).
  rewrite E in E'. injection E' as <-. rewrite bytes_to_lower_hex_spec in * by assumption.
  exists (nibbles bs), r. cbn zeta. split; [assumption|]. split; [apply nibbles_range; assumption|].
  split; [rewrite nibbles_length; apply even_double|]. split; [rewrite nibbles_positional; assumption|]. auto.
Qed.

Lemma radix_accepts s radix v : 2 <= radix <= 36 -> denotes radix s v ->
  exists r, bi_from_str_radix s radix = Ret (Ok r) /\ wf r /\ bi_val r = v.
Proof. intros Hr Hd. apply bi_from_str_radix_ok; [left; assumption|]. apply denotes_accepts. assumption. Qed.
Lemma radix_no_panic s radix : 2 <= radix <= 36 -> exists res, bi_from_str_radix s radix = Ret res.
Proof.
  intros Hr. destruct (accepts_dec radix s) as [[v A]|A].
  - destruct (bi_from_str_radix_ok s radix v (or_introl Hr) A) as (r' & E & W & _). eauto.
  - rewrite (bi_from_str_radix_err s radix (or_introl Hr) A). eauto.
Qed.

Lemma sign_neg_val x : wf x -> is_sign_negative x = false -> 0 <= bi_val x.
Proof.
  intros W H. destruct (wf_inv x W) as (a & Ea & _ & Da & Va & _). pose proof (val_nonneg a Da).
  unfold is_sign_negative in H. destruct (sign x); cbn in *; [lia|discriminate].
Qed.

Lemma nonneg_partial :
  (forall n r, 0 <= n < 2 ^ 128 -> bu_from_uint n = Ret r -> bi_val r = n) /\
  (forall bs r, bytes bs -> bu_from_be_bytes bs = Ret r -> 0 <= bi_val r) /\
  (forall x r, wf x -> bu_from_bigint x = Some r -> r = x /\ 0 <= bi_val r) /\
  (forall s r, bytes s -> bu_from_hex s = Ret (Ok r) -> 0 <= bi_val r) /\
  (forall x y r, wf x -> wf y -> 0 <= bi_val x -> 0 <= bi_val y -> bu_add x y = Ret r -> 0 <= bi_val r) /\
  (forall x y r, wf x -> wf y -> 0 <= bi_val x -> 0 <= bi_val y -> bu_mul x y = Ret r -> 0 <= bi_val r) /\
  (forall x n r, wf x -> 0 <= n -> 0 <= bi_val x -> bu_shr x n = Ret r -> 0 <= bi_val r) /\
  (forall x y r, wf x -> wf y -> bi_val y <= bi_val x -> bu_sub x y = Ret r -> 0 <= bi_val r).
Proof.
  split; [|split; [|split; [|split; [|split; [|split; [|split]]]]]].
  - intros n r Hn H. destruct (from_u128_spec (cfg:=cfg) n Positive Hn) as (r' & E & _ & V).
    unfold bu_from_uint in H. assert (r' = r) by congruence. subst. exact V.
  - intros bs r Hb H. unfold bu_from_be_bytes in H. destruct bs as [|b bs]; [discriminate|].
    destruct (bi_from_be_bytes_spec (cfg:=cfg) (b :: bs) Positive ltac:(discriminate) Hb) as (r' & E & _ & V).
    assert (r' = r) by congruence. subst. rewrite V. cbn [sgz]. apply be_val_bound. assumption.
  - intros x r W H. unfold bu_from_bigint in H. destruct (is_sign_negative x) eqn:E; [discriminate|].
    injection H as <-. split; [reflexivity|]. apply sign_neg_val; assumption.
  - intros s r Hb H. unfold bu_from_hex in H. pose proof (bi_from_hex_spec s Hb) as HH.
    destruct HH as [v r' _ _ W V|e _]; cbn [rbind] in H; [|discriminate].
    destruct (is_sign_negative r') eqn:En; [discriminate|]. injection H as <-. apply sign_neg_val; assumption.
  - intros x y r Wx Wy Hx Hy H. destruct (bi_add_spec x y Wx Wy) as (r' & E & _ & V). unfold bu_add in H.
    assert (r' = r) by congruence. subst. lia.
  - intros x y r Wx Wy Hx Hy H. destruct (bi_mul_spec x y Wx Wy) as (r' & E & _ & V). unfold bu_mul in H.
    assert (r' = r) by congruence. subst. rewrite V. apply Z.mul_nonneg_nonneg; assumption.
  - intros x n r Wx Hn Hx H. destruct (shr_full x n Wx Hn) as (r' & E & _ & V). unfold bu_shr in H.
    assert (r' = r) by congruence. subst. rewrite V. apply Z.mul_nonneg_nonneg; [lia|]. apply Z.div_pos; [lia|].
    apply Z.pow_pos_nonneg; lia.
  - intros x y r Wx Wy Hx H. destruct (bi_sub_spec x y Wx Wy) as (r' & E & _ & V). unfold bu_sub in H.
    assert (r' = r) by congruence. subst. lia.
Qed.

Lemma from_primitive :
  (forall n, 0 <= n < 2 ^ 128 -> returns (from_uint n) n) /\
  (forall i, - 2 ^ 127 <= i < 2 ^ 127 -> returns (from_int i) i).
Proof. split; [intros n H; apply (from_u128_spec n Positive H)|intros i H; apply from_i128_spec; exact H]. Qed.

Lemma display_roundtrip x : wf x -> 0 <= bi_val x ->
  exists t r, bu_display x = Ret t /\ bu_try_from t = Ret (Ok r) /\ wf r /\ bi_val r = bi_val x.
Proof.
  intros W Hx. destruct (hex_roundtrip_bigint x W) as (t & r & E & _ & Er & Wr & Vr).
  exists (48 :: 120 :: t), r. unfold bu_display, bi_display. rewrite E. cbn [obind]. split; [reflexivity|].
  cbn [bu_try_from]. unfold bu_from_hex. rewrite Er. cbn [rbind].
  assert (Hs : is_sign_negative r = false).
  { destruct (bi_to_lower_hex_spec x W) as (bs & Hb & Hh & Hv & E2). destruct (Z.ltb_spec (bi_val x) 0); [lia|].
    rewrite E in E2. injection E2 as ->. cbn [app] in Er.
    assert (Hne : bytes_to_lower_hex bs <> []).
    { rewrite bytes_to_lower_hex_spec by assumption. destruct bs; [|discriminate]. destruct Hh as [?|[? _]]; congruence. }
    assert (Hd : digits_of 16 (bytes_to_lower_hex bs) (nibbles bs)).
    { rewrite bytes_to_lower_hex_spec by assumption. apply digits_of_lower, nibbles_range, Hb. }
    unfold bi_from_hex in Er. rewrite (split_sign_plain 16 _ _ Hne Hd) in Er.
    destruct (bytes_to_lower_hex bs) as [|c1 s1] eqn:EB; [congruence|]. rewrite <- EB in Er. rewrite hex_roundtrip in Er by assumption.
    unfold bi_from_be_bytes in Er. destruct (len_digits (be_bytes_to_le_digits bs)); cbn [obind] in Er; try discriminate.
    injection Er as <-. reflexivity. }
  rewrite Hs. split; [reflexivity|]. auto.
Qed.

End Proofs.

Lemma lower_hex bs : bytes bs ->
  bytes_to_lower_hex bs = flat_map (fun b => [lower_hex_digit (b / 16); lower_hex_digit (b mod 16)]) bs.
Proof.
  intros H. rewrite bytes_to_lower_hex_spec by assumption. clear H. induction bs as [|b bs IH]; [reflexivity|].
  cbn [nibbles map flat_map app]. f_equal. f_equal. exact IH.
Qed.

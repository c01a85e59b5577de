(** Division: the one-digit loop and Knuth's Algorithm D. *)

From Verif Require Import Base M_BigInt S_BigInt P_BigInt1.
From Coq Require Import ZifyBool ZifyNat.
Open Scope Z_scope.
Ltac Zify.zify_post_hook ::= Z.div_mod_to_equations.

Lemma lor_add_disjoint a b d : 0 <= d -> 0 <= b < 2 ^ d -> a mod 2 ^ d = 0 -> Z.lor a b = a + b.
Proof.
  intros Hd Hb Ha.
  assert (L : Z.land a b = 0).
  { apply Z.bits_inj'. intros n Hn. rewrite Z.land_spec, Z.bits_0.
    destruct (Z.lt_ge_cases n d) as [H|H].
    - replace (Z.testbit a n) with false; [reflexivity|].
      rewrite <- (Z.mod_pow2_bits_low a d n) by lia. rewrite Ha. symmetry. apply Z.bits_0.
    - replace (Z.testbit b n) with false; [apply andb_false_r|].
      destruct (Z.eq_dec b 0) as [->|Hb0]; [symmetry; apply Z.bits_0|].
      symmetry. apply Z.bits_above_log2; [lia|].
      apply Z.log2_lt_pow2; [lia|]. apply Z.lt_le_trans with (2 ^ d); [lia|].
      apply Z.pow_le_mono_r; lia. }
  pose proof (Z.add_nocarry_lxor a b L) as E.
  rewrite E. symmetry. rewrite Z.lxor_lor by exact L. reflexivity.
Qed.

Section Proofs.
Context {cfg : digit_cfg}.
Local Notation BITS := (digit_bits cfg).
Local Notation B := (digit_base cfg).
Local Notation val := (@digits_val cfg).

Lemma lor_base_add h l : 0 <= l < B -> Z.lor (h * B) l = h * B + l.
Proof.
  intros H. pose proof (bits_pos cfg). rewrite base_pow in *.
  apply (lor_add_disjoint _ _ BITS); [lia|lia|]. apply Z.mod_mul. lia.
Qed.

(** One-digit division *)
Lemma div1_loop_spec l v r :
  Forall digit l -> 0 < v < B -> 0 <= r < v ->
  exists qs r', div1_loop l v r = Ret (qs, r') /\ length qs = length l /\ Forall digit qs /\
     0 <= r' < v /\ r * pw (cfg:=cfg) (length l) + val (rev l) = val (rev qs) * v + r'.
Proof.
  intros Hl Hv; revert r; induction Hl as [|x l Hx Hl IH]; intros r Hr.
  - exists [], r. cbn [div1_loop length rev digits_val]. rewrite pw_0. repeat split; auto; lia.
  - cbn [div1_loop]. unfold digit in Hx. rewrite lor_base_add by lia.
    assert (T : 0 <= r * B + x < B * B) by nia.
    rewrite ck_double_ret by assumption. cbn [obind].
    set (t := r * B + x) in *.
    assert (Hr' : 0 <= t mod v < v) by (apply Z.mod_pos_bound; lia).
    destruct (IH (t mod v) Hr') as (qs & r' & -> & L & D & Hr'' & E). cbn [obind].
    assert (Hq : 0 <= t / v < B).
    { split; [apply Z.div_pos; lia|]. apply Z.div_lt_upper_bound; [lia|]. subst t. nia. }
    rewrite (Z.mod_small (t / v)) by assumption.
    exists (t / v :: qs), r'. cbn [length rev]. rewrite !val_app, !val_single, !rev_length, pw_S, L.
    repeat split; auto; try lia; try (constructor; assumption).
    assert (Et : t = v * (t / v) + t mod v) by (apply Z.div_mod; lia).
    assert (E3 : r * (B * pw (length l)) + (val (rev l) + pw (length l) * x) =
                 t * pw (cfg:=cfg) (length l) + val (rev l)) by (subst t; ring).
    rewrite E3. clear E3. generalize dependent (t mod v). generalize dependent (t / v). intros tq Hq tr Hr2 E Et.
    rewrite Et. nia.
Qed.

(** The quotient estimate (Knuth 4.3.1 Theorem B and exercises). *)
Ltac Zify.zify_post_hook ::= idtac.

(** any x with x * V2 > U3 is > q *)
Lemma est_lower (U3 V2 P U V q x : Z) :
  0 < P -> 0 <= q -> V2 * P <= V -> U < (U3 + 1) * P -> q * V <= U ->
  U3 < x * V2 -> 0 < V2 -> q < x.
Proof.
  intros HP Hq HV HU HqU Hx HV2. destruct (Z.lt_ge_cases q x) as [|G]; [assumption|exfalso].
  assert (H1 : x * V2 <= q * V2) by (apply Z.mul_le_mono_nonneg_r; lia).
  assert (H2 : q * (V2 * P) <= q * V) by (apply Z.mul_le_mono_nonneg_l; lia).
  assert (H3 : (U3 + 1) * P <= (q * V2) * P) by (apply Z.mul_le_mono_nonneg_r; lia).
  rewrite Z.mul_assoc in H2. lia.
Qed.

(** x < b with x * V2 <= U3 is <= q + 1 *)
Lemma est_upper (b U3 V2 P U V q x : Z) :
  0 < P -> 0 <= q -> V < (V2 + 1) * P -> V2 * P <= V -> U3 * P <= U -> U < (q + 1) * V ->
  x <= b -> b <= V2 -> x * V2 <= U3 -> x <= q + 1.
Proof.
  intros HP Hq HV HV' HU HqU Hx1 Hb Hx2. destruct (Z.le_gt_cases x (q + 1)) as [|G]; [assumption|exfalso].
  assert (H1 : x * V2 * P <= U3 * P) by (apply Z.mul_le_mono_nonneg_r; lia).
  assert (H3 : x * P <= V2 * P) by (apply Z.mul_le_mono_nonneg_r; lia).
  assert (H4 : x * (V - P) <= x * (V2 * P)) by (apply Z.mul_le_mono_nonneg_l; lia).
  assert (H5 : 0 < V) by (assert (0 < V2 * P) by (apply Z.mul_pos_pos; lia); lia).
  assert (H6 : (q + 2) * V <= x * V) by (apply Z.mul_le_mono_nonneg_r; lia).
  rewrite Z.mul_assoc in H4. rewrite Z.mul_sub_distr_l in H4. lia.
Qed.

(** Theorem B *)
Lemma est_thmB (b u v0 X U V q x : Z) :
  0 < X -> 0 <= q -> V < (v0 + 1) * X -> u * X <= U -> U < (q + 1) * V -> 0 < V ->
  b <= 2 * v0 -> x <= b - 1 -> x * v0 <= u -> x <= q + 2.
Proof.
  intros HX Hq HV HU HqU HVp Hb Hx1 Hx2. destruct (Z.le_gt_cases x (q + 2)) as [|G]; [assumption|exfalso].
  assert (E1 : x * v0 * X <= u * X) by (apply Z.mul_le_mono_nonneg_r; lia).
  assert (E3 : (x - 2) * V <= (x - 2) * ((v0 + 1) * X)) by (apply Z.mul_le_mono_nonneg_l; lia).
  assert (E4 : (q + 1) * V <= (x - 2) * V) by (apply Z.mul_le_mono_nonneg_r; lia).
  assert (E5 : x * v0 * X < ((x - 2) * (v0 + 1)) * X) by lia.
  apply Z.mul_lt_mono_pos_r in E5; [|assumption]. lia.
Qed.

Lemma dd_mul b x y : 0 <= x < b -> 0 <= y < b -> 0 <= x * y < b * b.
Proof. nia. Qed.
Lemma dd_add b x y : 0 <= x < b -> 0 <= y < b -> 0 <= x * b + y < b * b.
Proof. nia. Qed.

Lemma estimate_q_spec u0 u1 u2 v0 v1 U V P :
  digit u0 -> digit u1 -> digit u2 -> digit v0 -> digit v1 ->
  B <= 2 * v0 -> u0 <= v0 -> 0 < P ->
  (v0 * B + v1) * P <= V < (v0 * B + v1 + 1) * P ->
  (u0 * B * B + u1 * B + u2) * P <= U < (u0 * B * B + u1 * B + u2 + 1) * P ->
  U < B * V ->
  exists q, estimate_q u0 u1 u2 v0 v1 = Ret q /\ U / V <= q <= U / V + 1 /\ 0 <= q < B.
Proof.
  intros Hu0 Hu1 Hu2 Hv0 Hv1 Hhalf Hu0v0 HP HV HU HUV. unfold digit in *.
  pose proof (base_ge cfg) as HB.
  assert (HBB : 2 * B <= B * B) by (apply Z.mul_le_mono_nonneg_r; lia).
  assert (HU3 : 0 <= u0 * B * B + u1 * B + u2) by nia.
  assert (HV2 : B <= v0 * B + v1) by nia.
  assert (HVpos : 0 < V) by nia.
  assert (HUpos : 0 <= U) by nia.
  assert (Hq : (U / V) * V <= U < (U / V + 1) * V).
  { pose proof (Z.mul_div_le U V HVpos). pose proof (Z.mul_succ_div_gt U V HVpos). lia. }
  assert (Hq0 : 0 <= U / V) by (apply Z.div_pos; lia).
  assert (HqB : U / V < B) by (apply Z.div_lt_upper_bound; lia).
  generalize dependent (U / V). intros q Hq Hq0 HqB.
  assert (A1 : forall x, u0 * B * B + u1 * B + u2 < x * (v0 * B + v1) -> q < x).
  { intros x Hx. apply (est_lower (u0 * B * B + u1 * B + u2) (v0 * B + v1) P U V); lia. }
  assert (A2 : forall x, x <= B - 1 -> x * (v0 * B + v1) <= u0 * B * B + u1 * B + u2 -> x <= q + 1).
  { intros x Hx1 Hx2. apply (est_upper B (u0 * B * B + u1 * B + u2) (v0 * B + v1) P U V); lia. }
  assert (A3 : forall x, x <= B - 1 -> x * v0 <= u0 * B + u1 -> x <= q + 2).
  { intros x Hx1 Hx2. apply (est_thmB B (u0 * B + u1) v0 (B * P) U V); try assumption; try lia.
    assert ((v0 * B + v1 + 1) * P <= (v0 * B + B) * P) by (apply Z.mul_le_mono_nonneg_r; lia). lia. }
  clear HU HV HUV HVpos HUpos Hq HP.
  (* the test on q_hat, r_hat *)
  assert (Core : forall qh rh, 0 <= qh <= B - 1 -> 0 <= rh -> qh * v0 + rh = u0 * B + u1 ->
      q <= qh -> qh <= q + 2 ->
      rh <= B - 1 ->
      exists q', (lhs <- ck_double (qh * v1) ;;
         debug_assert! rh <=? B - 1 ;;
         rhs <- ck_double (rh * B + u2) ;;
         if rhs <? lhs then
           q_hat1 <- ck_double (qh - 1) ;;
           s <- ck_double (rh + v0) ;;
           if s <=? B - 1 then
             lhs1 <- ck_double (lhs - v1) ;;
             rhs1 <- ck_double (rhs + v0 * B) ;;
             if rhs1 <? lhs1 then ck_double (q_hat1 - 1) else Ret q_hat1
           else Ret q_hat1
         else Ret qh) = Ret q' /\ q <= q' <= q + 1 /\ 0 <= q' < B).
  { intros qh rh H1 H2 H3 H4 H5 H6.
    assert (M : 0 <= qh * v1 < B * B) by (apply dd_mul; lia).
    rewrite ck_double_ret by assumption. cbn [obind].
    destruct (Z.leb_spec rh (B - 1)); [|lia]. cbn [oassert dassert].
    assert (R : 0 <= rh * B + u2 < B * B) by (apply dd_add; lia).
    rewrite (ck_double_ret (rh * B + u2)) by assumption. cbn [obind].
    assert (T0 : (qh * v0 + rh) * B = (u0 * B + u1) * B) by (rewrite H3; reflexivity).
    assert (T1 : qh * (v0 * B + v1) - (u0 * B * B + u1 * B + u2) = qh * v1 - (rh * B + u2)) by lia.
    destruct (Z.ltb_spec (rh * B + u2) (qh * v1)) as [L|L].
    - assert (q < qh) by (apply A1; lia).
      rewrite (ck_double_ret (qh - 1)) by lia. cbn [obind].
      rewrite (ck_double_ret (rh + v0)) by lia. cbn [obind].
      destruct (Z.leb_spec (rh + v0) (B - 1)) as [S|S].
      + assert (qh * v1 - v1 = (qh - 1) * v1) by lia.
        assert (0 <= (qh - 1) * v1) by (apply Z.mul_nonneg_nonneg; lia).
        rewrite (ck_double_ret (qh * v1 - v1)) by lia. cbn [obind].
        assert ((rh + v0) * B <= (B - 1) * B) by (apply Z.mul_le_mono_nonneg_r; lia).
        assert (0 <= v0 * B) by (apply Z.mul_nonneg_nonneg; lia).
        rewrite (ck_double_ret (rh * B + u2 + v0 * B)) by lia. cbn [obind].
        destruct (Z.ltb_spec (rh * B + u2 + v0 * B) (qh * v1 - v1)) as [L2|L2].
        * assert (q < qh - 1) by (apply A1; lia).
          rewrite ck_double_ret by lia. eexists; split; [reflexivity|]. lia.
        * assert (qh - 1 <= q + 1) by (apply A2; lia).
          eexists; split; [reflexivity|]. lia.
      + assert (qh - 1 <= q + 1) by lia. eexists; split; [reflexivity|]. lia.
    - assert (qh <= q + 1) by (apply A2; lia).
      eexists; split; [reflexivity|]. lia. }
  unfold estimate_q.
  destruct (Z.eqb_spec u0 v0) as [E|E].
  - rewrite (ck_double_ret (u1 + v0)) by lia. cbn [obind].
    assert (q <= B - 1) by lia.
    assert (B - 1 <= q + 2) by (apply A3; [lia|subst u0; lia]).
    destruct (Z.leb_spec (u1 + v0) (B - 1)) as [L|L].
    + cbn [obind]. unfold unwrap at 1. cbn [obind]. apply Core; try lia.
    + cbn [obind]. exists (B - 1). split; [reflexivity|].
      assert (B - 1 <= q + 1); [|lia].
      apply A2; [lia|]. subst u0.
      assert ((B - 1) * v1 <= (B - 1) * B) by (apply Z.mul_le_mono_nonneg_l; lia).
      assert (B * B <= (u1 + v0) * B) by (apply Z.mul_le_mono_nonneg_r; lia). lia.
  - rewrite (Z.mod_small (u0 * B)) by (pose proof (dd_add B u0 0); lia).
    rewrite lor_base_add by lia.
    assert (Hv : (v0 =? 0) = false) by lia. rewrite Hv. cbn [negb oassert dassert obind]. unfold unwrap at 1. cbn [obind].
    assert (Et : u0 * B + u1 = v0 * ((u0 * B + u1) / v0) + (u0 * B + u1) mod v0) by (apply Z.div_mod; lia).
    assert (Hm : 0 <= (u0 * B + u1) mod v0 < v0) by (apply Z.mod_pos_bound; lia).
    assert (Hd : 0 <= (u0 * B + u1) / v0 < B).
    { assert (0 <= u0 * B) by (apply Z.mul_nonneg_nonneg; lia).
      assert ((u0 + 1) * B <= v0 * B) by (apply Z.mul_le_mono_nonneg_r; lia).
      split; [apply Z.div_pos; lia|]. apply Z.div_lt_upper_bound; lia. }
    generalize dependent ((u0 * B + u1) / v0). intros qh Et Hd.
    generalize dependent ((u0 * B + u1) mod v0). intros rh Et Hm.
    apply Core; try lia.
    destruct (Z.le_gt_cases q qh) as [|G]; [assumption|exfalso].
      assert (q < q); [|lia]. apply A1.
      assert ((qh + 1) * v0 <= q * v0) by (apply Z.mul_le_mono_nonneg_r; lia).
      assert (u0 * B + u1 + 1 <= q * v0) by lia.
      assert ((u0 * B + u1 + 1) * B <= q * v0 * B) by (apply Z.mul_le_mono_nonneg_r; lia).
      assert (0 <= q * v1) by (apply Z.mul_nonneg_nonneg; lia). lia.
Qed.

(** Normalisation *)
Lemma leading_zeros_spec x :
  0 < x < B ->
  0 <= leading_zeros x < BITS /\ x * 2 ^ leading_zeros x < B /\ B <= 2 * (x * 2 ^ leading_zeros x).
Proof.
  intros Hx. unfold leading_zeros. destruct (Z.eqb_spec x 0); [lia|].
  pose proof (Z.log2_spec x ltac:(lia)) as [L1 L2]. pose proof (Z.log2_nonneg x).
  assert (Z.log2 x < BITS) by (apply Z.log2_lt_pow2; [lia|]; rewrite <- base_pow; lia).
  set (k := BITS - 1 - Z.log2 x).
  assert (EB : B = 2 ^ Z.succ (Z.log2 x) * 2 ^ k).
  { rewrite base_pow, <- Z.pow_add_r by lia. f_equal. lia. }
  assert (0 < 2 ^ k) by (apply Z.pow_pos_nonneg; lia).
  rewrite Z.pow_succ_r in * by lia. split; [lia|]. rewrite EB. split.
  - apply Z.mul_lt_mono_pos_r; assumption.
  - assert (2 ^ Z.log2 x * 2 ^ k <= x * 2 ^ k) by (apply Z.mul_le_mono_nonneg_r; lia). lia.
Qed.

Lemma split_base d : 0 <= d < BITS -> 0 < 2 ^ d /\ 0 < 2 ^ (BITS - d) /\ 2 ^ d * 2 ^ (BITS - d) = B.
Proof.
  intros H. repeat split; try (apply Z.pow_pos_nonneg; lia).
  rewrite base_pow, <- Z.pow_add_r by lia. f_equal. lia.
Qed.

Lemma shl_digit_ret x n : 0 <= n < BITS -> shl_digit x n = Ret ((x * 2 ^ n) mod B).
Proof. intros H. unfold shl_digit. destruct (Z.leb_spec 0 n); [|lia]. destruct (Z.ltb_spec n BITS); [|lia]. reflexivity. Qed.
Lemma shr_digit_ret x n : 0 <= n < BITS -> shr_digit x n = Ret (x / 2 ^ n).
Proof. intros H. unfold shr_digit. destruct (Z.leb_spec 0 n); [|lia]. destruct (Z.ltb_spec n BITS); [|lia]. reflexivity. Qed.

(** x << d | y >> (BITS - d) *)
Lemma shl_mod x d : 0 <= d < BITS -> (x * 2 ^ d) mod B = 2 ^ d * (x mod 2 ^ (BITS - d)).
Proof.
  intros H. destruct (split_base d H) as (H1 & H2 & <-).
  rewrite Z.mul_comm, Z.mul_mod_distr_l by lia. reflexivity.
Qed.
Lemma shr_small y d : 0 <= d < BITS -> digit y -> 0 <= y / 2 ^ (BITS - d) < 2 ^ d.
Proof.
  intros H Hy. destruct (split_base d H) as (H1 & H2 & E). unfold digit in Hy.
  split; [apply Z.div_pos; lia|]. apply Z.div_lt_upper_bound; lia.
Qed.
Lemma lor_shift x y d :
  0 <= d < BITS -> digit y ->
  Z.lor ((x * 2 ^ d) mod B) (y / 2 ^ (BITS - d)) = 2 ^ d * (x mod 2 ^ (BITS - d)) + y / 2 ^ (BITS - d).
Proof.
  intros H Hy. rewrite shl_mod by assumption.
  apply (lor_add_disjoint _ _ d); [lia|apply shr_small; assumption|].
  destruct (split_base d H) as (H1 & _ & _). rewrite Z.mul_comm. apply Z.mod_mul. lia.
Qed.
Lemma shift_digit x d t :
  0 <= d < BITS -> 0 <= t < 2 ^ d -> digit (2 ^ d * (x mod 2 ^ (BITS - d)) + t).
Proof.
  intros H Ht. destruct (split_base d H) as (H1 & H2 & E). unfold digit. rewrite <- E.
  pose proof (Z.mod_pos_bound x (2 ^ (BITS - d)) H2) as M.
  assert (2 ^ d * (x mod 2 ^ (BITS - d) + 1) <= 2 ^ d * 2 ^ (BITS - d)) by (apply Z.mul_le_mono_nonneg_l; lia).
  assert (0 <= 2 ^ d * (x mod 2 ^ (BITS - d))) by (apply Z.mul_nonneg_nonneg; lia). lia.
Qed.

(** the digit following the used ones *)
Definition nextd (rest : list Z) (d : Z) : Z :=
  match rest with x :: _ => x / 2 ^ (BITS - d) | [] => 0 end.

Lemma nextd_bound rest d : 0 <= d < BITS -> Forall digit rest ->
  0 <= nextd rest d < 2 ^ d /\
  nextd rest d * pw (cfg:=cfg) (length rest) <= 2 ^ d * val (rev rest) <
  (nextd rest d + 1) * pw (cfg:=cfg) (length rest).
Proof.
  intros H Hr. destruct (split_base d H) as (H1 & H2 & E).
  destruct Hr as [|x rest Hx Hr]; cbn [nextd].
  - cbn [length rev digits_val]. rewrite pw_0. lia.
  - split; [apply shr_small; assumption|].
    cbn [rev length]. rewrite val_app, val_single, rev_length, pw_S.
    pose proof (val_bound (rev rest) (Forall_rev Hr)) as V. rewrite rev_length in V.
    pose proof (pw_pos (cfg:=cfg) (length rest)) as Hp.
    set (p := pw (length rest)) in *. set (e := 2 ^ (BITS - d)) in *. set (D := 2 ^ d) in *.
    set (v := val (rev rest)) in *. rewrite <- E.
    pose proof (Z.mul_div_le x e H2). pose proof (Z.mul_succ_div_gt x e H2).
    generalize dependent (x / e). intros t T1 T2. clearbody p e D v. clear E.
    assert (D * (e * t * p) <= D * (x * p)) by (apply Z.mul_le_mono_nonneg_l; [lia|apply Z.mul_le_mono_nonneg_r; lia]).
    assert (D * ((x + 1) * p) <= D * (e * Z.succ t * p)) by (apply Z.mul_le_mono_nonneg_l; [lia|apply Z.mul_le_mono_nonneg_r; lia]).
    assert (0 <= D * v) by (apply Z.mul_nonneg_nonneg; lia).
    assert (D * v < D * p) by (apply Z.mul_lt_mono_pos_l; lia). lia.
Qed.

Lemma normalize_dividend_spec z d0 d1 d2 rest d :
  0 <= d < BITS -> Forall digit (d0 :: d1 :: d2 :: rest) -> d0 * 2 ^ d < B ->
  exists u0 u1 u2, normalize_dividend (z :: d0 :: d1 :: d2 :: rest) d (BITS - d) = Ret (u0, u1, u2) /\
    digit u0 /\ digit u1 /\ digit u2 /\
    (u0 * B * B + u1 * B + u2) * pw (cfg:=cfg) (length rest)
      <= 2 ^ d * val (rev (d0 :: d1 :: d2 :: rest)) <
    (u0 * B * B + u1 * B + u2 + 1) * pw (cfg:=cfg) (length rest).
Proof.
  intros Hd HF H0. inversion HF as [|? ? D0 HF1]; subst. inversion HF1 as [|? ? D1 HF2]; subst.
  inversion HF2 as [|? ? D2 HR]; subst. clear HF HF1 HF2.
  destruct (split_base d Hd) as (P1 & P2 & E).
  destruct (nextd_bound rest d Hd HR) as (N1 & N2).
  set (e := 2 ^ (BITS - d)) in *.
  exists (2 ^ d * (d0 mod e) + d1 / e), (2 ^ d * (d1 mod e) + d2 / e), (2 ^ d * (d2 mod e) + nextd rest d).
  assert (Hd0 : d0 mod e = d0).
  { apply Z.mod_small. unfold digit in D0. split; [lia|]. apply (Z.mul_lt_mono_pos_l (2 ^ d)); lia. }
  split; [|split; [|split; [|split]]].
  - unfold normalize_dividend. destruct (Z.eqb_spec d 0) as [Ed|Ed].
    + subst d. unfold digit in *. change (2 ^ 0) with 1 in *.
      assert (e = B) by lia. rewrite H in *.
      rewrite (Z.mod_small d1), (Z.mod_small d2), (Z.div_small d1), (Z.div_small d2), Hd0 by lia.
      replace (nextd rest 0) with 0 by lia. do 2 f_equal; [f_equal|]; lia.
    + rewrite !shl_digit_ret by lia. rewrite !(shr_digit_ret _ (BITS - d)) by lia. cbn [obind].
      unfold e. rewrite !lor_shift by assumption.
      destruct rest as [|d3 rest].
      * rewrite shl_mod by assumption. do 2 f_equal. cbn [nextd]. lia.
      * inversion HR; subst. rewrite shr_digit_ret by lia. cbn [obind]. rewrite lor_shift by assumption. reflexivity.
  - apply shift_digit; [assumption|apply shr_small; assumption].
  - apply shift_digit; [assumption|apply shr_small; assumption].
  - apply shift_digit; assumption.
  - rewrite Hd0. cbn [rev]. rewrite <- !app_assoc. cbn [app].
    rewrite val_app, rev_length. cbn [digits_val].
    set (p := pw (length rest)) in *.
    assert (ES : (2 ^ d * d0 + d1 / e) * B * B + (2 ^ d * (d1 mod e) + d2 / e) * B + (2 ^ d * (d2 mod e) + nextd rest d)
       = 2 ^ d * (d0 * B * B + d1 * B + d2) + nextd rest d).
    { rewrite (Z.div_mod d1 e) at 3 by lia. rewrite (Z.div_mod d2 e) at 3 by lia. rewrite <- E. ring. }
    rewrite ES. clear ES. lia.
Qed.

Lemma index_rev_nth (l r : list Z) i :
  rev l = r -> (i < length l)%nat -> index l (length l - 1 - i) = Ret (nth i r 0).
Proof.
  intros <- Hi. unfold index. rewrite rev_nth by assumption.
  rewrite (nth_error_nth' l 0) by lia. do 2 f_equal. lia.
Qed.

Lemma normalize_divisor_spec v :
  canon v -> Forall digit v -> (2 <= length v)%nat ->
  exists v0 v1 d, normalize_divisor v = Ret (v0, v1, d, BITS - d) /\
    0 <= d < BITS /\ digit v0 /\ digit v1 /\ B <= 2 * v0 /\
    2 ^ d * val v < pw (cfg:=cfg) (length v) /\
    (v0 * B + v1) * pw (cfg:=cfg) (length v - 2) <= 2 ^ d * val v < (v0 * B + v1 + 1) * pw (cfg:=cfg) (length v - 2).
Proof.
  intros Hc Hv Hl.
  assert (Er : exists x0 x1 rest, rev v = x0 :: x1 :: rest /\ length v = (length rest + 2)%nat).
  { pose proof (rev_length v) as L. destruct (rev v) as [|x0 [|x1 rest]] eqn:E; cbn in L; try lia.
    exists x0, x1, rest. split; [reflexivity|lia]. }
  destruct Er as (x0 & x1 & rest & Er & Ll).
  assert (Ev : v = rev rest ++ [x1; x0]).
  { rewrite <- (rev_involutive v), Er. cbn [rev]. rewrite <- app_assoc. reflexivity. }
  assert (HF : Forall digit (x0 :: x1 :: rest)) by (rewrite <- Er; apply Forall_rev; assumption).
  inversion HF as [|? ? D0 HF1]; subst x l. inversion HF1 as [|? ? D1 HR]; subst x l.
  assert (Hx0 : 0 < x0 < B).
  { unfold digit in D0. destruct Hc as [_ [Hc|Hc]]; [lia|].
    rewrite Ev in Hc. change [x1; x0] with ([x1] ++ [x0]) in Hc. rewrite app_assoc, last_app_single in Hc. lia. }
  destruct (leading_zeros_spec x0 Hx0) as (Hd & Hx1 & Hx2).
  unfold normalize_divisor.
  pose proof (index_rev_nth v _ 0 Er ltac:(lia)) as I0. rewrite Nat.sub_0_r in I0.
  pose proof (index_rev_nth v _ 1 Er ltac:(lia)) as I1.
  replace (length v - 1 - 1)%nat with (length v - 2)%nat in I1 by lia. cbn [nth] in I0, I1.
  rewrite I0, I1. cbn [obind].
  set (d := leading_zeros x0) in *. destruct (split_base d Hd) as (P1 & P2 & E).
  destruct (nextd_bound rest d Hd HR) as (N1 & N2).
  set (e := 2 ^ (BITS - d)) in *.
  assert (Hm : x0 mod e = x0).
  { apply Z.mod_small. split; [lia|]. apply (Z.mul_lt_mono_pos_l (2 ^ d)); lia. }
  exists (2 ^ d * (x0 mod e) + x1 / e), (2 ^ d * (x1 mod e) + nextd rest d), d.
  split; [|split; [|split; [|split; [|split; [|split]]]]].
  - destruct (Z.ltb_spec 0 d) as [Ed|Ed].
    + rewrite !shl_digit_ret by lia. rewrite shr_digit_ret by lia. cbn [obind].
      unfold e. rewrite lor_shift by assumption.
      destruct rest as [|x2 rest].
      * destruct (Nat.ltb_spec 2 (length v)); [cbn in Ll; lia|].
        rewrite shl_mod by assumption. do 4 f_equal. cbn [nextd]. lia.
      * destruct (Nat.ltb_spec 2 (length v)); [|cbn in Ll; lia].
        pose proof (index_rev_nth v _ 2 Er ltac:(cbn in Ll; lia)) as I2.
        replace (length v - 1 - 2)%nat with (length v - 3)%nat in I2 by lia. cbn [nth] in I2.
        inversion HR; subst. rewrite I2. cbn [obind]. rewrite shr_digit_ret by lia. cbn [obind].
        rewrite lor_shift by assumption. reflexivity.
    + assert (Z0 : d = 0) by lia. clearbody d. subst d. unfold digit in *. change (2 ^ 0) with 1 in *.
      assert (Ee : e = B) by lia. rewrite Ee in *.
      rewrite (Z.mod_small x1), (Z.div_small x1), Hm by lia.
      replace (nextd rest 0) with 0 by lia. do 4 f_equal; lia.
  - assumption.
  - apply shift_digit; [assumption|apply shr_small; assumption].
  - apply shift_digit; assumption.
  - rewrite Hm. pose proof (shr_small x1 d Hd D1) as S. fold e in S. lia.
  - rewrite Ev at 1. rewrite val_app, rev_length. cbn [digits_val].
    rewrite Ll, pw_add, pw_S, pw_1.
    pose proof (val_bound (rev rest) (Forall_rev HR)) as V. rewrite rev_length in V.
    pose proof (pw_pos (cfg:=cfg) (length rest)) as Hp.
    set (p := pw (length rest)) in *. set (r := val (rev rest)) in *. unfold digit in D1.
    assert (r + p * (x1 + B * (x0 + B * 0)) < p * ((x0 + 1) * B)).
    { assert (p * (x1 + 1 + B * x0) <= p * (B + B * x0)) by (apply Z.mul_le_mono_nonneg_l; lia). lia. }
    assert (X0 : 2 ^ d * (x0 + 1) <= B).
    { rewrite <- E. apply Z.mul_le_mono_nonneg_l; [lia|]. rewrite <- Hm.
      pose proof (Z.mod_pos_bound x0 e P2). lia. }
    assert (2 ^ d * (p * ((x0 + 1) * B)) <= p * (B * B)).
    { replace (2 ^ d * (p * ((x0 + 1) * B))) with ((p * B) * (2 ^ d * (x0 + 1))) by ring.
      replace (p * (B * B)) with (p * B * B) by ring. apply Z.mul_le_mono_nonneg_l; [|assumption]. apply Z.mul_nonneg_nonneg; lia. }
    assert (2 ^ d * (r + p * (x1 + B * (x0 + B * 0))) < 2 ^ d * (p * ((x0 + 1) * B))) by (apply Z.mul_lt_mono_pos_l; lia).
    lia.
  - rewrite Hm. replace (length v - 2)%nat with (length rest) by lia.
    rewrite Ev. rewrite val_app, rev_length. cbn [digits_val].
    set (p := pw (length rest)) in *.
    assert (ES : (2 ^ d * x0 + x1 / e) * B + (2 ^ d * (x1 mod e) + nextd rest d)
       = 2 ^ d * (x0 * B + x1) + nextd rest d).
    { rewrite (Z.div_mod x1 e) at 3 by lia. rewrite <- E. ring. }
    rewrite ES. clear ES. lia.
Qed.

(** a -= b * c and a += b *)
Lemma sub_mul_loop_spec b a c mc bw :
  Forall digit a -> Forall digit b -> digit c -> digit mc -> (length b <= length a)%nat ->
  exists ds mc' bw', sub_mul_loop a b c mc bw = Ret (ds, skipn (length b) a, mc', bw') /\
    length ds = length b /\ Forall digit ds /\ digit mc' /\
    val ds - pw (cfg:=cfg) (length b) * (mc' + (if bw' : bool then 1 else 0)) =
    val (firstn (length b) a) - c * val b - mc - (if bw then 1 else 0).
Proof.
  revert a mc bw. induction b as [|y b IH]; intros a mc bw Ha Hb Hc Hmc Hl; cbn [sub_mul_loop length].
  - exists [], mc, bw. cbn [skipn firstn digits_val length]. rewrite pw_0. repeat split; auto; try apply Hmc; destruct bw; lia.
  - apply Forall_cons_iff in Hb as [Hy Hb].
    destruct a as [|x a]; [cbn in Hl; lia|]. apply Forall_cons_iff in Ha as [Hx Ha].
    assert (T : 0 <= y * c + mc < B * B).
    { unfold digit in *. assert (0 <= y * c) by (apply Z.mul_nonneg_nonneg; lia).
      assert (y * c <= (B - 1) * (B - 1)) by (apply Z.mul_le_mono_nonneg; lia). lia. }
    rewrite ck_double_ret by assumption. cbn [obind].
    pose proof (base_ge cfg) as HB.
    assert (Ht : digit ((y * c + mc) mod B)) by (apply Z.mod_pos_bound; lia).
    assert (Hq : digit ((y * c + mc) / B)).
    { split; [apply Z.div_pos; lia|]. apply Z.div_lt_upper_bound; lia. }
    destruct (borrowing_sub_spec x ((y * c + mc) mod B) bw Hx Ht) as (d & bw1 & -> & Hd & E1).
    destruct (IH a ((y * c + mc) / B) bw1 Ha Hb Hc Hq ltac:(cbn in Hl; lia)) as (ds & mc' & bw' & -> & L & D & M & E2).
    cbn [obind]. exists (d :: ds), mc', bw'. cbn [length skipn firstn digits_val]. rewrite pw_S.
    repeat split; auto; try apply M.
    pose proof (Z.div_mod (y * c + mc) B ltac:(lia)) as E3.
    generalize dependent ((y * c + mc) mod B). generalize dependent ((y * c + mc) / B). intros q Hq E2 r Hr E1 E3.
    replace (d + B * val ds - B * pw (length b) * (mc' + (if bw' then 1 else 0)))
      with (d + B * (val ds - pw (length b) * (mc' + (if bw' then 1 else 0)))) by ring.
    rewrite E2. lia.
Qed.

Lemma skipn_two (a : list Z) n : length a = (n + 2)%nat -> exists x y, skipn n a = [x; y].
Proof.
  intros H. pose proof (skipn_length n a) as L. destruct (skipn n a) as [|x [|y [|z t]]]; cbn in L; try lia.
  exists x, y. reflexivity.
Qed.

Lemma sub_mul_digits_spec a b c :
  Forall digit a -> Forall digit b -> digit c -> length a = (length b + 2)%nat -> c * val b <= val a ->
  exists r, sub_mul_digits a b c = Ret r /\ length r = length a /\ Forall digit r /\ val r = val a - c * val b.
Proof.
  intros Ha Hb Hc Hl Hle. unfold sub_mul_digits.
  destruct (Nat.eqb_spec (length a) (length b + 2)); [|lia]. cbn [oassert dassert].
  pose proof (base_ge cfg) as HB.
  destruct (sub_mul_loop_spec b a c 0 false Ha Hb Hc ltac:(unfold digit; lia) ltac:(lia))
    as (ds & mc & bw & -> & L & D & M & E1). cbn [obind].
  destruct (skipn_two a (length b) Hl) as (x & y & Es). rewrite Es.
  assert (Hxy : Forall digit [x; y]) by (rewrite <- Es; apply Forall_skipn; assumption).
  inversion Hxy as [|? ? Hx Hy']; subst. inversion Hy' as [|? ? Hy _]; subst.
  rewrite (Z.mod_small mc) by apply M.
  destruct (borrowing_sub_spec x mc bw Hx M) as (d1 & b1 & -> & Hd1 & E2).
  destruct (borrowing_sub_spec y 0 b1 Hy ltac:(unfold digit; lia)) as (d2 & b2 & -> & Hd2 & E3).
  exists (ds ++ [d1; d2]). split; [reflexivity|].
  assert (Fr : Forall digit (ds ++ [d1; d2])) by (apply Forall_app_intro; auto).
  rewrite app_length. cbn [length]. split; [lia|]. split; [assumption|].
  pose proof (val_firstn_skipn (length b) a) as Ea. rewrite Es in Ea.
  rewrite firstn_length_le in Ea by lia. cbn [digits_val] in Ea.
  pose proof (val_bound _ Fr) as Vr. rewrite app_length in Vr. cbn [length] in Vr.
  pose proof (val_bound _ Ha) as Va. rewrite Hl in Va.
  rewrite val_app, L in *. cbn [digits_val] in *. rewrite pw_add, pw_S, pw_1 in *.
  pose proof (pw_pos (cfg:=cfg) (length b)) as Hp. set (p := pw (length b)) in *.
  assert (b2 = false).
  { destruct b2; [|reflexivity]. exfalso.
    assert (p * (B * B) <= val ds + p * (d1 + B * (d2 + B * 0)) - (val a - c * val b)); [|lia].
    rewrite Ea. assert (p * (x - d1 - mc - (if bw then 1 else 0) + B * (if b1 then 1 else 0)) = 0) by (apply Z.eq_mul_0; right; lia).
    assert (p * (B * (y - d2 - (if b1 then 1 else 0) + B)) = 0) by (apply Z.eq_mul_0; right; apply Z.eq_mul_0; right; lia).
    lia. }
  subst b2. rewrite Ea.
  assert (p * (x - d1 - mc - (if bw then 1 else 0) + B * (if b1 then 1 else 0)) = 0) by (apply Z.eq_mul_0; right; lia).
  assert (p * (B * (y - d2 - (if b1 then 1 else 0))) = 0) by (apply Z.eq_mul_0; right; apply Z.eq_mul_0; right; lia).
  lia.
Qed.

Lemma assign_add_loop_spec b a cy :
  Forall digit a -> Forall digit b -> (length b <= length a)%nat ->
  exists ds cy', assign_add_loop a b cy = Ret (ds, skipn (length b) a, cy') /\
    length ds = length b /\ Forall digit ds /\
    val ds + pw (cfg:=cfg) (length b) * (if cy' : bool then 1 else 0) =
    val (firstn (length b) a) + val b + (if cy then 1 else 0).
Proof.
  revert a cy. induction b as [|y b IH]; intros a cy Ha Hb Hl; cbn [assign_add_loop length].
  - exists [], cy. cbn [skipn firstn digits_val length]. rewrite pw_0. repeat split; auto; destruct cy; lia.
  - apply Forall_cons_iff in Hb as [Hy Hb].
    destruct a as [|x a]; [cbn in Hl; lia|]. apply Forall_cons_iff in Ha as [Hx Ha].
    destruct (carrying_add_spec x y cy Hx Hy) as (d & c1 & -> & Hd & E1).
    destruct (IH a c1 Ha Hb ltac:(cbn in Hl; lia)) as (ds & cy' & -> & L & D & E2).
    cbn [obind]. exists (d :: ds), cy'. cbn [length skipn firstn digits_val]. rewrite pw_S.
    repeat split; auto.
    replace (d + B * val ds + B * pw (length b) * (if cy' then 1 else 0))
      with (d + B * (val ds + pw (length b) * (if cy' then 1 else 0))) by ring.
    rewrite E2. lia.
Qed.

Lemma assign_add_digits_spec a b :
  Forall digit a -> Forall digit b -> length a = (length b + 2)%nat ->
  val a + val b < pw (cfg:=cfg) (length a) ->
  exists r, assign_add_digits a b = Ret r /\ length r = length a /\ Forall digit r /\ val r = val a + val b.
Proof.
  intros Ha Hb Hl Hle. unfold assign_add_digits.
  destruct (Nat.eqb_spec (length a) (length b + 2)); [|lia]. cbn [oassert dassert].
  pose proof (base_ge cfg) as HB.
  destruct (assign_add_loop_spec b a false Ha Hb ltac:(lia)) as (ds & cy & -> & L & D & E1). cbn [obind].
  destruct (skipn_two a (length b) Hl) as (x & y & Es). rewrite Es.
  assert (Hxy : Forall digit [x; y]) by (rewrite <- Es; apply Forall_skipn; assumption).
  inversion Hxy as [|? ? Hx Hy']; subst. inversion Hy' as [|? ? Hy _]; subst.
  destruct (carrying_add_spec x 0 cy Hx ltac:(unfold digit; lia)) as (d1 & b1 & -> & Hd1 & E2).
  destruct (carrying_add_spec y 0 b1 Hy ltac:(unfold digit; lia)) as (d2 & b2 & -> & Hd2 & E3).
  exists (ds ++ [d1; d2]). split; [reflexivity|].
  assert (Fr : Forall digit (ds ++ [d1; d2])) by (apply Forall_app_intro; auto).
  rewrite app_length. cbn [length]. split; [lia|]. split; [assumption|].
  pose proof (val_firstn_skipn (length b) a) as Ea. rewrite Es in Ea.
  rewrite firstn_length_le in Ea by lia. cbn [digits_val] in Ea.
  pose proof (val_bound _ Fr) as Vr. rewrite app_length in Vr. cbn [length] in Vr.
  rewrite Hl in Hle.
  rewrite val_app, L in *. cbn [digits_val] in *. rewrite pw_add, pw_S, pw_1 in *.
  pose proof (pw_pos (cfg:=cfg) (length b)) as Hp. set (p := pw (length b)) in *.
  assert (p * (x - d1 + (if cy then 1 else 0) - B * (if b1 then 1 else 0)) = 0) by (apply Z.eq_mul_0; right; lia).
  assert (p * (B * (y - d2 + (if b1 then 1 else 0) - B * (if b2 then 1 else 0))) = 0) by (apply Z.eq_mul_0; right; apply Z.eq_mul_0; right; lia).
  assert (b2 = false).
  { destruct b2; [|reflexivity]. exfalso. lia. }
  subst b2. lia.
Qed.

(** One step of Algorithm D *)
Lemma last_digit (r : list Z) k :
  length r = S k -> Forall digit r ->
  exists r' x, r = r' ++ [x] /\ last r 0 = x /\ length r' = k /\ digit x /\ Forall digit r' /\
    val r = val r' + pw (cfg:=cfg) k * x /\ 0 <= val r' < pw (cfg:=cfg) k.
Proof.
  intros L D. assert (Hne : r <> []) by (destruct r; [cbn in L; lia|discriminate]).
  destruct (exists_last Hne) as (r' & x & ->). exists r', x.
  rewrite app_length in L. cbn in L. apply Forall_app in D as [D1 D2]. inversion D2; subst.
  assert (Lk : length r' = k) by lia.
  split; [reflexivity|]. split; [apply last_app_single|]. do 3 (split; [assumption|]). split.
  - rewrite val_app, val_single, Lk. reflexivity.
  - rewrite <- Lk. apply (val_bound r' D1).
Qed.

Lemma knuth_step_spec v v0 v1 d w :
  Forall digit v -> Forall digit w -> (2 <= length v)%nat -> 0 < val v ->
  0 <= d < BITS -> digit v0 -> digit v1 -> B <= 2 * v0 ->
  2 ^ d * val v < pw (cfg:=cfg) (length v) ->
  (v0 * B + v1) * pw (cfg:=cfg) (length v - 2) <= 2 ^ d * val v < (v0 * B + v1 + 1) * pw (cfg:=cfg) (length v - 2) ->
  length w = (length v + 1)%nat -> val w < B * val v ->
  exists w', knuth_step v v0 v1 d (BITS - d) (w ++ [0]) = Ret (w' ++ [0], val w / val v) /\
    length w' = length w /\ Forall digit w' /\ val w' = val w mod val v /\ digit (val w / val v).
Proof.
  intros Dv Dw Lv Hv Hd D0 D1 Hn Hvn HV Lw HU.
  pose proof (base_ge cfg) as HB.
  destruct (split_base d Hd) as (P1 & P2 & _).
  assert (Er : exists d0 d1 d2 rest, rev w = d0 :: d1 :: d2 :: rest /\ length rest = (length v - 2)%nat).
  { pose proof (rev_length w) as L. destruct (rev w) as [|x0 [|x1 [|x2 rest]]] eqn:E; cbn in L; try lia.
    exists x0, x1, x2, rest. split; [reflexivity|lia]. }
  destruct Er as (d0 & d1 & d2 & rest & Er & Lr).
  assert (Fr : Forall digit (d0 :: d1 :: d2 :: rest)) by (rewrite <- Er; apply Forall_rev; assumption).
  assert (Ew : val w = val (rev (d0 :: d1 :: d2 :: rest))) by (rewrite <- Er, rev_involutive; reflexivity).
  pose proof (pw_pos (cfg:=cfg) (length v)) as Hpv.
  pose proof (pw_pos (cfg:=cfg) (length v - 2)) as HP.
  assert (HUn : 2 ^ d * val w < B * (2 ^ d * val v)).
  { replace (B * (2 ^ d * val v)) with (2 ^ d * (B * val v)) by ring. apply Z.mul_lt_mono_pos_l; assumption. }
  assert (Hd0 : d0 * 2 ^ d < B).
  { assert (d0 * pw (length v) <= val w).
    { rewrite Ew. cbn [rev]. rewrite <- !app_assoc. cbn [app].
      change (d2 :: d1 :: [d0]) with ([d2; d1] ++ [d0]). rewrite app_assoc, val_app, val_single.
      rewrite app_length, rev_length. cbn [length]. replace (length rest + 2)%nat with (length v) by lia.
      assert (Forall digit (rev rest ++ [d2; d1])).
      { inversion Fr as [|? ? X0 Fr1]; subst. inversion Fr1 as [|? ? X1 Fr2]; subst. inversion Fr2; subst.
        apply Forall_app_intro; [apply Forall_rev; assumption|auto]. }
      pose proof (val_nonneg _ H). lia. }
    assert (2 ^ d * (d0 * pw (length v)) <= 2 ^ d * val w) by (apply Z.mul_le_mono_nonneg_l; lia).
    assert (B * (2 ^ d * val v) < B * pw (length v)) by (apply Z.mul_lt_mono_pos_l; lia).
    apply (Z.mul_lt_mono_pos_r (pw (length v))); [assumption|]. lia. }
  destruct (normalize_dividend_spec 0 d0 d1 d2 rest d Hd Fr Hd0) as (u0 & u1 & u2 & EN & Du0 & Du1 & Du2 & HN).
  rewrite <- Ew, Lr in HN.
  unfold knuth_step. rewrite rev_app_distr, Er. cbn [rev app]. rewrite EN. cbn [obind].
  assert (Hu0 : u0 <= v0).
  { assert (u0 * B * B * pw (length v - 2) < (v0 + 1) * B * B * pw (length v - 2)).
    { unfold digit in *.
      assert (u0 * B * B * pw (length v - 2) <= (u0 * B * B + u1 * B + u2) * pw (length v - 2)).
      { apply Z.mul_le_mono_nonneg_r; [lia|]. assert (0 <= u1 * B) by (apply Z.mul_nonneg_nonneg; lia). lia. }
      assert (B * (2 ^ d * val v) < B * ((v0 * B + v1 + 1) * pw (length v - 2))) by (apply Z.mul_lt_mono_pos_l; lia).
      assert (B * ((v0 * B + v1 + 1) * pw (length v - 2)) <= B * (((v0 + 1) * B) * pw (length v - 2))).
      { apply Z.mul_le_mono_nonneg_l; [lia|]. apply Z.mul_le_mono_nonneg_r; lia. }
      lia. }
    apply Z.mul_lt_mono_pos_r in H; [|assumption].
    apply Z.mul_lt_mono_pos_r in H; [|lia]. apply Z.mul_lt_mono_pos_r in H; [|lia]. lia. }
  destruct (estimate_q_spec u0 u1 u2 v0 v1 (2 ^ d * val w) (2 ^ d * val v) (pw (cfg:=cfg) (length v - 2)))
    as (qh & Eq & Q1 & Q2); try assumption.
  rewrite Eq. cbn [obind]. rewrite (Z.mod_small qh) by assumption.
  rewrite Z.div_mul_cancel_l in Q1 by lia.
  set (q := val w / val v) in *.
  assert (Hw0 : 0 <= val w) by (apply val_nonneg; assumption).
  assert (Hq : digit q). { unfold digit, q. split; [apply Z.div_pos; lia|]. apply Z.div_lt_upper_bound; lia. }
  pose proof (Z.div_mod (val w) (val v) ltac:(lia)) as ED. fold q in ED.
  pose proof (Z.mod_pos_bound (val w) (val v) Hv) as Hm.
  pose proof (val_bound w Dw) as Vw.
  destruct (set_last_spec (w ++ [0]) 1 ltac:(destruct w; discriminate)) as (w1 & -> & E1).
  rewrite last_app_single in E1. apply app_inj_tail in E1 as [<- _]. cbn [obind].
  set (k := length w) in *.
  assert (D1w : Forall digit (w ++ [1])) by (apply Forall_app_intro; [assumption|constructor; [unfold digit; lia|constructor]]).
  assert (V1 : val (w ++ [1]) = val w + pw (cfg:=cfg) k) by (rewrite val_app, val_single; fold k; ring).
  assert (Vv : val v < pw (cfg:=cfg) (length v)) by (apply val_bound; assumption).
  assert (Hk : pw (cfg:=cfg) k = B * pw (cfg:=cfg) (length v)).
  { replace k with (S (length v)) by lia. apply pw_S. }
  assert (Hvk : 256 * val v < pw (cfg:=cfg) k).
  { assert (256 * pw (cfg:=cfg) (length v) <= B * pw (cfg:=cfg) (length v)) by (apply Z.mul_le_mono_nonneg_r; lia). lia. }
  assert (Hqv : qh * val v <= val w + val v).
  { assert (qh * val v <= (q + 1) * val v) by (apply Z.mul_le_mono_nonneg_r; lia). lia. }
  destruct (sub_mul_digits_spec (w ++ [1]) v qh) as (w2 & -> & L2 & Dw2 & E2);
    [assumption|assumption|assumption|rewrite app_length; cbn [length]; fold k; lia|rewrite V1; lia|].
  cbn [obind]. rewrite V1 in E2. rewrite app_length in L2. cbn [length] in L2. fold k in L2.
  destruct (last_digit w2 k ltac:(lia) Dw2) as (w2' & x & -> & -> & L2' & Dx & D2' & E3 & B3).
  assert (Hx : x = 0 \/ x = 1).
  { unfold digit in Dx. assert (x < 2); [|lia].
    assert (0 <= qh * val v) by (apply Z.mul_nonneg_nonneg; lia).
    apply (Z.mul_lt_mono_pos_l (pw (cfg:=cfg) k)); [apply pw_pos|]. lia. }
  destruct (Z.eqb_spec x 0) as [Ex|Ex].
  - subst x.
    assert (Eqh : qh = q + 1).
    { assert (q < qh); [|lia]. destruct (Z.lt_ge_cases q qh) as [|Hc]; [assumption|exfalso].
      assert (qh * val v <= q * val v) by (apply Z.mul_le_mono_nonneg_r; lia). lia. }
    unfold digit in Hq. destruct (Z.ltb_spec 0 qh); [|lia]. cbn [oassert dassert]. rewrite (Z.mod_small (qh - 1)) by lia.
    destruct (assign_add_digits_spec (w2' ++ [0]) v) as (w3 & -> & L3 & Dw3 & E4);
      [assumption|assumption|rewrite app_length, L2'; cbn [length]; lia| |].
    { rewrite E3, app_length, L2'. cbn [length]. rewrite Nat.add_1_r, pw_S.
      assert (256 * pw (cfg:=cfg) k <= B * pw (cfg:=cfg) k) by (apply Z.mul_le_mono_nonneg_r; lia). lia. }
    cbn [obind]. rewrite app_length, L2' in L3. cbn [length] in L3.
    destruct (last_digit w3 k ltac:(lia) Dw3) as (w3' & y & -> & _ & L3' & Dy & D3' & E5 & B5).
    destruct (set_last_spec (w3' ++ [y]) 0 ltac:(destruct w3'; discriminate)) as (w4 & -> & E6).
    rewrite last_app_single in E6. apply app_inj_tail in E6 as [<- _]. cbn [obind].
    assert (Hval : val w3' + pw (cfg:=cfg) k * y = val w mod val v + pw (cfg:=cfg) k) by (subst qh; lia).
    assert (y = 1).
    { assert (pw (cfg:=cfg) k * y < pw (cfg:=cfg) k * 2) by lia.
      apply Z.mul_lt_mono_pos_l in H0; [|apply pw_pos].
      assert (pw (cfg:=cfg) k * 0 < pw (cfg:=cfg) k * y) by lia. apply Z.mul_lt_mono_pos_l in H1; [|apply pw_pos]. lia. }
    subst y. exists w3'. replace (qh - 1) with q by lia.
    repeat split; auto; try lia.
  - assert (x = 1) by lia. subst x.
    destruct (set_last_spec (w2' ++ [1]) 0 ltac:(destruct w2'; discriminate)) as (w4 & -> & E6).
    rewrite last_app_single in E6. apply app_inj_tail in E6 as [<- _]. cbn [obind].
    assert (qh = q).
    { assert (qh <= q); [|lia]. destruct (Z.le_gt_cases qh q) as [|Hc]; [assumption|exfalso].
      assert ((q + 1) * val v <= qh * val v) by (apply Z.mul_le_mono_nonneg_r; lia). lia. }
    subst qh. exists w2'. repeat split; auto; try lia; apply Hq.
Qed.

Lemma top_zero (w : list Z) m :
  length w = S m -> Forall digit w -> val w < pw (cfg:=cfg) m ->
  exists w', w = w' ++ [0] /\ length w' = m /\ Forall digit w' /\ val w' = val w.
Proof.
  intros L D V. destruct (last_digit w m L D) as (w' & x & -> & _ & L' & Dx & D' & E & Bd).
  assert (x = 0).
  { unfold digit in Dx. assert (x < 1); [|lia]. apply (Z.mul_lt_mono_pos_l (pw (cfg:=cfg) m)); [apply pw_pos|lia]. }
  subst x. exists w'. repeat split; auto. lia.
Qed.

Section Loop.
Variables (v : list Z) (v0 v1 d : Z).
Hypothesis Dv : Forall digit v.
Hypothesis Lv : (2 <= length v)%nat.
Hypothesis Hv : 0 < val v.
Hypothesis Hd : 0 <= d < BITS.
Hypothesis D0 : digit v0.
Hypothesis D1 : digit v1.
Hypothesis Hn : B <= 2 * v0.
Hypothesis Hvn : 2 ^ d * val v < pw (cfg:=cfg) (length v).
Hypothesis HV : (v0 * B + v1) * pw (cfg:=cfg) (length v - 2) <= 2 ^ d * val v < (v0 * B + v1 + 1) * pw (cfg:=cfg) (length v - 2).

Lemma knuth_loop_spec start lo w hi q :
  length lo = start -> Forall digit lo -> Forall digit w -> length w = (length v + 1)%nat -> val w < B * val v ->
  Forall (fun d => d = 0) hi ->
  exists st' qs', knuth_loop v v0 v1 d (BITS - d) start (lo ++ w ++ 0 :: hi) q = Ret (st', qs' ++ q) /\
    length qs' = S start /\ Forall digit qs' /\
    length st' = length (lo ++ w ++ 0 :: hi) /\ Forall digit st' /\
    val (lo ++ w) = val v * val qs' + val st' /\ 0 <= val st' < val v.
Proof.
  pose proof (base_ge cfg) as HB.
  revert lo w hi q. induction start as [|start IH]; intros lo w hi q Llo Dlo Dw Lw Hw Hhi; cbn [knuth_loop].
  - destruct lo; [|discriminate]. cbn [app length].
    rewrite slice_ret by (rewrite ?app_length; cbn [length]; lia). cbn [obind skipn].
    replace (firstn (0 + (length v + 2) - 0) (w ++ 0 :: hi)) with (w ++ [0]).
    2:{ change (0 :: hi) with ([0] ++ hi). rewrite app_assoc, firstn_app.
        rewrite app_length. cbn [length]. replace (0 + (length v + 2) - 0 - (length w + 1))%nat with 0%nat by lia.
        cbn [firstn]. rewrite app_nil_r. symmetry. apply firstn_all2. rewrite app_length. cbn [length]. lia. }
    destruct (knuth_step_spec v v0 v1 d w) as (w' & -> & Lw' & Dw' & Vw' & Dq); auto.
    cbn [obind firstn app].
    replace (skipn (0 + (length v + 2)) (w ++ 0 :: hi)) with hi.
    2:{ change (0 :: hi) with ([0] ++ hi). rewrite app_assoc, skipn_app.
        rewrite app_length. cbn [length]. replace (0 + (length v + 2) - (length w + 1))%nat with 0%nat by lia.
        rewrite skipn_all2 by (rewrite app_length; cbn [length]; lia). reflexivity. }
    exists ((w' ++ [0]) ++ hi), [val w / val v]. split; [reflexivity|].
    assert (Dz : Forall digit hi).
    { eapply Forall_impl; [|exact Hhi]. intros ? ->. apply digit_0. }
    rewrite !app_length. cbn [length].
    split; [lia|]. split; [auto|]. split; [lia|].
    split; [repeat apply Forall_app_intro; auto; constructor; [apply digit_0|constructor]|].
    rewrite !val_app, (val_zeros hi) by assumption. cbn [digits_val].
    rewrite Vw'. pose proof (Z.div_mod (val w) (val v)). pose proof (Z.mod_pos_bound (val w) (val v)). lia.
  - assert (Hne : lo <> []) by (destruct lo; discriminate).
    destruct (exists_last Hne) as (lo' & x & ->).
    rewrite app_length in Llo. cbn [length] in Llo. assert (Ll : length lo' = start) by lia.
    apply Forall_app in Dlo as [Dlo Dx]. inversion Dx as [|? ? Dx' _]; subst x0 l.
    rewrite slice_ret by (rewrite ?app_length; cbn [length]; lia). cbn [obind].
    assert (E1 : skipn (S start) ((lo' ++ [x]) ++ w ++ 0 :: hi) = w ++ 0 :: hi).
    { replace (S start) with (length (lo' ++ [x])) by (rewrite app_length; cbn [length]; lia). apply skipn_app_exact. }
    assert (E2 : firstn (S start) ((lo' ++ [x]) ++ w ++ 0 :: hi) = lo' ++ [x]).
    { replace (S start) with (length (lo' ++ [x])) by (rewrite app_length; cbn [length]; lia). apply firstn_app_exact. }
    assert (E3 : skipn (S start + (length v + 2)) ((lo' ++ [x]) ++ w ++ 0 :: hi) = hi).
    { change (0 :: hi) with ([0] ++ hi). rewrite !app_assoc.
      replace (S start + (length v + 2))%nat with (length (((lo' ++ [x]) ++ w) ++ [0])) by (rewrite !app_length; cbn [length]; lia).
      apply skipn_app_exact. }
    rewrite E1, E2, E3.
    replace (firstn (S start + (length v + 2) - S start) (w ++ 0 :: hi)) with (w ++ [0]).
    2:{ change (0 :: hi) with ([0] ++ hi). rewrite app_assoc.
        replace (S start + (length v + 2) - S start)%nat with (length (w ++ [0])) by (rewrite !app_length; cbn [length]; lia).
        symmetry. apply firstn_app_exact. }
    destruct (knuth_step_spec v v0 v1 d w) as (w' & -> & Lw' & Dw' & Vw' & Dq); auto.
    cbn [obind].
    pose proof (Z.div_mod (val w) (val v) ltac:(lia)) as ED. pose proof (Z.mod_pos_bound (val w) (val v) Hv) as HM.
    destruct (top_zero w' (length v) ltac:(lia) Dw') as (w'' & -> & Lw'' & Dw'' & Vw'').
    { rewrite Vw'. pose proof (val_bound v Dv). lia. }
    destruct (IH lo' (x :: w'') (0 :: hi) (val w / val v :: q)) as (st' & qs' & E & L1 & L2 & L3 & L4 & L5 & L6).
    + assumption.
    + assumption.
    + constructor; assumption.
    + cbn [length]. lia.
    + cbn [digits_val]. rewrite Vw'', Vw'. unfold digit in Dx'.
      assert (B * (val w mod val v + 1) <= B * val v) by (apply Z.mul_le_mono_nonneg_l; lia). lia.
    + constructor; [reflexivity|assumption].
    + rewrite <- !app_assoc in *. cbn [app] in *. rewrite E.
      exists st', (qs' ++ [val w / val v]). rewrite <- app_assoc. split; [reflexivity|].
      rewrite !app_length in *. cbn [length] in *. rewrite !app_length in *. cbn [length] in *.
      split; [lia|]. split; [apply Forall_app_intro; auto|]. split; [lia|]. split; [assumption|].
      split; [|assumption].
      rewrite !val_app, val_single in *. cbn [digits_val] in *. rewrite L1, pw_S, Ll in *.
      rewrite Vw'', Vw' in L5.
      rewrite ED at 1.
      replace (val lo' + pw start * (x + B * (val v * (val w / val v) + val w mod val v)))
        with (val lo' + pw start * (x + B * (val w mod val v)) + val v * (B * pw (cfg:=cfg) start * (val w / val v))) by ring.
      rewrite L5. ring.
Qed.
End Loop.

Lemma val_skip_zero (r : list Z) n :
  (n <= length r)%nat -> Forall digit r -> val r < pw (cfg:=cfg) n -> val (firstn n r) = val r /\ val (skipn n r) = 0.
Proof.
  intros Hn D V. pose proof (val_firstn_skipn n r) as E.
  rewrite firstn_length_le in E by assumption.
  pose proof (val_nonneg _ (Forall_firstn _ n r D)). pose proof (val_nonneg _ (Forall_skipn _ n r D)).
  assert (val (skipn n r) < 1).
  { apply (Z.mul_lt_mono_pos_l (pw (cfg:=cfg) n)); [apply pw_pos|lia]. }
  assert (val (skipn n r) = 0) by lia. rewrite H2 in E. lia.
Qed.

Lemma div_rem_digits_spec a b qn rn :
  canon a -> canon b -> Forall digit a -> Forall digit b -> 0 < val b ->
  (length a <= qn)%nat -> (length b <= rn <= length a + 2)%nat ->
  exists q ql r rl, div_rem_digits a b qn rn = Ret (q, ql, (r, rl)) /\
    buf q ql qn (val a / val b) /\ buf r rl rn (val a mod val b).
Proof.
  intros Ha Hb Da Db Hv Hq [Hr Hr2]. pose proof (base_ge cfg) as HB.
  pose proof (canon_len _ Ha) as La. pose proof (canon_len _ Hb) as Lb.
  unfold div_rem_digits. rewrite !valid_slice by assumption. cbn [oassert dassert].
  destruct (Nat.leb_spec (length a) qn); [|lia]. destruct (Nat.leb_spec (length b) rn); [|lia]. cbn [oassert dassert].
  rewrite !is_zero_digits_spec by assumption. cbn [obind].
  destruct (Z.eqb_spec (val b) 0); [lia|]. cbn [negb oassert dassert].
  assert (Hz0 : forall n, (1 <= n)%nat -> buf (repeat 0 n) 1 n 0).
  { clear. intros n Hn. replace (repeat 0 n) with ([0] ++ repeat 0 (n - length [0])).
    - apply buf_prefix; [cbn; lia|apply canon_single|constructor; [apply digit_0|constructor]|cbn; lia].
    - destruct n; [lia|]. cbn. rewrite Nat.sub_0_r. reflexivity. }
  destruct (Z.eqb_spec (val a) 0) as [Ea|Ea].
  { exists (repeat 0 qn), 1%nat, (repeat 0 rn), 1%nat. split; [reflexivity|].
    rewrite Ea, Z.div_0_l, Z.mod_0_l by lia. split; apply Hz0; lia. }
  pose proof (val_nonneg _ Da) as Va.
  rewrite cmp_digits_spec by assumption. cbn [obind].
  destruct (Z.compare_spec (val a) (val b)) as [E|E|E].
  - rewrite fill_buffer_ret by (cbn [length]; lia). cbn [obind].
    do 4 eexists. split; [reflexivity|]. rewrite E, Z.div_same, Z.mod_same by lia. split; [|apply Hz0; lia].
    apply (buf_prefix [1]); [cbn; lia|apply canon_single|apply Forall_cons; [apply digit_1|apply Forall_nil]|apply val_single].
  - rewrite fill_buffer_ret.
    2:{ destruct (Nat.le_gt_cases (length a) (length b)) as [|N]; [lia|exfalso].
        pose proof (len_lt_val b a Ha Db Da (proj1 Hb) N). lia. }
    cbn [obind]. do 4 eexists. split; [reflexivity|]. rewrite Z.div_small, Z.mod_small by lia.
    split; [apply Hz0; lia|]. apply buf_prefix; auto.
    destruct (Nat.le_gt_cases (length a) (length b)) as [|N]; [lia|exfalso].
    pose proof (len_lt_val b a Ha Db Da (proj1 Hb) N). lia.
  - assert (Lab : (length b <= length a)%nat).
    { destruct (Nat.le_gt_cases (length b) (length a)) as [|N]; [lia|exfalso].
      pose proof (len_lt_val a b Hb Da Db (proj1 Ha) N). lia. }
    destruct (Nat.eqb_spec (length b) 1) as [L1|L1].
    + destruct b as [|v [|]]; try discriminate. cbn [hd]. rewrite val_single in *.
      inversion Db as [|? ? Dv _]; subst. unfold digit in Dv.
      destruct (div1_loop_spec (rev a) v 0 (Forall_rev Da)) as (qs & r & -> & Lq & Dq & Hrr & Er); [lia|lia|].
      rewrite rev_involutive, rev_length in *. cbn [obind].
      rewrite fill_buffer_ret by (rewrite rev_length; lia). cbn [obind].
      rewrite fill_buffer_ret by (cbn [length]; lia). cbn [obind].
      assert (Hqr : val a / v = val (rev qs) /\ val a mod v = r).
      { split; [symmetry; apply (Z.div_unique_pos _ _ _ r); lia|symmetry; apply (Z.mod_unique_pos _ _ (val (rev qs))); lia]. }
      destruct Hqr as [-> ->].
      destruct (buf_len_digits (rev qs ++ repeat 0 (qn - length (rev qs))) qn (val (rev qs))) as (l & -> & Hbuf).
      * rewrite app_length, repeat_length, rev_length. lia.
      * lia.
      * apply Forall_app_intro; [apply Forall_rev; assumption|apply digits_repeat0].
      * rewrite val_app, val_repeat0. lia.
      * cbn [obind]. do 4 eexists. split; [reflexivity|]. split; [exact Hbuf|].
        rewrite (Z.mod_small r) by lia.
        apply (buf_prefix [r]); [cbn; lia|apply canon_single|apply Forall_cons; [unfold digit; lia|apply Forall_nil]|cbn; lia].
    + assert (L2 : (2 <= length b)%nat) by lia.
      destruct (normalize_divisor_spec b Hb Db L2) as (v0 & v1 & d & -> & Hd & D0 & D1 & Hn & Hvn & HV).
      cbn [obind]. rewrite !app_length. cbn [length].
      destruct (Nat.leb_spec (length b + 2) (length a + 2)); [|lia]. cbn [oassert dassert].
      set (start := (length a + 2 - (length b + 2))%nat).
      assert (Es : a ++ [0; 0] = firstn start a ++ (skipn start a ++ [0]) ++ 0 :: []).
      { rewrite <- (firstn_skipn start a) at 1. rewrite <- !app_assoc. reflexivity. }
      rewrite Es.
      destruct (knuth_loop_spec b v0 v1 d Db L2 Hv Hd D0 D1 Hn Hvn HV start (firstn start a) (skipn start a ++ [0]) [] [])
        as (st' & qs & -> & Lq & Dq & Ls & Ds & Ev & Hr3).
      * apply firstn_length_le. unfold start. lia.
      * apply Forall_firstn; assumption.
      * apply Forall_app_intro; [apply Forall_skipn; assumption|constructor; [apply digit_0|constructor]].
      * rewrite app_length, skipn_length. cbn [length]. unfold start. lia.
      * rewrite val_app. cbn [digits_val].
        pose proof (val_bound _ (Forall_skipn _ start a Da)) as Vs. rewrite skipn_length in Vs.
        replace (length a - start)%nat with (length b) in * by (unfold start; lia).
        pose proof (canon_lower b Hb Db L2) as Cl.
        assert (Ep : pw (cfg:=cfg) (length b) = B * pw (cfg:=cfg) (length b - 1)).
        { rewrite <- pw_S. f_equal. lia. }
        assert (B * pw (cfg:=cfg) (length b - 1) <= B * val b) by (apply Z.mul_le_mono_nonneg_l; lia). lia.
      * constructor.
      * cbn [obind]. rewrite app_nil_r.
        destruct (Nat.leb_spec (length qs) (length a - length b + 1)); [|unfold start in Lq; lia]. cbn [oassert dassert].
        rewrite fill_buffer_ret by (unfold start in Lq; lia). cbn [obind].
        rewrite <- Es, app_length in Ls. cbn [length] in Ls.
        rewrite slice_to_ret by lia. cbn [obind].
        rewrite app_assoc, firstn_skipn, val_app in Ev. cbn [digits_val] in Ev.
        assert (Hqr : val a / val b = val qs /\ val a mod val b = val st').
        { split; [symmetry; apply (Z.div_unique_pos _ _ _ (val st')); lia|symmetry; apply (Z.mod_unique_pos _ _ (val qs)); lia]. }
        destruct Hqr as [-> ->].
        destruct (buf_len_digits (qs ++ repeat 0 (qn - length qs)) qn (val qs)) as (l & -> & Hbuf).
        -- rewrite app_length, repeat_length. unfold start in Lq. lia.
        -- lia.
        -- apply Forall_app_intro; [assumption|apply digits_repeat0].
        -- rewrite val_app, val_repeat0. lia.
        -- cbn [obind].
           destruct (val_skip_zero st' rn ltac:(lia) Ds) as [E1 E2].
           { pose proof (val_bound b Db). pose proof (pw_mono (cfg:=cfg) (length b) rn Hr). lia. }
           destruct (buf_len_digits (firstn rn st') rn (val st')) as (l2 & -> & Hbuf2).
           ++ apply firstn_length_le. lia.
           ++ lia.
           ++ apply Forall_firstn; assumption.
           ++ assumption.
           ++ cbn [obind]. do 4 eexists. split; [reflexivity|]. split; assumption.
Qed.

End Proofs.

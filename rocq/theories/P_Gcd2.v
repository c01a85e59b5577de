(** Correctness of the extended gcd: the outer loop and the result. *)

From Verif Require Import Base M_BigInt M_Gcd S_BigInt P_BigInt1 P_BigInt2 P_BigInt3 P_BigInt4 P_Gcd.
From Coq Require Import ZifyBool ZifyNat Znumtheory.
Open Scope Z_scope.
Ltac Zify.zify_post_hook ::= idtac.

Section Proofs.
Context {cfg : digit_cfg}.
Local Notation BITS := (digit_bits cfg).
Local Notation B := (digit_base cfg).
Local Notation val := (digits_val (cfg:=cfg)).
Local Notation pw := (P_BigInt1.pw (cfg:=cfg)).
Local Notation num := (num (cfg:=cfg)).

Section Inv.
Variables a0 b0 : list Z.
Hypothesis Na0 : num a0.
Hypothesis Nb0 : num b0.

Record ginv (st : gstate) : Prop := {
  gi_na : num (ga st); gi_nb : num (gb st); gi_nua : num (gua st); gi_nub : num (gub st);
  gi_ba : val (gb st) <= val (ga st);
  gi_b0 : val (gb st) <= val b0;
  gi_apos : 0 < val (ga st);
  gi_ule : val (gua st) <= val (gub st);
  gi_upos : 1 <= val (gub st);
  gi_sum : val (gub st) * val (ga st) + val (gua st) * val (gb st) = val a0;
  gi_sgn : gsa st <> gsb st \/ (gsa st = gsb st /\ val (gua st) = 0);
  gi_gcd : Z.gcd (val (ga st)) (val (gb st)) = Z.gcd (val a0) (val b0);
  gi_da : (val a0 | sgz (gsa st) (val (gua st)) * val b0 - val (ga st));
  gi_db : (val a0 | sgz (gsb st) (val (gub st)) * val b0 - val (gb st)) }.

Lemma sgz_ne s t v w : s <> t -> sgz s (v + w) = sgz s v - sgz t w.
Proof. destruct s, t; cbn [sgz]; intros H; try congruence; lia. Qed.

Lemma dv_comb a X Y p q W : (a | X) -> (a | Y) -> W = p * X + q * Y -> (a | W).
Proof. intros HX HY ->. apply Z.divide_add_r; apply Z.divide_mul_r; assumption. Qed.

Lemma gcd_unimod A C p q r s e : e * e = 1 -> p * s - q * r = e ->
  Z.gcd (p * A + q * C) (r * A + s * C) = Z.gcd A C.
Proof.
  intros He Hd. apply Z.divide_antisym_nonneg; try apply Z.gcd_nonneg.
  - apply Z.gcd_greatest.
    + apply (dv_comb _ (p * A + q * C) (r * A + s * C) (e * s) (- e * q)); [apply Z.gcd_divide_l|apply Z.gcd_divide_r|].
      replace (e * s * (p * A + q * C) + - e * q * (r * A + s * C)) with (e * (p * s - q * r) * A) by ring. rewrite Hd, He. ring.
    + apply (dv_comb _ (p * A + q * C) (r * A + s * C) (- e * r) (e * p)); [apply Z.gcd_divide_l|apply Z.gcd_divide_r|].
      replace (- e * r * (p * A + q * C) + e * p * (r * A + s * C)) with (e * (p * s - q * r) * C) by ring. rewrite Hd, He. ring.
  - apply Z.gcd_greatest.
    + apply (dv_comb _ A C p q); [apply Z.gcd_divide_l|apply Z.gcd_divide_r|ring].
    + apply (dv_comb _ A C r s); [apply Z.gcd_divide_l|apply Z.gcd_divide_r|ring].
Qed.

(** Every magnitude in the state is at most a0. *)
Lemma ginv_bounds st : ginv st ->
  val (ga st) <= val a0 /\ val (gua st) <= val a0 /\ val (gub st) <= val a0.
Proof.
  intros I. destruct I.
  pose proof (num_nonneg _ gi_nb0) as Hb. pose proof (num_nonneg _ gi_nua0) as Hua.
  assert (0 <= val (gua st) * val (gb st)) by (apply Z.mul_nonneg_nonneg; lia).
  assert (1 * val (ga st) <= val (gub st) * val (ga st)) by (apply Z.mul_le_mono_nonneg_r; lia).
  assert (val (gub st) * 1 <= val (gub st) * val (ga st)) by (apply Z.mul_le_mono_nonneg_l; lia).
  lia.
Qed.

Lemma len_le l m : num l -> num m -> val l <= val m -> (length l <= length m)%nat.
Proof. apply num_len_mono. Qed.

Lemma euclid_step st : ginv st -> 0 < val (gb st) ->
  exists st', iterate_euclid_extended (length a0) (length b0) st = Ret st' /\ ginv st' /\
    2 * (val (ga st') * val (gb st')) <= val (ga st) * val (gb st).
Proof.
  intros I Hb. pose proof (ginv_bounds st I) as (Ba & Bua & Bub). destruct I.
  pose proof (len_le _ _ gi_na0 Na0 Ba) as La. pose proof (len_le _ _ gi_nua0 Na0 Bua) as Lua.
  pose proof (len_le _ _ gi_nub0 Na0 Bub) as Lub. pose proof (len_le _ _ gi_nb0 Nb0 gi_b1) as Lb.
  pose proof (len_le _ _ gi_nb0 gi_na0 gi_ba0) as Lba.
  unfold iterate_euclid_extended. destruct (Nat.leb_spec (length (gb st)) (length b0)); [|lia]. cbn [oassert dassert].
  destruct (div_rem_digits_spec (ga st) (gb st) (length a0) (length (gb st))) as (q & ql & r & rl & -> & Hq & _);
    try apply gi_na0; try apply gi_nb0; try lia. cbn [obind].
  apply prefix_spec in Hq as (qp & Eq & Nq & Vq & Lq). rewrite Eq. cbn [obind].
  set (A := val (ga st)) in *. set (Bv := val (gb st)) in *. set (UA := val (gua st)) in *. set (UB := val (gub st)) in *.
  pose proof (Z.div_mod A Bv ltac:(lia)) as DM. pose proof (Z.mod_pos_bound A Bv ltac:(lia)) as MB.
  assert (Hq1 : 1 <= A / Bv) by (apply Z.div_le_lower_bound; lia).
  pose proof (num_nonneg _ gi_nua0) as Hua. fold UA in Hua.
  unfold a_sub_q_mul_b.
  destruct (mul_prefix qp (gb st) (length a0 * 2) Nq gi_nb0 ltac:(lia)) as (p & Ep & Np & Vp & Lp).
  fold Bv in Vp. rewrite Vq in Vp.
  erewrite bind2 by exact Ep.
  destruct (sub_prefix (ga st) p (length a0 * 2) gi_na0 Np ltac:(lia) Lp ltac:(fold A; lia)) as (t & Et & Nt & Vt & Lt).
  rewrite Et. cbn [obind]. fold A in Vt.
  assert (Vt' : val t = A mod Bv) by lia.
  rewrite (store_ret (length a0)) by lia. cbn [obind].
  rewrite (store_ret (length b0)).
  2:{ assert (length t <= length (gb st))%nat by (apply len_le; auto; fold Bv; lia). lia. }
  cbn [obind]. unfold ua_sub_q_mul_ub.
  assert (K1 : UB * Bv <= UB * A) by (apply Z.mul_le_mono_nonneg_l; lia).
  assert (K2 : 0 <= UA * Bv) by (apply Z.mul_nonneg_nonneg; lia).
  assert (Lq2 : (length qp <= length a0)%nat) by lia.
  destruct (mul_prefix qp (gub st) (length a0 * 2) Nq gi_nub0 ltac:(lia)) as (pu & Epu & Npu & Vpu & Lpu).
  fold UB in Vpu. rewrite Vq in Vpu.
  destruct (mul_digits qp (gub st) (length a0 * 2)) as [ru| |]; try discriminate. cbn [obind] in Epu |- *. rewrite Epu. cbn [obind].
  assert (K3 : UB * A = UB * Bv * (A / Bv) + UB * (A mod Bv)) by (rewrite DM at 1; ring).
  assert (K4 : 0 <= UB * (A mod Bv)) by (apply Z.mul_nonneg_nonneg; lia).
  assert (K5 : 1 * UB <= (A / Bv) * UB) by (apply Z.mul_le_mono_nonneg_r; lia).
  assert (K6 : 1 * ((A / Bv) * UB) <= Bv * ((A / Bv) * UB)) by (apply Z.mul_le_mono_nonneg_r; lia).
  assert (K7 : UA * 1 <= UA * Bv) by (apply Z.mul_le_mono_nonneg_l; lia).
  assert (Vub : UA + (A / Bv) * UB <= val a0) by lia.
  destruct (signed_sub_spec (gua st) (gsa st) pu (gsb st) (length a0 * 2) gi_nua0 Npu ltac:(lia) Lpu) as (w & s & Ew & Nw & Hw).
  { intros _. assert (length pu <= length a0)%nat by (apply len_le; auto; lia). pose proof (num_len1 _ Na0). lia. }
  rewrite Ew. cbn [obind]. fold UA in Hw.
  assert (Hw' : val w = UA + (A / Bv) * UB /\ s <> gsb st /\ sgz s (val w) = sgz (gsa st) UA - (A / Bv) * sgz (gsb st) UB).
  { destruct gi_sgn0 as [Hne|[He Hz]].
    - destruct Hw as [(_ & -> & V)|[(E & _)|[(E & _)|(E & _)]]]; try (exfalso; exact (Hne E)).
      rewrite V, Vpu. split; [reflexivity|]. split; [assumption|].
      rewrite (sgz_ne _ _ _ _ Hne). destruct (gsb st); cbn [sgz]; lia.
    - rewrite Hz in *. destruct Hw as [(E & _)|[(_ & L & -> & V)|[(_ & L & _)|(_ & L & _)]]]; try (exfalso; exact (E He)); [|lia|lia].
      split; [lia|]. split; [rewrite He; apply neg_sgn_ne|].
      rewrite V, Vpu, He. destruct (gsb st); cbn [sgz neg_sgn]; lia. }
  destruct Hw' as (Vw & Hs & Sw).
  rewrite (store_ret (length a0)) by lia. cbn [obind].
  rewrite (store_ret (length a0)) by (apply len_le; auto; lia). cbn [obind].
  eexists. split; [reflexivity|]. cbn [ga gb gua gsa gub gsb]. split.
  - constructor; cbn [ga gb gua gsa gub gsb]; fold A Bv UA UB; try assumption; try lia.
    + left. congruence.
    + rewrite Vt'. rewrite Z.gcd_comm, Z.gcd_mod by lia. rewrite Z.gcd_comm. assumption.
    + rewrite Sw, Vt'. eapply (dv_comb _ _ _ 1 (- (A / Bv)) _ gi_da0 gi_db0). replace (A mod Bv) with (A - Bv * (A / Bv)) by lia. ring.
  - fold Bv. rewrite Vt'.
    assert (Bv * 1 <= Bv * (A / Bv)) by (apply Z.mul_le_mono_nonneg_l; lia).
    assert (Bv * (2 * (A mod Bv)) <= Bv * A) by (apply Z.mul_le_mono_nonneg_l; lia). lia.
Qed.

Lemma sgz_anti s t v w : s <> t \/ (s = t /\ w = 0) -> sgz s (v + w) = sgz s v - sgz t w.
Proof. intros [H|[-> ->]]; [apply sgz_ne; assumption|]. destruct t; cbn [sgz]; lia. Qed.

Lemma neg_of_ne s t : s <> t -> s = neg_sgn t.
Proof. destruct s, t; cbn; congruence. Qed.

Lemma signed_ub_first st c d : ginv st -> digit c -> digit d -> 1 <= c ->
  c * val (gub st) + d * val (gua st) <= val a0 ->
  exists p, x_mul_sub_y_mul_signed c (gub st) (gsb st) d (gua st) (gsa st) (length a0 + 1) = Ret (p, gsb st) /\
    num p /\ val p = c * val (gub st) + d * val (gua st) /\
    sgz (gsb st) (val p) = c * sgz (gsb st) (val (gub st)) - d * sgz (gsa st) (val (gua st)).
Proof.
  intros I Hc Hd H1 Hle. pose proof (ginv_bounds st I) as (Ba & Bua & Bub). destruct I.
  pose proof (len_le _ _ gi_nua0 Na0 Bua) as Lua. pose proof (len_le _ _ gi_nub0 Na0 Bub) as Lub.
  pose proof (num_nonneg _ gi_nua0) as Hua.
  assert (Kc : 1 * val (gub st) <= c * val (gub st)) by (apply Z.mul_le_mono_nonneg_r; lia).
  assert (Kd : 0 <= d * val (gua st)) by (unfold digit in Hd; apply Z.mul_nonneg_nonneg; lia).
  destruct (signed_spec c (gub st) (gsb st) d (gua st) (gsa st) (length a0 + 1)) as (p & s & E & N & Hp); auto; try lia.
  { intros _. exists a0. split; [assumption|]. lia. }
  assert (Hs : s = gsb st /\ val p = c * val (gub st) + d * val (gua st)).
  { destruct gi_sgn0 as [Hne|[He Hz]].
    - destruct Hp as [(_ & -> & V)|[(Ec & _)|[(Ec & _)|(Ec & _)]]]; try (exfalso; apply Hne; congruence). auto.
    - rewrite Hz in *. destruct Hp as [(Ec & _)|[(_ & L & _)|[(_ & L & -> & V)|(_ & L & _)]]]; try (exfalso; apply Ec; congruence); try lia.
      split; [reflexivity|lia]. }
  destruct Hs as [-> V]. exists p. split; [exact E|]. split; [assumption|]. split; [assumption|].
  rewrite V. rewrite (sgz_anti (gsb st) (gsa st)).
  - destruct (gsa st), (gsb st); cbn [sgz]; lia.
  - destruct gi_sgn0 as [Hne|[He Hz]]; [left; congruence|right; split; [congruence|]; rewrite Hz; lia].
Qed.

Lemma signed_ua_first st c d : ginv st -> digit c -> digit d -> 1 <= c ->
  c * val (gub st) + d * val (gua st) <= val a0 ->
  exists p, x_mul_sub_y_mul_signed d (gua st) (gsa st) c (gub st) (gsb st) (length a0 + 1) = Ret (p, neg_sgn (gsb st)) /\
    num p /\ val p = c * val (gub st) + d * val (gua st) /\
    sgz (neg_sgn (gsb st)) (val p) = d * sgz (gsa st) (val (gua st)) - c * sgz (gsb st) (val (gub st)).
Proof.
  intros I Hc Hd H1 Hle. pose proof (ginv_bounds st I) as (Ba & Bua & Bub). destruct I.
  pose proof (len_le _ _ gi_nua0 Na0 Bua) as Lua. pose proof (len_le _ _ gi_nub0 Na0 Bub) as Lub.
  pose proof (num_nonneg _ gi_nua0) as Hua.
  assert (Kc : 1 * val (gub st) <= c * val (gub st)) by (apply Z.mul_le_mono_nonneg_r; lia).
  assert (Kd : 0 <= d * val (gua st)) by (unfold digit in Hd; apply Z.mul_nonneg_nonneg; lia).
  destruct (signed_spec d (gua st) (gsa st) c (gub st) (gsb st) (length a0 + 1)) as (p & s & E & N & Hp); auto; try lia.
  { intros _. exists a0. split; [assumption|]. lia. }
  assert (Hs : s = neg_sgn (gsb st) /\ val p = c * val (gub st) + d * val (gua st)).
  { destruct gi_sgn0 as [Hne|[He Hz]].
    - destruct Hp as [(_ & -> & V)|[(Ec & _)|[(Ec & _)|(Ec & _)]]]; try (exfalso; apply Hne; congruence).
      split; [apply neg_of_ne; assumption|lia].
    - rewrite Hz in *. destruct Hp as [(Ec & _)|[(_ & L & -> & V)|[(_ & L & _)|(_ & L & _)]]]; try (exfalso; apply Ec; congruence); try lia.
      split; [congruence|lia]. }
  destruct Hs as [-> V]. exists p. split; [exact E|]. split; [assumption|]. split; [assumption|].
  assert (Hn : forall v, sgz (neg_sgn (gsb st)) v = - sgz (gsb st) v) by (intros v; destruct (gsb st); cbn [sgz neg_sgn]; lia).
  rewrite Hn, V. rewrite (sgz_anti (gsb st) (gsa st)).
  - destruct (gsa st), (gsb st); cbn [sgz]; lia.
  - destruct gi_sgn0 as [Hne|[He Hz]]; [left; congruence|right; split; [congruence|]; rewrite Hz; lia].
Qed.

(** The magnitudes after a DPCC step. *)
Lemma dpcc_sum st u0 u1 v0 v1 odd : ginv st ->
  dpcc_good (val (ga st)) (val (gb st)) u0 u1 v0 v1 odd ->
  let e := sg odd in
  let A' := - e * (u0 * val (ga st) - v0 * val (gb st)) in
  let B' := e * (u1 * val (ga st) - v1 * val (gb st)) in
  let UA' := v0 * val (gub st) + u0 * val (gua st) in
  let UB' := v1 * val (gub st) + u1 * val (gua st) in
  UB' * A' + UA' * B' = val a0 /\ Z.gcd A' B' = Z.gcd (val a0) (val b0) /\
  0 < A' /\ 0 <= B' <= A' /\ A' <= val (gb st) /\ 2 * (A' * B') <= val (ga st) * val (gb st) /\
  1 <= UA' <= UB' /\ UB' <= val a0.
Proof.
  intros I (G1 & G2 & G3 & G4 & G5 & G6 & G7) e A' B' UA' UB'. destruct I.
  pose proof (num_nonneg _ gi_nua0) as Hua. pose proof (num_nonneg _ gi_nb0) as Hb.
  set (A := val (ga st)) in *. set (Bv := val (gb st)) in *. set (UA := val (gua st)) in *. set (UB := val (gub st)) in *.
  fold e in G4, G5, G6, G7.
  assert (He : e * e = 1) by (unfold e; destruct odd; reflexivity).
  assert (Hsum : UB' * A' + UA' * B' = val a0).
  { unfold UB', UA', A', B'. transitivity (e * - (u0 * v1 - u1 * v0) * (UB * A + UA * Bv)); [ring|].
    rewrite G4, gi_sum0. replace (e * - - e) with (e * e) by ring. rewrite He. ring. }
  assert (Hgcd : Z.gcd A' B' = Z.gcd (val a0) (val b0)).
  { rewrite <- gi_gcd0. unfold A', B'.
    replace (- e * (u0 * A - v0 * Bv)) with ((- e * u0) * A + (e * v0) * Bv) by ring.
    replace (e * (u1 * A - v1 * Bv)) with ((e * u1) * A + (- e * v1) * Bv) by ring.
    apply (gcd_unimod _ _ _ _ _ _ (- e)); [replace (- e * - e) with (e * e) by ring; assumption|].
    transitivity ((e * e) * (u0 * v1 - u1 * v0)); [ring|]. rewrite G4, He. ring. }
  fold A' in G5, G6, G7. fold B' in G5, G7.
  assert (HA' : 0 < A').
  { destruct (Z.eq_dec A' 0) as [Z1|]; [|lia]. exfalso. assert (Z2 : B' = 0) by lia. rewrite Z1, Z2 in Hgcd.
    rewrite <- gi_gcd0 in Hgcd. change (Z.gcd 0 0) with 0 in Hgcd. symmetry in Hgcd. apply Z.gcd_eq_0_l in Hgcd. lia. }
  clearbody A' B'.
  assert (K1 : 1 * UB <= v0 * UB) by (apply Z.mul_le_mono_nonneg_r; lia).
  assert (K2 : 0 <= u0 * UA) by (apply Z.mul_nonneg_nonneg; lia).
  assert (K3 : v0 * UB <= v1 * UB) by (apply Z.mul_le_mono_nonneg_r; lia).
  assert (K4 : u0 * UA <= u1 * UA) by (apply Z.mul_le_mono_nonneg_r; lia).
  assert (K5 : 1 <= UA' <= UB') by (unfold UA', UB'; lia). clearbody UA' UB'.
  split; [assumption|]. split; [assumption|]. split; [assumption|]. split; [lia|]. split; [assumption|].
  split; [|split; [assumption|]].
  - assert (A' * (2 * B') <= Bv * A) by (apply Z.mul_le_mono_nonneg; lia). lia.
  - assert (UB' * 1 <= UB' * A') by (apply Z.mul_le_mono_nonneg_l; lia).
    assert (0 <= UA' * B') by (apply Z.mul_nonneg_nonneg; lia). lia.
Qed.

Lemma dpcc_post st u0 u1 v0 v1 odd st' : ginv st ->
  dpcc_good (val (ga st)) (val (gb st)) u0 u1 v0 v1 odd ->
  let e := sg odd in
  num (ga st') -> num (gb st') -> num (gua st') -> num (gub st') ->
  val (ga st') = - e * (u0 * val (ga st) - v0 * val (gb st)) ->
  val (gb st') = e * (u1 * val (ga st) - v1 * val (gb st)) ->
  val (gua st') = v0 * val (gub st) + u0 * val (gua st) ->
  val (gub st') = v1 * val (gub st) + u1 * val (gua st) ->
  gsa st' <> gsb st' ->
  sgz (gsa st') (val (gua st')) = - e * (u0 * sgz (gsa st) (val (gua st)) - v0 * sgz (gsb st) (val (gub st))) ->
  sgz (gsb st') (val (gub st')) = e * (u1 * sgz (gsa st) (val (gua st)) - v1 * sgz (gsb st) (val (gub st))) ->
  ginv st' /\ 2 * (val (ga st') * val (gb st')) <= val (ga st) * val (gb st).
Proof.
  intros I G e N1 N2 N3 N4 E1 E2 E3 E4 Hs S1 S2.
  destruct (dpcc_sum st u0 u1 v0 v1 odd I G) as (D1 & D2 & D3 & D4 & D5 & D6 & D7 & D8). fold e in D1, D2, D3, D4, D5, D6, D7, D8.
  destruct I. split.
  - constructor; try assumption; rewrite ?E1, ?E2, ?E3, ?E4; try assumption; try lia.
    + left. assumption.
    + rewrite <- E3, S1. eapply (dv_comb _ _ _ (- e * u0) (e * v0) _ gi_da0 gi_db0). ring.
    + rewrite <- E4, S2. eapply (dv_comb _ _ _ (e * u1) (- e * v1) _ gi_da0 gi_db0). ring.
  - rewrite E1, E2. assumption.
Qed.

Lemma odd_step st u0 u1 v0 v1 : ginv st -> u1 < B -> v1 < B ->
  dpcc_good (val (ga st)) (val (gb st)) u0 u1 v0 v1 true ->
  exists st', iterate_dpcc_odd (length a0) (length b0) u0 u1 v0 v1 st = Ret st' /\ ginv st' /\
    2 * (val (ga st') * val (gb st')) <= val (ga st) * val (gb st).
Proof.
  intros I Hu1 Hv1 G. pose proof (ginv_bounds st I) as (Ba & Bua & Bub).
  destruct (dpcc_sum st u0 u1 v0 v1 true I G) as (D1 & D2 & D3 & D4 & D5 & D6 & D7 & D8). cbn [sg] in D1, D2, D3, D4, D5, D6.
  pose proof G as (G1 & G2 & G3 & _). pose proof I as [].
  pose proof (len_le _ _ gi_na0 Na0 Ba) as La. pose proof (len_le _ _ gi_nb0 gi_na0 gi_ba0) as Lba.
  unfold iterate_dpcc_odd. cbn zeta.
  destruct (unsigned_spec v0 (gb st) u0 (ga st) (length a0 + 1)) as (t1 & -> & N1 & V1); unfold digit; auto; try lia. cbn [obind].
  destruct (unsigned_spec u1 (ga st) v1 (gb st) (length a0 + 1)) as (t2 & -> & N2 & V2); unfold digit; auto; try lia. cbn [obind].
  rewrite (store_ret (length a0)) by (apply len_le; auto; lia). cbn [obind].
  rewrite (store_ret (length b0)) by (apply len_le; auto; lia). cbn [obind].
  destruct (signed_ub_first st v0 u0) as (w1 & -> & N3 & V3 & S3); unfold digit; auto; try lia. cbn [obind].
  destruct (signed_ua_first st v1 u1) as (w2 & -> & N4 & V4 & S4); unfold digit; auto; try lia. cbn [obind].
  rewrite (store_ret (length a0)) by (apply len_le; auto; lia). cbn [obind].
  rewrite (store_ret (length a0)) by (apply len_le; auto; lia). cbn [obind].
  eexists. split; [reflexivity|].
  apply (dpcc_post st u0 u1 v0 v1 true); cbn [ga gb gua gsa gub gsb sg]; auto; try lia.
  apply not_eq_sym, neg_sgn_ne.
Qed.

Lemma even_step st u0 u1 v0 v1 : ginv st -> u1 < B -> v1 < B ->
  dpcc_good (val (ga st)) (val (gb st)) u0 u1 v0 v1 false ->
  exists st', iterate_dpcc_even (length a0) (length b0) u0 u1 v0 v1 st = Ret st' /\ ginv st' /\
    2 * (val (ga st') * val (gb st')) <= val (ga st) * val (gb st).
Proof.
  intros I Hu1 Hv1 G. pose proof (ginv_bounds st I) as (Ba & Bua & Bub).
  destruct (dpcc_sum st u0 u1 v0 v1 false I G) as (D1 & D2 & D3 & D4 & D5 & D6 & D7 & D8). cbn [sg] in D1, D2, D3, D4, D5, D6.
  pose proof G as (G1 & G2 & G3 & _). pose proof I as [].
  pose proof (len_le _ _ gi_na0 Na0 Ba) as La. pose proof (len_le _ _ gi_nb0 gi_na0 gi_ba0) as Lba.
  unfold iterate_dpcc_even. cbn zeta.
  destruct (unsigned_spec u0 (ga st) v0 (gb st) (length a0 + 1)) as (t1 & -> & N1 & V1); unfold digit; auto; try lia. cbn [obind].
  destruct (unsigned_spec v1 (gb st) u1 (ga st) (length a0 + 1)) as (t2 & -> & N2 & V2); unfold digit; auto; try lia. cbn [obind].
  rewrite (store_ret (length a0)) by (apply len_le; auto; lia). cbn [obind].
  rewrite (store_ret (length b0)) by (apply len_le; auto; lia). cbn [obind].
  destruct (signed_ua_first st v0 u0) as (w1 & -> & N3 & V3 & S3); unfold digit; auto; try lia. cbn [obind].
  destruct (signed_ub_first st v1 u1) as (w2 & -> & N4 & V4 & S4); unfold digit; auto; try lia. cbn [obind].
  rewrite (store_ret (length a0)) by (apply len_le; auto; lia). cbn [obind].
  rewrite (store_ret (length a0)) by (apply len_le; auto; lia). cbn [obind].
  eexists. split; [reflexivity|].
  apply (dpcc_post st u0 u1 v0 v1 false); cbn [ga gb gua gsa gub gsb sg]; auto; try lia.
  apply neg_sgn_ne.
Qed.

Lemma gcd_step_spec st : ginv st -> 0 < val (gb st) ->
  exists st', gcd_step (length a0) (length b0) st = Ret st' /\ ginv st' /\
    2 * (val (ga st') * val (gb st')) <= val (ga st) * val (gb st).
Proof.
  intros I Hb. unfold gcd_step.
  destruct (Nat.ltb_spec 1 (length (gb st))) as [L|L]; [|apply euclid_step; assumption].
  destruct (hat_pair_spec (ga st) (gb st)) as (ah & bh & P & al & bl & -> & HP & Ea & Hal & Eb & Hbl & Hbh & Hah); try apply I; try lia.
  cbn [obind].
  destruct (dpcc_loop_spec (cfg:=cfg) ah bh P (val (ga st)) (val (gb st)) al bl (Z.to_nat (2 * BITS)))
    with (ah := ah) (bh := bh) (u0 := 0) (u1 := 1) (u2 := 0) (v0 := 0) (v1 := 0) (v2 := 1) (odd := true)
    as (u0 & u1 & v0 & v1 & odd & -> & H); auto; try lia.
  - pose proof (gi_ba st I). lia.
  - unfold dpcc_inv. cbn [sg]. repeat (match goal with |- _ /\ _ => split end); lia.
  - pose proof (bits_pos cfg). rewrite Z2Nat.id by lia.
    replace (2 * BITS) with (BITS + BITS) by lia. rewrite Z.pow_add_r by lia. rewrite <- base_pow.
    assert (ah * bh <= ah * ah) by (apply Z.mul_le_mono_nonneg_l; lia).
    assert (ah * ah < B * B) by (apply Z.mul_lt_mono_nonneg; lia). lia.
  - cbn [obind]. destruct (Z.eqb_spec v0 0); [apply euclid_step; assumption|].
    destruct H as [|(G & Hu & Hv)]; [contradiction|].
    destruct odd; [apply odd_step|apply even_step]; assumption.
Qed.

Lemma gcd_loop_spec fuel : forall st, ginv st -> val (ga st) * val (gb st) < 2 ^ Z.of_nat fuel ->
  exists st', gcd_loop fuel (length a0) (length b0) st = Ret st' /\ ginv st' /\ val (gb st') = 0.
Proof.
  induction fuel as [|fuel IH]; intros st I Hf; cbn [gcd_loop].
  all: rewrite is_zero_digits_spec by apply I; cbn [obind].
  all: destruct (Z.eqb_spec (val (gb st)) 0); [exists st; auto|].
  all: pose proof (num_nonneg _ (gi_nb st I)); pose proof (gi_apos st I).
  - exfalso. assert (0 < val (ga st) * val (gb st)) by (apply Z.mul_pos_pos; lia). change (2 ^ Z.of_nat 0) with 1 in Hf. lia.
  - destruct (gcd_step_spec st I ltac:(lia)) as (st' & -> & I' & M). cbn [obind]. apply IH; [assumption|].
    rewrite Nat2Z.inj_succ, Z.pow_succ_r in Hf by lia. lia.
Qed.

Lemma gcd_digits_spec : val b0 < val a0 -> 0 < val b0 ->
  exists yd yl s vd vl m, gcd_digits a0 b0 = Ret ((yd, yl, s), (vd, vl)) /\
    buf (cfg:=cfg) yd yl (length a0) m /\ buf (cfg:=cfg) vd vl (length a0) (Z.gcd (val a0) (val b0)) /\
    (val a0 | sgz s m * val b0 - Z.gcd (val a0) (val b0)).
Proof.
  intros Hlt Hb. unfold gcd_digits. rewrite cmp_digits_spec by (try apply Na0; try apply Nb0). cbn [obind].
  destruct (Z.compare_spec (val a0) (val b0)) as [E|E|E]; try lia. cbn [oassert dassert].
  rewrite is_zero_digits_spec by apply Nb0. cbn [obind]. destruct (Z.eqb_spec (val b0) 0); [lia|]. cbn [negb oassert dassert].
  pose proof (num_len1 _ Na0) as L1.
  unfold digitvec_with_len. destruct (Nat.ltb_spec 0 (length a0)) as [_|]; [|lia]. cbn [oassert dassert obind].
  destruct (gcd_loop_spec (Z.to_nat (2 * BITS) * length a0) (mkG a0 b0 [0] Positive [1] Positive)) as (st & -> & I & Hz).
  - constructor; cbn [ga gb gua gub gsa gsb]; rewrite ?val_single; try assumption; try lia.
    + apply num_single, digit_0.
    + apply num_single, digit_1.
    + right. auto.
    + cbn [sgz]. exists (-1). lia.
    + cbn [sgz]. exists 0. lia.
  - cbn [ga gb]. destruct Na0 as [_ Da]. destruct Nb0 as [_ Db].
    pose proof (val_bound _ Da) as VA. 
    assert (val a0 * val b0 < pw (length a0) * pw (length a0)) by (apply Z.mul_lt_mono_nonneg; lia).
    pose proof (bits_pos cfg). rewrite Nat2Z.inj_mul, Z2Nat.id by lia.
    replace (2 * BITS * Z.of_nat (length a0)) with (BITS * Z.of_nat (length a0) + BITS * Z.of_nat (length a0)) by lia.
    rewrite Z.pow_add_r by lia. rewrite !Z.pow_mul_r by lia. rewrite <- base_pow. exact H.
  - cbn [obind]. pose proof (ginv_bounds st I) as (Ba & Bua & Bub).
    pose proof (len_le _ _ (gi_na st I) Na0 Ba) as La. pose proof (len_le _ _ (gi_nua st I) Na0 Bua) as Lua.
    rewrite !fill_buffer_ret by assumption. cbn [obind].
    assert (Hg : val (ga st) = Z.gcd (val a0) (val b0)).
    { rewrite <- (gi_gcd st I), Hz, Z.gcd_0_r. symmetry. apply Z.abs_eq. pose proof (gi_apos st I). lia. }
    do 5 eexists. exists (val (gua st)). split; [reflexivity|]. rewrite <- Hg.
    split; [apply buf_prefix; auto; apply I|]. split; [apply buf_prefix; auto; apply I|]. apply (gi_da st I).
Qed.

End Inv.

Theorem gcd_spec a b : wf a -> wf b -> bi_val b < bi_val a -> 0 < bi_val b ->
  exists x y v, gcd a b = Ret (x, y, v) /\ wf x /\ wf y /\ wf v /\
    bi_val v = Z.gcd (bi_val a) (bi_val b) /\
    bi_val x * bi_val a + bi_val y * bi_val b = bi_val v.
Proof.
  intros Wa Wb Hlt Hb. unfold gcd.
  rewrite (bi_gt_spec a b Wa Wb). cbn [obind].
  destruct (Z.ltb_spec (bi_val b) (bi_val a)); [|lia]. cbn [oassert dassert].
  destruct (bi_zero_spec (cfg:=cfg)) as (z & -> & Wz & Vz). cbn [obind].
  rewrite (bi_gt_spec b z Wb Wz), Vz. cbn [obind]. destruct (Z.ltb_spec 0 (bi_val b)); [|lia]. cbn [oassert dassert].
  destruct (wf_inv a Wa) as (da & -> & Ca & Da & Va & _). destruct (wf_inv b Wb) as (db & -> & Cb & Db & Vb & _). cbn [obind].
  pose proof (val_bound _ Da) as Ba. pose proof (val_bound _ Db) as Bb.
  assert (Va' : bi_val a = val da) by (destruct (sign a); cbn [sgz] in Va; lia).
  assert (Vb' : bi_val b = val db) by (destruct (sign b); cbn [sgz] in Vb; lia).
  destruct (gcd_digits_spec da db (conj Ca Da) (conj Cb Db) ltac:(lia) ltac:(lia)) as (yd & yl & s & vd & vl & m & -> & By & Bv & Hd).
  cbn [obind]. destruct (buf_wf _ _ _ _ s By) as [Wy Vy]. destruct (buf_wf _ _ _ _ Positive Bv) as [Wv Vv].
  cbn [sgz] in Vv. cbn zeta.
  destruct (bi_mul_spec _ b Wy Wb) as (yb & -> & Wyb & Vyb). cbn [obind].
  destruct (bi_sub_spec _ yb Wv Wyb) as (d & -> & Wd & Vd). cbn [obind].
  destruct (bi_div_spec d a Wd Wa ltac:(lia)) as (x & -> & Wx & Vx). cbn [obind].
  do 3 eexists. split; [reflexivity|]. split; [assumption|]. split; [assumption|]. split; [assumption|].
  rewrite <- Va', <- Vb' in Vv, Hd. split; [assumption|].
  rewrite Vx, Vd, Vyb, Vy, Vv. destruct Hd as [k Hk].
  replace (Z.gcd (bi_val a) (bi_val b) - sgz s m * bi_val b) with (- k * bi_val a) by lia.
  rewrite Z.quot_mul by lia. lia.
Qed.

Lemma gcd_full a b : wf a -> wf b -> 0 < bi_val b < bi_val a ->
  exists x y v, gcd a b = Ret (x, y, v) /\ wf x /\ wf y /\ wf v /\
    bi_val v = Z.gcd (bi_val a) (bi_val b) /\
    bi_val x * bi_val a + bi_val y * bi_val b = bi_val v.
Proof. intros Wa Wb [H1 H2]. apply gcd_spec; assumption. Qed.

End Proofs.

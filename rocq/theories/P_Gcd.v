(** Correctness of the extended gcd. *)

From Verif Require Import Base M_BigInt M_Gcd S_BigInt P_BigInt1 P_BigInt2 P_BigInt3 P_BigInt4.
From Coq Require Import ZifyBool ZifyNat Znumtheory.
Open Scope Z_scope.
Ltac Zify.zify_post_hook ::= idtac.

(** * The inner loop over the leading digits, as a statement about integers *)

Section Dpcc.
Variables r0 r1 P A Bv al bl : Z.
Hypothesis HP : 0 < P.
Hypothesis HA : A = r0 * P + al.
Hypothesis HB : Bv = r1 * P + bl.
Hypothesis Hal : 0 <= al < P.
Hypothesis Hbl : 0 <= bl < P.

Definition sg (odd : bool) : Z := if odd then 1 else -1.

(** What is known after at least two iterations. *)
Definition dpcc_good (u0 u1 v0 v1 : Z) (odd : bool) : Prop :=
  let e := sg odd in
  1 <= v0 /\ 0 <= u0 <= u1 /\ v0 <= v1 /\
  u0 * v1 - u1 * v0 = - e /\
  0 <= e * (u1 * A - v1 * Bv) <= - e * (u0 * A - v0 * Bv) /\
  - e * (u0 * A - v0 * Bv) <= Bv /\
  - e * (u0 * A - v0 * Bv) + e * (u1 * A - v1 * Bv) <= A.

Definition dpcc_later (u0 u1 u2 v0 v1 v2 : Z) (odd : bool) : Prop :=
  let e := sg odd in
  (exists p, 1 <= p /\ u2 = u0 + p * u1 /\ v2 = v0 + p * v1) /\
  u1 <= u2 /\ v1 <= v2 /\ 1 <= v1 /\ 0 <= u0 /\ 0 <= v0 /\
  0 <= e * (u1 * A - v1 * Bv) <= - e * (u0 * A - v0 * Bv) /\
  - e * (u0 * A - v0 * Bv) <= A /\
  e * (u1 * A - v1 * Bv) <= Bv /\
  (v0 = 0 \/ dpcc_good u0 u1 v0 v1 odd).

Definition dpcc_inv (ah bh u0 u1 u2 v0 v1 v2 : Z) (odd : bool) : Prop :=
  let e := sg odd in
  ah = e * (u1 * r0 - v1 * r1) /\ bh = - e * (u2 * r0 - v2 * r1) /\
  0 <= bh <= ah /\
  u1 * v2 - u2 * v1 = e /\
  ah * v2 + bh * v1 = r0 /\ ah * u2 + bh * u1 = r1 /\
  0 <= u1 /\ 0 <= u2 /\ 0 <= v1 /\ 1 <= v2 /\ u2 <= v2 /\ u1 + u2 <= v1 + v2 /\
  ((u0 = 0 /\ u1 = 1 /\ u2 = 0 /\ v0 = 0 /\ v1 = 0 /\ v2 = 1 /\ odd = true) \/
   dpcc_later u0 u1 u2 v0 v1 v2 odd).

Lemma mono_l a b c : 0 <= c -> a <= b -> a * c <= b * c. Proof. nia. Qed.

(** R_{j+1} >= 0 and R_j >= R_{j+1} from the check. *)
Lemma dpcc_remainders ah bh u1 u2 v1 v2 e : e = 1 \/ e = -1 ->
  ah = e * (u1 * r0 - v1 * r1) -> bh = - e * (u2 * r0 - v2 * r1) ->
  0 <= u1 -> 0 <= u2 -> 0 <= v1 -> 1 <= v2 -> u2 <= v2 -> u1 + u2 <= v1 + v2 ->
  v2 <= bh -> v1 + v2 <= ah - bh ->
  0 <= - e * (u2 * A - v2 * Bv) /\ - e * (u2 * A - v2 * Bv) <= e * (u1 * A - v1 * Bv).
Proof.
  intros He Ea Eb H1 H2 H3 H4 H5 H6 C1 C2.
  assert (E1 : - e * (u2 * A - v2 * Bv) = bh * P - e * (u2 * al - v2 * bl)) by (rewrite HA, HB, Eb; ring).
  assert (E2 : e * (u1 * A - v1 * Bv) = ah * P + e * (u1 * al - v1 * bl)) by (rewrite HA, HB, Ea; ring).
  rewrite E1, E2.
  pose proof (mono_l _ _ P ltac:(lia) C1) as K1. pose proof (mono_l _ _ P ltac:(lia) C2) as K2.
  pose proof (mono_l _ _ P ltac:(lia) H5) as K3. pose proof (mono_l _ _ P ltac:(lia) H6) as K4.
  assert (K5 : 0 <= u2 * al <= u2 * P) by (split; [apply Z.mul_nonneg_nonneg; lia|apply Z.mul_le_mono_nonneg_l; lia]).
  assert (K6 : 0 <= v2 * bl <= v2 * P) by (split; [apply Z.mul_nonneg_nonneg; lia|apply Z.mul_le_mono_nonneg_l; lia]).
  assert (K7 : 0 <= u1 * al <= u1 * P) by (split; [apply Z.mul_nonneg_nonneg; lia|apply Z.mul_le_mono_nonneg_l; lia]).
  assert (K8 : 0 <= v1 * bl <= v1 * P) by (split; [apply Z.mul_nonneg_nonneg; lia|apply Z.mul_le_mono_nonneg_l; lia]).
  clear - K1 K2 K3 K4 K5 K6 K7 K8 He.
  rewrite Z.mul_sub_distr_r in K2. rewrite !Z.mul_add_distr_r in *. destruct He as [->| ->]; lia.
Qed.

Lemma sg_cases odd : sg odd = 1 \/ sg odd = -1.
Proof. destruct odd; auto. Qed.
Lemma sg_negb odd : sg (negb odd) = - sg odd.
Proof. destruct odd; reflexivity. Qed.

Lemma dpcc_step ah bh u0 u1 u2 v0 v1 v2 odd :
  0 <= Bv <= A ->
  dpcc_inv ah bh u0 u1 u2 v0 v1 v2 odd -> v2 <= bh -> v1 + v2 <= ah - bh ->
  let q := ah / bh in
  1 <= q /\
  dpcc_inv bh (ah mod bh) u1 u2 (u1 + q * u2) v1 v2 (v1 + q * v2) (negb odd).
Proof.
  intros HAB (Ea & Eb & Hab & Hdet & Er0 & Er1 & Hu1 & Hu2 & Hv1 & Hv2 & Huv & Huv' & Hst) C1 C2 q.
  assert (Hbh : 0 < bh) by lia.
  pose proof (Z.div_mod ah bh ltac:(lia)) as DM. pose proof (Z.mod_pos_bound ah bh Hbh) as MB. fold q in DM.
  assert (Hq : 1 <= q) by (apply Z.div_le_lower_bound; lia).
  pose proof (dpcc_remainders ah bh u1 u2 v1 v2 (sg odd) (sg_cases odd) Ea Eb Hu1 Hu2 Hv1 Hv2 Huv Huv' C1 C2) as [R1 R2].
  split; [assumption|]. clearbody q. set (r := ah mod bh) in *. clearbody r.
  unfold dpcc_inv. rewrite sg_negb. set (e := sg odd) in *.
  assert (Hqu2 : u2 <= q * u2) by (replace u2 with (1 * u2) at 1 by ring; apply Z.mul_le_mono_nonneg_r; lia).
  assert (Hqv2 : v2 <= q * v2) by (replace v2 with (1 * v2) at 1 by ring; apply Z.mul_le_mono_nonneg_r; lia).
  assert (Hqd : 0 <= (q - 1) * (v2 - u2)) by (apply Z.mul_nonneg_nonneg; lia).
  assert (Er : r = ah - bh * q) by lia.
  repeat (match goal with |- _ /\ _ => split end).
  - rewrite Eb. ring.
  - rewrite Er, Ea, Eb. ring.
  - lia.
  - lia.
  - rewrite <- Hdet. ring.
  - rewrite <- Er0, Er. ring.
  - rewrite <- Er1, Er. ring.
  - lia.
  - lia.
  - lia.
  - lia.
  - clear - Hqd Huv' Huv. rewrite Z.mul_sub_distr_r in Hqd. lia.
  - clear - Hqd Huv' Huv. rewrite Z.mul_sub_distr_r in Hqd. lia.
  - right. unfold dpcc_later. rewrite sg_negb. fold e.
    replace (- - e * (u1 * A - v1 * Bv)) with (e * (u1 * A - v1 * Bv)) by ring.
    set (Rj := e * (u1 * A - v1 * Bv)) in *. set (Rn := - e * (u2 * A - v2 * Bv)) in *.
    destruct Hst as [(-> & -> & -> & -> & -> & -> & ->)|(Hp & S1 & S2 & S3 & S4 & S5 & S6 & S7 & S8 & S9)].
    + cbn [sg] in e. subst e.
      assert (ERj : Rj = A) by (unfold Rj; ring). assert (ERn : Rn = Bv) by (unfold Rn; ring).
      split; [exists q; split; [assumption|]; split; ring|].
      rewrite ERj, ERn. repeat (split; [lia|]). left. reflexivity.
    + destruct Hp as (p & Hp1 & Hp2 & Hp3). fold e Rj in S6, S8. set (Rp := - e * (u0 * A - v0 * Bv)) in *.
      assert (ERn : Rn = Rp - p * Rj) by (unfold Rn, Rp, Rj; rewrite Hp2, Hp3; ring).
      assert (HpR : Rj <= p * Rj) by (replace Rj with (1 * Rj) at 1 by ring; apply Z.mul_le_mono_nonneg_r; lia).
      split; [exists q; split; [assumption|]; split; ring|].
      repeat (split; [lia|]). right.
      unfold dpcc_good. rewrite sg_negb. fold e.
      replace (- - e * (u1 * A - v1 * Bv)) with Rj by (unfold Rj; ring). fold Rn.
      split; [lia|]. split; [lia|]. split; [lia|]. split; [lia|]. split; [lia|]. split; lia.
Qed.

End Dpcc.

Section Proofs.
Context {cfg : digit_cfg}.
Local Notation BITS := (digit_bits cfg).
Local Notation B := (digit_base cfg).
Local Notation val := (digits_val (cfg:=cfg)).
Local Notation pw := (P_BigInt1.pw (cfg:=cfg)).

Lemma ck_digit_ret x : 0 <= x < B -> ck_digit x = Ret x.
Proof. intros H. unfold ck_digit. destruct (Z.leb_spec 0 x); [|lia]. destruct (Z.ltb_spec x B); [|lia]. reflexivity. Qed.

Lemma dpcc_loop_spec r0 r1 P A Bv al bl fuel :
  0 < P -> A = r0 * P + al -> Bv = r1 * P + bl -> 0 <= al < P -> 0 <= bl < P -> 0 <= Bv <= A ->
  0 < r0 -> 0 <= r1 -> r1 <= r0 -> r0 < B ->
  forall ah bh u0 u1 u2 v0 v1 v2 odd,
  dpcc_inv r0 r1 A Bv ah bh u0 u1 u2 v0 v1 v2 odd -> ah * bh < 2 ^ Z.of_nat fuel ->
  exists u0' u1' v0' v1' odd', dpcc_loop fuel ah bh u0 u1 u2 v0 v1 v2 odd = Ret (u0', u1', v0', v1', odd') /\
    (v0' = 0 \/ (dpcc_good A Bv u0' u1' v0' v1' odd' /\ u1' < B /\ v1' < B)).
Proof.
  intros HP HA HB Hal Hbl HAB Hpos Hr1 Hr10 Hr0. induction fuel as [|fuel IH];
  intros ah bh u0 u1 u2 v0 v1 v2 odd I Hf;
  pose proof I as (Ea & Eb & Hab & Hdet & Er0 & Er1 & Hu1 & Hu2 & Hv1 & Hv2 & Huv & Huv' & Hst).
  all: assert (Nah : ah <> 0) by (intros Zah; assert (Zbh : bh = 0) by lia; rewrite Zah, Zbh in Er0; clear - Er0 Hpos; lia).
  all: assert (Hstop : v0 = 0 \/ (dpcc_good A Bv u0 u1 v0 v1 odd /\ u1 < B /\ v1 < B) \/ (v2 <= bh /\ v1 + v2 <= ah - bh)).
  1,3: destruct Hst as [(_ & _ & _ & -> & _)|(Hp & S1 & S2 & S3 & S4 & S5 & S6 & S7 & S8 & [S9|S9])]; [left; reflexivity|left; assumption|];
    right; left; split; [assumption|];
    assert (K1 : v2 <= ah * v2) by (replace v2 with (1 * v2) at 1 by ring; apply Z.mul_le_mono_nonneg_r; lia);
    assert (K2 : 0 <= bh * v1) by (apply Z.mul_nonneg_nonneg; lia); 
    assert (K3 : u2 <= ah * u2) by (replace u2 with (1 * u2) at 1 by ring; apply Z.mul_le_mono_nonneg_r; lia);
    assert (K4 : 0 <= bh * u1) by (apply Z.mul_nonneg_nonneg; lia); lia.
  all: cbn [dpcc_loop].
  all: destruct (Z.leb_spec v2 bh) as [C1|C1]; [|cbn [obind]; exists u0, u1, v0, v1, odd; split; [reflexivity|]; destruct Hstop as [?|[?|[? ?]]]; [left; assumption|right; assumption|lia] ].
  all: assert (K1 : v2 <= ah * v2) by (replace v2 with (1 * v2) at 1 by ring; apply Z.mul_le_mono_nonneg_r; lia);
       assert (K2 : v1 <= bh * v1) by (replace v1 with (1 * v1) at 1 by ring; apply Z.mul_le_mono_nonneg_r; lia).
  all: assert (K3 : ah <= ah * v2) by (replace ah with (ah * 1) at 1 by ring; apply Z.mul_le_mono_nonneg_l; lia).
  all: rewrite (ck_digit_ret (ah - bh)), (ck_digit_ret (v1 + v2)) by lia; cbn [obind].
  all: destruct (Z.leb_spec (v1 + v2) (ah - bh)) as [C2|C2]; [|exists u0, u1, v0, v1, odd; split; [reflexivity|]; destruct Hstop as [?|[?|[? ?]]]; [left; assumption|right; assumption|lia] ].
  - exfalso. change (2 ^ Z.of_nat 0) with 1 in Hf. assert (0 < ah * bh) by (apply Z.mul_pos_pos; lia). lia.
  - pose proof (dpcc_step r0 r1 P A Bv al bl HP HA HB Hal Hbl ah bh u0 u1 u2 v0 v1 v2 odd HAB I C1 C2) as [Hq I'].
    cbn zeta in Hq, I'.
    destruct (Z.eqb_spec bh 0); [lia|]. cbn [negb oassert dassert].
    set (q := ah / bh) in *. set (r := ah mod bh) in *.
    pose proof I' as (_ & _ & Hab' & _ & Er0' & Er1' & _ & Hu3 & _ & Hv3 & _ & _ & _).
    assert (L1 : u1 + q * u2 <= bh * (u1 + q * u2)) by (replace (u1 + q * u2) with (1 * (u1 + q * u2)) at 1 by ring; apply Z.mul_le_mono_nonneg_r; lia).
    assert (L2 : v1 + q * v2 <= bh * (v1 + q * v2)) by (replace (v1 + q * v2) with (1 * (v1 + q * v2)) at 1 by ring; apply Z.mul_le_mono_nonneg_r; lia).
    assert (L3 : 0 <= r * u2) by (apply Z.mul_nonneg_nonneg; lia).
    assert (L4 : 0 <= r * v2) by (apply Z.mul_nonneg_nonneg; lia).
    assert (L5 : 0 <= q * u2) by (apply Z.mul_nonneg_nonneg; lia).
    assert (L6 : 0 <= q * v2) by (apply Z.mul_nonneg_nonneg; lia).
    rewrite (ck_digit_ret (q * u2)) by lia. cbn [obind]. rewrite (ck_digit_ret (u1 + q * u2)) by lia. cbn [obind].
    rewrite (ck_digit_ret (q * v2)) by lia. cbn [obind]. rewrite (ck_digit_ret (v1 + q * v2)) by lia. cbn [obind].
    apply IH; [exact I'|].
    pose proof (Z.div_mod ah bh ltac:(lia)) as DM. fold q r in DM.
    assert (2 * r <= ah).
    { assert (bh <= bh * q) by (replace bh with (bh * 1) at 1 by ring; apply Z.mul_le_mono_nonneg_l; lia).
      pose proof (Z.mod_pos_bound ah bh ltac:(lia)). fold r in H0. lia. }
    assert (bh * (2 * r) <= bh * ah) by (apply Z.mul_le_mono_nonneg_l; lia).
    rewrite Nat2Z.inj_succ, Z.pow_succ_r in Hf by lia. lia.
Qed.

(** * Numbers as canonical digit lists *)

Definition num (l : list Z) : Prop := canon l /\ Forall digit l.

Lemma num_nonneg l : num l -> 0 <= val l.
Proof. intros [_ H]. pose proof (val_bound _ H). lia. Qed.

Lemma num_len_mono a b : num a -> num b -> val a <= val b -> (length a <= length b)%nat.
Proof. intros [? ?] [? ?]. apply canon_len_mono; assumption. Qed.

Lemma num_single x : digit x -> num [x].
Proof. intros H. split; [apply canon_single|apply Forall_cons; [assumption|apply Forall_nil]]. Qed.

Lemma num_len1 l : num l -> (1 <= length l)%nat.
Proof. intros [H _]. apply (canon_len _ H). Qed.

Lemma prefix_spec r l n v : buf r l n v ->
  exists p, prefix (r, l) = Ret p /\ num p /\ val p = v /\ (length p <= n)%nat.
Proof.
  intros (H1 & H2 & H3 & H4 & H5 & H6). unfold prefix. cbn [fst snd]. rewrite slice_to_ret by lia.
  eexists. split; [reflexivity|]. split; [split; [assumption|apply Forall_firstn; assumption]|].
  split; [assumption|]. rewrite firstn_length. lia.
Qed.

Lemma store_ret n l : (length l <= n)%nat -> store n l = Ret l.
Proof. intros H. unfold store. destruct (Nat.leb_spec (length l) n); [reflexivity|lia]. Qed.

Lemma mul_prefix a b n : num a -> num b -> (length a + length b <= n)%nat ->
  exists p, (r <- mul_digits a b n ;; prefix r) = Ret p /\ num p /\ val p = val a * val b /\ (length p <= n)%nat.
Proof.
  intros [Ca Da] [Cb Db] Hn. destruct (mul_digits_spec a b n Ca Cb Da Db Hn) as (r & l & -> & Hb).
  apply prefix_spec in Hb as (p & E & H). exists p. split; [exact E|exact H].
Qed.

Lemma sub_prefix a b n : num a -> num b -> (length a <= n)%nat -> (length b <= n)%nat -> val b <= val a ->
  exists p, (r <- sub_digits a b n ;; prefix r) = Ret p /\ num p /\ val p = val a - val b /\ (length p <= n)%nat.
Proof.
  intros [Ca Da] [Cb Db] Ha Hb Hv.
  destruct (sub_digits_spec a b n Ca Cb Da Db ltac:(unfold subtracting_output_max_len; lia) Hv) as (r & l & -> & Hbuf).
  apply prefix_spec in Hbuf as (p & E & H). exists p. split; [exact E|exact H].
Qed.

Lemma add_prefix a b n : num a -> num b -> (length a + 1 <= n)%nat -> (length b + 1 <= n)%nat ->
  exists p, (r <- add_digits a b n ;; prefix r) = Ret p /\ num p /\ val p = val a + val b /\ (length p <= n)%nat.
Proof.
  intros [Ca Da] [Cb Db] Ha Hb.
  destruct (add_digits_spec a b n Ca Cb Da Db ltac:(unfold adding_output_max_len; lia)) as (r & l & -> & Hbuf).
  apply prefix_spec in Hbuf as (p & E & H). exists p. split; [exact E|exact H].
Qed.

Lemma bind_assoc {X Y Z'} (m : outcome X) (f : X -> outcome Y) (g : Y -> outcome Z') :
  obind (obind m f) g = obind m (fun x => obind (f x) g).
Proof. destruct m; reflexivity. Qed.

(** m ;; prefix ;; k, for any continuation *)
Lemma bind2 {X Y} (m : outcome X) (f : X -> outcome Y) {Z'} (k : Y -> outcome Z') p :
  obind m f = Ret p -> obind m (fun x => obind (f x) k) = k p.
Proof. intros H. rewrite <- bind_assoc, H. reflexivity. Qed.

Lemma unsigned_spec x d1 y d2 n : digit x -> digit y -> num d1 -> num d2 ->
  (length d1 + 1 <= n)%nat -> (length d2 + 1 <= n)%nat -> y * val d2 <= x * val d1 ->
  exists p, x_mul_sub_y_mul_unsigned x d1 y d2 n = Ret p /\ num p /\ val p = x * val d1 - y * val d2.
Proof.
  intros Hx Hy N1 N2 L1 L2 Hv. unfold x_mul_sub_y_mul_unsigned.
  destruct (mul_prefix [x] d1 n (num_single x Hx) N1 ltac:(cbn [length]; lia)) as (p1 & E1 & M1 & V1 & K1).
  destruct (mul_prefix [y] d2 n (num_single y Hy) N2 ltac:(cbn [length]; lia)) as (p2 & E2 & M2 & V2 & K2).
  rewrite val_single in V1, V2.
  destruct (mul_digits [x] d1 n) as [r1| |]; try discriminate. cbn [obind] in *.
  destruct (mul_digits [y] d2 n) as [r2| |]; try discriminate. cbn [obind] in *.
  rewrite E1, E2. cbn [obind].
  destruct (sub_prefix p1 p2 n M1 M2 K1 K2 ltac:(lia)) as (p & E & M & V & _).
  exists p. split; [exact E|]. split; [assumption|]. lia.
Qed.

Lemma neg_sgn_ne s : neg_sgn s <> s.
Proof. destruct s; discriminate. Qed.

Lemma signed_sub_spec p1 s1 p2 s2 n : num p1 -> num p2 -> (length p1 <= n)%nat -> (length p2 <= n)%nat ->
  (s1 <> s2 -> (length p1 + 1 <= n)%nat /\ (length p2 + 1 <= n)%nat) ->
  exists p s, signed_sub p1 s1 p2 s2 n = Ret (p, s) /\ num p /\
    ((s1 <> s2 /\ s = s1 /\ val p = val p1 + val p2) \/
     (s1 = s2 /\ val p1 < val p2 /\ s = neg_sgn s1 /\ val p = val p2 - val p1) \/
     (s1 = s2 /\ val p1 > val p2 /\ s = s1 /\ val p = val p1 - val p2) \/
     (s1 = s2 /\ val p1 = val p2 /\ s = Positive /\ val p = 0)).
Proof.
  intros N1 N2 L1 L2 Hn. unfold signed_sub.
  assert (Hs : sgn_eqb s1 s2 = true <-> s1 = s2) by (destruct s1, s2; cbn; split; congruence).
  destruct (sgn_eqb s1 s2) eqn:Es; cbn [negb].
  - assert (s1 = s2) by (apply Hs; reflexivity). 
    rewrite cmp_digits_spec by (try apply N1; try apply N2). cbn [obind].
    destruct (Z.compare_spec (val p1) (val p2)) as [E|E|E].
    + unfold prefix. cbn [fst snd]. rewrite slice_to_ret by (rewrite repeat_length; pose proof (num_len1 _ N1); lia).
      cbn [obind]. pose proof (num_len1 _ N1). destruct n; [lia|]. cbn [repeat firstn].
      exists [0], Positive. split; [reflexivity|]. split; [apply num_single, digit_0|]. right; right; right. rewrite val_single. auto.
    + destruct (sub_prefix p2 p1 n N2 N1 L2 L1 ltac:(lia)) as (p & Ep & M & V & _).
      erewrite bind2 by exact Ep. exists p, (neg_sgn s1). split; [reflexivity|]. split; [assumption|]. right; left. auto.
    + destruct (sub_prefix p1 p2 n N1 N2 L1 L2 ltac:(lia)) as (p & Ep & M & V & _).
      erewrite bind2 by exact Ep. exists p, s1. split; [reflexivity|]. split; [assumption|]. right; right; left. split; [assumption|]. split; [lia|]. auto.
  - assert (Hne : s1 <> s2) by (intros Hc; apply Hs in Hc; discriminate). destruct (Hn Hne).
    destruct (add_prefix p1 p2 n N1 N2) as (p & Ep & M & V & _); try assumption.
    erewrite bind2 by exact Ep. exists p, s1. split; [reflexivity|]. split; [assumption|]. left. auto.
Qed.

Lemma signed_spec x d1 s1 y d2 s2 n : digit x -> digit y -> num d1 -> num d2 ->
  (length d1 + 1 <= n)%nat -> (length d2 + 1 <= n)%nat ->
  (s1 <> s2 -> exists l, num l /\ (length l + 1 <= n)%nat /\ x * val d1 <= val l /\ y * val d2 <= val l) ->
  exists p s, x_mul_sub_y_mul_signed x d1 s1 y d2 s2 n = Ret (p, s) /\ num p /\
    ((s1 <> s2 /\ s = s1 /\ val p = x * val d1 + y * val d2) \/
     (s1 = s2 /\ x * val d1 < y * val d2 /\ s = neg_sgn s1 /\ val p = y * val d2 - x * val d1) \/
     (s1 = s2 /\ x * val d1 > y * val d2 /\ s = s1 /\ val p = x * val d1 - y * val d2) \/
     (s1 = s2 /\ x * val d1 = y * val d2 /\ s = Positive /\ val p = 0)).
Proof.
  intros Hx Hy N1 N2 L1 L2 Hs. unfold x_mul_sub_y_mul_signed.
  destruct (mul_prefix [x] d1 n (num_single x Hx) N1 ltac:(cbn [length]; lia)) as (p1 & E1 & M1 & V1 & K1).
  destruct (mul_prefix [y] d2 n (num_single y Hy) N2 ltac:(cbn [length]; lia)) as (p2 & E2 & M2 & V2 & K2).
  rewrite val_single in V1, V2.
  destruct (mul_digits [x] d1 n) as [r1| |]; try discriminate. cbn [obind] in *.
  destruct (mul_digits [y] d2 n) as [r2| |]; try discriminate. cbn [obind] in *.
  rewrite E1, E2. cbn [obind].
  destruct (signed_sub_spec p1 s1 p2 s2 n M1 M2 K1 K2) as (p & s & E & M & V).
  { intros Hne. destruct (Hs Hne) as (l & Nl & Ll & H1 & H2).
    pose proof (num_len_mono p1 l M1 Nl ltac:(lia)). pose proof (num_len_mono p2 l M2 Nl ltac:(lia)). lia. }
  exists p, s. split; [exact E|]. split; [assumption|]. rewrite V1, V2 in V. exact V.
Qed.

(** * The leading digits *)

Lemma checked_shr_spec y t : digit y -> 0 <= t < BITS -> checked_shr_digit y (BITS - t) = y / 2 ^ (BITS - t).
Proof.
  intros Hy Ht. unfold checked_shr_digit. destruct (Z.ltb_spec (BITS - t) BITS); [reflexivity|].
  assert (t = 0) by lia. subst. rewrite Z.sub_0_r, <- base_pow. symmetry. apply Z.div_small. exact Hy.
Qed.

Lemma hat_two l s m t : Forall digit l -> digit s -> digit m -> 0 <= t < BITS -> m * 2 ^ t < B ->
  exists lo, let h := Z.lor ((m * 2 ^ t) mod B) (s / 2 ^ (BITS - t)) in
    val (l ++ [s; m]) = h * (pw (length l) * 2 ^ (BITS - t)) + lo /\
    0 <= lo < pw (length l) * 2 ^ (BITS - t) /\ 0 <= h < B /\ m * 2 ^ t <= h.
Proof.
  intros Dl Ds Dm Ht Hm. rewrite lor_shift by assumption.
  destruct (split_base t Ht) as (P1 & P2 & E).
  assert (Hm' : m mod 2 ^ (BITS - t) = m).
  { apply Z.mod_small. unfold digit in Dm. split; [lia|].
    apply (Z.mul_lt_mono_pos_r (2 ^ t)); [lia|]. rewrite (Z.mul_comm (2 ^ (BITS - t))), E. exact Hm. }
  rewrite Hm'. set (Q := 2 ^ (BITS - t)) in *. set (T := 2 ^ t) in *.
  pose proof (Z.div_mod s Q ltac:(lia)) as DM. pose proof (Z.mod_pos_bound s Q P2) as MB.
  pose proof (val_bound _ Dl) as VB. pose proof (pw_pos (cfg:=cfg) (length l)) as PP.
  assert (Hs : 0 <= s / Q < T).
  { unfold digit in Ds. split; [apply Z.div_pos; lia|]. apply Z.div_lt_upper_bound; [lia|]. rewrite Z.mul_comm, E. lia. }
  exists (val l + pw (length l) * (s mod Q)). cbn zeta. split; [|split; [|split]].
  - assert (K : s + B * (m + B * 0) = (T * m + s / Q) * Q + s mod Q) by (rewrite <- E; rewrite DM at 1; ring).
    rewrite val_app. cbn [digits_val]. rewrite K. set (p := pw (length l)). ring.
  - split; [apply Z.add_nonneg_nonneg; [lia|apply Z.mul_nonneg_nonneg; lia]|].
    assert (pw (length l) * (s mod Q + 1) <= pw (length l) * Q) by (apply Z.mul_le_mono_nonneg_l; lia). lia.
  - unfold digit in Dm. split; [apply Z.add_nonneg_nonneg; [apply Z.mul_nonneg_nonneg; lia|lia]|].
    assert (HmQ : m < Q) by (apply (Z.mul_lt_mono_pos_r T); [lia|]; rewrite (Z.mul_comm Q), E; exact Hm).
    assert (T * (m + 1) <= T * Q) by (apply Z.mul_le_mono_nonneg_l; lia). lia.
  - lia.
Qed.

Lemma hat_one l m t : Forall digit l -> digit m -> 0 <= t < BITS ->
  exists lo, let h := m / 2 ^ (BITS - t) in
    val (l ++ [m]) = h * (pw (length l) * 2 ^ (BITS - t)) + lo /\
    0 <= lo < pw (length l) * 2 ^ (BITS - t) /\ 0 <= h.
Proof.
  intros Dl Dm Ht. destruct (split_base t Ht) as (P1 & P2 & E).
  set (Q := 2 ^ (BITS - t)) in *.
  pose proof (Z.div_mod m Q ltac:(lia)) as DM. pose proof (Z.mod_pos_bound m Q P2) as MB.
  pose proof (val_bound _ Dl) as VB. pose proof (pw_pos (cfg:=cfg) (length l)) as PP.
  exists (val l + pw (length l) * (m mod Q)). cbn zeta. split; [|split].
  - rewrite val_app, val_single. rewrite DM at 1. set (p := pw (length l)). ring.
  - split; [apply Z.add_nonneg_nonneg; [lia|apply Z.mul_nonneg_nonneg; lia]|].
    assert (pw (length l) * (m mod Q + 1) <= pw (length l) * Q) by (apply Z.mul_le_mono_nonneg_l; lia). lia.
  - unfold digit in Dm. apply Z.div_pos; lia.
Qed.

Lemma two_last (l : list Z) : (2 <= length l)%nat -> exists l' s m, l = l' ++ [s; m].
Proof.
  intros H. assert (l <> []) by (destruct l; [cbn in H; lia|discriminate]).
  destruct (exists_last H0) as (l1 & m & ->). rewrite app_length in H. cbn [length] in H.
  assert (l1 <> []) by (destruct l1; [cbn in H; lia|discriminate]).
  destruct (exists_last H1) as (l2 & s & ->). exists l2, s, m. rewrite <- app_assoc. reflexivity.
Qed.

Lemma index_app_r (l r : list Z) i x : nth_error r i = Some x -> index (l ++ r) (length l + i) = Ret x.
Proof.
  intros H. unfold index. rewrite nth_error_app2 by lia. replace (length l + i - length l)%nat with i by lia.
  rewrite H. reflexivity.
Qed.

Lemma hat_pair_spec a b : num a -> num b -> val b <= val a -> (2 <= length b)%nat ->
  exists ah bh P al bl, hat_pair a b = Ret (ah, bh) /\ 0 < P /\
    val a = ah * P + al /\ 0 <= al < P /\ val b = bh * P + bl /\ 0 <= bl < P /\
    0 <= bh <= ah /\ 0 < ah < B.
Proof.
  intros Na Nb Hv Lb. pose proof (num_len_mono b a Nb Na Hv) as Lab.
  destruct (two_last a ltac:(lia)) as (la & sa & ma & ->). destruct Na as [Ca Da].
  apply Forall_app in Da as [Dla Dsm]. apply Forall_cons_iff in Dsm as [Dsa Dma]. apply Forall_cons_iff in Dma as [Dma _].
  assert (Hma : 0 < ma < B).
  { destruct Ca as [_ [Hc|Hc]]; [rewrite app_length in Hc; cbn in Hc; lia|].
    replace (la ++ [sa; ma]) with ((la ++ [sa]) ++ [ma]) in Hc by (rewrite <- app_assoc; reflexivity).
    rewrite last_app_single in Hc. unfold digit in Dma. lia. }
  destruct (leading_zeros_spec ma Hma) as (Ht & Ht1 & Ht2). unfold hat_pair.
  assert (La : length (la ++ [sa; ma]) = (length la + 2)%nat) by (rewrite app_length; reflexivity).
  set (t := leading_zeros ma) in *.
  rewrite La. replace (length la + 2 - 1)%nat with (length la + 1)%nat by lia.
  replace (length la + 2 - 2)%nat with (length la + 0)%nat by lia.
  rewrite !(index_app_r la [sa; ma] 1 ma), !(index_app_r la [sa; ma] 0 sa) by reflexivity. cbn [obind]. fold t. 
  rewrite shl_digit_ret by assumption. cbn [obind]. rewrite checked_shr_spec by assumption.
  destruct (Nat.leb_spec (length b) (length la + 2)); [|lia]. cbn [oassert dassert].
  destruct (hat_two la sa ma t Dla Dsa Dma Ht Ht1) as (lo & Ea & Hlo & Hh & Hmh). cbn zeta in *.
  set (ah := Z.lor ((ma * 2 ^ t) mod B) (sa / 2 ^ (BITS - t))) in *. clearbody ah.
  destruct (split_base t Ht) as (P1 & P2 & EB).
  set (P := pw (length la) * 2 ^ (BITS - t)) in *.
  assert (HP : 0 < P) by (apply Z.mul_pos_pos; [apply pw_pos|assumption]).
  assert (Hahpos : 0 < ah) by (assert (0 < ma * 2 ^ t) by (apply Z.mul_pos_pos; lia); lia).
  assert (Hmono : forall bh bl, val b = bh * P + bl -> 0 <= bl -> bh <= ah).
  { intros bh bl E Hbl. apply Z.lt_succ_r. apply (Z.mul_lt_mono_pos_r P); [assumption|]. unfold Z.succ. lia. }
  destruct Nb as [Cb Db].
  destruct (length la + 2 - length b)%nat as [|[|k]] eqn:Ed.
  - destruct (two_last b Lb) as (lb & sb & mb & ->). assert (Ll : length lb = length la) by (rewrite app_length in *; cbn [length] in *; lia).
    rewrite app_length. cbn [length]. replace (length lb + 2 - 1)%nat with (length lb + 1)%nat by lia.
    replace (length lb + 2 - 2)%nat with (length lb + 0)%nat by lia.
    rewrite !(index_app_r lb [sb; mb] 1 mb), !(index_app_r lb [sb; mb] 0 sb) by reflexivity. cbn [obind].
    apply Forall_app in Db as [Dlb Dsm]. apply Forall_cons_iff in Dsm as [Dsb Dmb]. apply Forall_cons_iff in Dmb as [Dmb _].
    rewrite shl_digit_ret by assumption. cbn [obind]. rewrite checked_shr_spec by assumption.
    assert (Hmm : mb <= ma).
    { destruct (Z.le_gt_cases mb ma); [assumption|]. exfalso. rewrite !val_app, Ll in Hv. cbn [digits_val] in Hv.
      pose proof (val_bound _ Dla). pose proof (val_bound _ Dlb). pose proof (pw_pos (cfg:=cfg) (length la)).
      set (p := pw (length la)) in *. unfold digit in Dsa, Dsb. clear - Hv H0 H1 H2 H3 Dsa Dsb EB P1 P2.
      assert (B * ma + B <= B * mb) by (replace (B * ma + B) with (B * (ma + 1)) by ring; apply Z.mul_le_mono_nonneg_l; lia).
      assert (p * (sa + B * (ma + B * 0) + 1) <= p * (sb + B * (mb + B * 0))) by (apply Z.mul_le_mono_nonneg_l; lia). lia. }
    assert (Hmb : mb * 2 ^ t < B) by (assert (mb * 2 ^ t <= ma * 2 ^ t) by (apply Z.mul_le_mono_nonneg_r; lia); lia).
    destruct (hat_two lb sb mb t Dlb Dsb Dmb Ht Hmb) as (lob & Eb & Hlob & Hhb & _). cbn zeta in *. rewrite Ll in Eb, Hlob. fold P in Eb, Hlob.
    exists ah, (Z.lor ((mb * 2 ^ t) mod B) (sb / 2 ^ (BITS - t))), P, lo, lob.
    split; [reflexivity|]. split; [assumption|]. split; [assumption|]. split; [assumption|]. split; [assumption|]. split; [assumption|].
    split; [|lia]. split; [lia|]. eapply Hmono; [exact Eb|lia].
  - assert (b <> []) by (apply canon_nonempty; assumption). destruct (exists_last H0) as (lb & mb & ->).
    rewrite app_length in *. cbn [length] in *. assert (Ll : length lb = (length la)%nat) by lia.
    replace (length lb + 1 - 1)%nat with (length lb + 0)%nat by lia. rewrite (index_app_r lb [mb] 0 mb) by reflexivity. cbn [obind].
    apply Forall_app in Db as [Dlb Dmb]. apply Forall_cons_iff in Dmb as [Dmb _].
    rewrite checked_shr_spec by assumption.
    destruct (hat_one lb mb t Dlb Dmb Ht) as (lob & Eb & Hlob & Hhb). cbn zeta in *. rewrite Ll in Eb, Hlob. fold P in Eb, Hlob.
    exists ah, (mb / 2 ^ (BITS - t)), P, lo, lob.
    split; [reflexivity|]. split; [assumption|]. split; [assumption|]. split; [assumption|]. split; [assumption|]. split; [assumption|].
    split; [|lia]. split; [lia|]. eapply Hmono; [exact Eb|lia].
  - exists ah, 0, P, lo, (val b). cbn [obind]. pose proof (val_bound _ Db) as VB.
    assert (pw (length b) <= pw (length la)) by (apply Z.pow_le_mono_r; [pose proof (base_ge cfg); lia|lia]).
    assert (pw (length la) * 1 <= P) by (apply Z.mul_le_mono_nonneg_l; [pose proof (pw_pos (cfg:=cfg) (length la)); lia|lia]).
    split; [reflexivity|]. split; [assumption|]. split; [assumption|]. split; [assumption|]. split; [lia|]. split; [lia|]. lia.
Qed.

End Proofs.

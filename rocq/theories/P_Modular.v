(** Proofs about the modular arithmetic functions. *)

From Verif Require Import Base M_Loop M_BigInt M_Gcd M_Modular S_BigInt
  P_BigInt1 P_BigInt3 P_BigInt4 P_BigApi P_Gcd2 P_NumTheory.
From Coq Require Import ZifyBool Znumtheory Setoid Morphisms.
Open Scope Z_scope.
Ltac Zify.zify_post_hook ::= idtac.

(** The loop combinator, by a decreasing measure. *)
Section Loop.
Context {S R : Type} (body : S -> outcome (S + R)) (I : S -> Prop) (mu : S -> Z) (Q : R -> Prop).
Hypothesis Hstep : forall s, I s ->
  (exists s', body s = Ret (inl s') /\ I s' /\ mu s' < mu s) \/ (exists r, body s = Ret (inr r) /\ Q r).

Lemma loop_spec n : forall s, I s ->
  (exists s', loop n body s = Ret (inl s') /\ I s' /\ mu s' + 2 ^ Z.of_nat n <= mu s) \/
  (exists r, loop n body s = Ret (inr r) /\ Q r).
Proof.
  induction n as [|n IH]; intros s Hs; cbn [loop].
  - destruct (Hstep s Hs) as [(s' & E & H1 & H2)|H]; [left|right; assumption].
    exists s'. change (2 ^ Z.of_nat 0) with 1. repeat split; auto. lia.
  - destruct (IH s Hs) as [(s1 & -> & H1 & M1)|(r & -> & H)]; cbn [obind]; [|right; exists r; auto].
    destruct (IH s1 H1) as [(s2 & -> & H2 & M2)|(r & -> & H)]; [left|right; exists r; auto].
    exists s2. rewrite Nat2Z.inj_succ, Z.pow_succ_r by lia. repeat split; auto. lia.
Qed.

Lemma run_loop_spec n s : I s -> (forall s, I s -> 0 <= mu s) -> mu s < 2 ^ Z.of_nat n ->
  exists r, run_loop n body s = Ret r /\ Q r.
Proof.
  intros Hs Hpos Hm. unfold run_loop. destruct (loop_spec n s Hs) as [(s' & -> & H1 & M1)|(r & -> & H)]; cbn [obind].
  - specialize (Hpos s' H1). lia.
  - exists r. auto.
Qed.
End Loop.

Ltac ret L r W V := destruct L as (r & -> & W & V); cbn [obind].

Section Proofs.
Context {cfg : digit_cfg}.
Local Notation bi_val := (S_BigInt.bi_val (cfg:=cfg)).

Lemma bi_ne_spec x y : wf x -> wf y -> bi_ne x y = Ret (negb (bi_val x =? bi_val y)).
Proof. intros. unfold bi_ne. rewrite bi_eq_spec by assumption. reflexivity. Qed.

Lemma fuel_of_spec x : wf x -> exists n, fuel_of x = Ret n /\ Z.abs (bi_val x) < 2 ^ Z.of_nat n.
Proof.
  intros W. unfold fuel_of. destruct (bit_len_full x W) as (n & -> & _ & (H1 & H2 & _) & _). cbn [obind].
  exists (Z.to_nat n). split; [reflexivity|]. rewrite Z2Nat.id by lia. assumption.
Qed.

(** The conditions of the debug assertions. *)
Lemma dcheck_true {A} m (k : outcome A) : m = Ret true -> dcheck m k = k.
Proof. intros ->. unfold dcheck. destruct (debug_checks cfg); reflexivity. Qed.
Lemma dcheck_false {A} m (k : outcome A) : m = Ret false -> dcheck m k = if debug_checks cfg then Panic else k.
Proof. intros ->. unfold dcheck. destruct (debug_checks cfg); reflexivity. Qed.
Lemma gt_zero_spec n : wf n -> (z <- bi_zero ;; bi_gt n z) = Ret (0 <? bi_val n).
Proof. intros W. ret bi_zero_spec z Wz Vz. now rewrite (bi_gt_spec n z W Wz), Vz. Qed.
Lemma ge_zero_spec n : wf n -> (z <- bi_zero ;; bi_ge n z) = Ret (0 <=? bi_val n).
Proof. intros W. ret bi_zero_spec z Wz Vz. now rewrite (bi_ge_spec n z W Wz), Vz. Qed.
Lemma gt_zero n : wf n -> 0 < bi_val n -> (z <- bi_zero ;; bi_gt n z) = Ret true.
Proof. intros W H. rewrite gt_zero_spec by assumption. f_equal. lia. Qed.
Lemma ge_zero n : wf n -> 0 <= bi_val n -> (z <- bi_zero ;; bi_ge n z) = Ret true.
Proof. intros W H. rewrite ge_zero_spec by assumption. f_equal. lia. Qed.
Lemma gt_one n : wf n -> 1 < bi_val n -> (o <- bi_one ;; bi_gt n o) = Ret true.
Proof. intros W H. ret bi_one_spec o Wo Vo. rewrite (bi_gt_spec n o W Wo), Vo. f_equal. lia. Qed.
Lemma lt_true a n : wf a -> wf n -> bi_val a < bi_val n -> bi_lt a n = Ret true.
Proof. intros Wa Wn H. rewrite bi_lt_spec by assumption. f_equal. lia. Qed.
Lemma not_zero_spec a : wf a -> (z <- is_zero a ;; Ret (negb z)) = Ret (negb (bi_val a =? 0)).
Proof. intros W. now rewrite is_zero_spec by assumption. Qed.

Lemma modulo_spec a n : wf a -> wf n -> 0 < bi_val n -> returns (modulo a n) (bi_val a mod bi_val n).
Proof.
  intros Wa Wn Hn. unfold modulo. rewrite dcheck_true by now apply gt_zero.
  destruct bi_zero_spec as (z & Ez & Wz & Vz).
  ret (bi_rem_spec a n Wa Wn ltac:(lia)) r Wr Vr.
  rewrite Ez. cbn [obind]. rewrite (bi_lt_spec r z Wr Wz), Vz. cbn [obind].
  pose proof (Z.rem_bound_abs (bi_val a) (bi_val n) ltac:(lia)) as Hb.
  pose proof (Z.quot_rem' (bi_val a) (bi_val n)) as Hq.
  destruct (Z.ltb_spec (bi_val r) 0) as [L|L].
  - destruct (bi_add_spec r n Wr Wn) as (s & -> & Ws & Vs). exists s. split; [reflexivity|]. split; [assumption|].
    rewrite Vs, Vr. apply (Z.mod_unique_pos _ _ (Z.quot (bi_val a) (bi_val n) - 1)); lia.
  - exists r. split; [reflexivity|]. split; [assumption|]. rewrite Vr.
    apply (Z.mod_unique_pos _ _ (Z.quot (bi_val a) (bi_val n))); lia.
Qed.

(** A modulus that is not positive: zero is always refused; a negative one only by a debug build. *)
Lemma modulo_zero a n : wf a -> wf n -> bi_val n = 0 -> modulo a n = Panic.
Proof.
  intros Wa Wn Hn. unfold modulo. rewrite dcheck_false by (rewrite gt_zero_spec by assumption; f_equal; lia).
  destruct (debug_checks cfg); [reflexivity|]. now rewrite (proj2 (proj2 (P_BigApi.div_panics a n Wa Wn)) Hn).
Qed.
Lemma modulo_negative_debug a n : debug_checks cfg = true -> wf a -> wf n -> bi_val n < 0 -> modulo a n = Panic.
Proof.
  intros G Wa Wn Hn. unfold modulo. rewrite dcheck_false by (rewrite gt_zero_spec by assumption; f_equal; lia).
  now rewrite G.
Qed.
Lemma modulo_negative_release a n : debug_checks cfg = false -> wf a -> wf n -> bi_val n < 0 ->
  returns (modulo a n) (Z.rem (bi_val a) (bi_val n) + if Z.rem (bi_val a) (bi_val n) <? 0 then bi_val n else 0).
Proof.
  intros G Wa Wn Hn. unfold modulo. rewrite dcheck_false by (rewrite gt_zero_spec by assumption; f_equal; lia).
  rewrite G. destruct bi_zero_spec as (z & Ez & Wz & Vz). ret (bi_rem_spec a n Wa Wn ltac:(lia)) r Wr Vr.
  rewrite Ez. cbn [obind]. rewrite (bi_lt_spec r z Wr Wz), Vz. cbn [obind]. rewrite <- Vr.
  destruct (Z.ltb_spec (bi_val r) 0) as [L|L].
  - destruct (bi_add_spec r n Wr Wn) as (s & -> & Ws & Vs). exists s. split; [reflexivity|]. split; assumption.
  - exists r. split; [reflexivity|]. split; [assumption|]. lia.
Qed.

(** * Inverse *)

Lemma invert_start a n {A} (k : bigint -> outcome A) : wf a -> wf n -> 1 < bi_val n -> bi_val a <> 0 ->
  exists a', wf a' /\ bi_val a' = bi_val a mod bi_val n /\
  (debug_check! (one <- bi_one ;; bi_gt n one) ;; debug_check! (az <- is_zero a ;; Ret (negb az)) ;; a' <- modulo a n ;; k a') = k a'.
Proof.
  intros Wa Wn Hn Ha. rewrite dcheck_true by now apply gt_one.
  rewrite dcheck_true. 2:{ rewrite not_zero_spec by assumption. destruct (Z.eqb_spec (bi_val a) 0); [lia|reflexivity]. }
  ret (modulo_spec a n Wa Wn ltac:(lia)) a' Wa' Va'. exists a'. auto.
Qed.

Lemma invert_spec a n : wf a -> wf n -> 1 < bi_val n -> bi_val a mod bi_val n <> 0 ->
  (Z.gcd (bi_val a) (bi_val n) = 1 ->
    exists x, invert a n = Ret (Some x) /\ wf x /\ 0 < bi_val x < bi_val n /\ (bi_val a * bi_val x) mod bi_val n = 1) /\
  (Z.gcd (bi_val a) (bi_val n) <> 1 -> invert a n = Ret None).
Proof.
  intros Wa Wn Hn Ha.
  assert (Ha0 : bi_val a <> 0) by (intros E; apply Ha; rewrite E; apply Z.mod_0_l; lia).
  unfold invert. destruct (invert_start a n (fun a' => 
     '(_, y, v) <- gcd n a' ;; one' <- bi_one ;; ne <- bi_ne v one' ;;
     if (ne : bool) then Ret None else r <- modulo y n ;; Ret (Some r)) Wa Wn Hn Ha0) as (a' & Wa' & Va' & ->).
  pose proof (Z.mod_pos_bound (bi_val a) (bi_val n) ltac:(lia)) as MB.
  destruct (gcd_spec n a' Wn Wa' ltac:(lia) ltac:(lia)) as (x & y & v & -> & Wx & Wy & Wv & Hg & Hb). cbn [obind].
  ret bi_one_spec o Wo Vo. rewrite (bi_ne_spec v o Wv Wo), Vo. cbn [obind].
  assert (Eg : bi_val v = Z.gcd (bi_val a) (bi_val n)).
  { rewrite Hg, Va'. rewrite Z.gcd_comm, Z.gcd_mod by lia. apply Z.gcd_comm. }
  rewrite <- Eg. destruct (Z.eqb_spec (bi_val v) 1) as [E|E]; cbn [negb]; split; intros K; try contradiction; [|reflexivity].
  ret (modulo_spec y n Wy Wn ltac:(lia)) r Wr Vr. exists r. split; [reflexivity|]. split; [assumption|].
  assert (Hone : (bi_val a * bi_val r) mod bi_val n = 1).
  { apply cg_eq_mod; [lia|]. rewrite Vr, (cg_mod_l _ (bi_val y)) by lia.
    rewrite <- (cg_mod_l _ (bi_val a)) by lia. rewrite <- Va', <- E, <- Hb. exists (- bi_val x). lia. }
  split; [|assumption]. pose proof (Z.mod_pos_bound (bi_val y) (bi_val n) ltac:(lia)).
  assert (bi_val r <> 0); [|lia]. intros Z0. rewrite Z0, Z.mul_0_r, Z.mod_0_l in Hone; lia.
Qed.

Lemma invert_panics a n : wf a -> wf n -> 1 < bi_val n -> bi_val a mod bi_val n = 0 -> invert a n = Panic.
Proof.
  intros Wa Wn Hn Ha. destruct (Z.eq_dec (bi_val a) 0) as [E|E].
  - unfold invert. rewrite dcheck_true by now apply gt_one.
    rewrite dcheck_false by (rewrite not_zero_spec, E by assumption; reflexivity). destruct (debug_checks cfg); [reflexivity|].
    ret (modulo_spec a n Wa Wn ltac:(lia)) a' Wa' Va'. unfold gcd. rewrite (bi_gt_spec n a' Wn Wa'), Va', Ha. cbn [obind].
    destruct (Z.ltb_spec 0 (bi_val n)); [|lia]. cbn [oassert dassert].
    ret bi_zero_spec z Wz Vz. rewrite (bi_gt_spec a' z Wa' Wz), Va', Vz, Ha. reflexivity.
  - unfold invert. destruct (invert_start a n (fun a' => 
     '(_, y, v) <- gcd n a' ;; one' <- bi_one ;; ne <- bi_ne v one' ;;
     if (ne : bool) then Ret None else r <- modulo y n ;; Ret (Some r)) Wa Wn Hn E) as (a' & Wa' & Va' & ->).
    unfold gcd. rewrite (bi_gt_spec n a' Wn Wa'), Va', Ha. cbn [obind].
    destruct (Z.ltb_spec 0 (bi_val n)); [|lia]. cbn [oassert dassert].
    ret bi_zero_spec z Wz Vz. rewrite (bi_gt_spec a' z Wa' Wz), Va', Vz, Ha. reflexivity.
Qed.

(** * Exponentiation *)

Lemma pow_spec a e n : wf a -> wf e -> wf n -> 0 < bi_val a < bi_val n -> 0 <= bi_val e ->
  returns (pow a e n) (bi_val a ^ bi_val e mod bi_val n).
Proof.
  intros Wa We Wn Ha He. unfold pow.
  rewrite !dcheck_true; try (apply gt_zero; assumption || lia); try (now apply ge_zero); try (apply lt_true; assumption || lia).
  ret bi_zero_spec z Wz Vz.
  ret bi_one_spec o Wo Vo.
  destruct (fuel_of_spec e We) as (fuel & -> & Hf). cbn [obind].
  destruct (run_loop_spec (pow_body n z)
    (fun st => let '(ex, b, r) := st in wf ex /\ wf b /\ wf r /\ 0 <= bi_val ex /\ 0 <= bi_val b /\ 0 <= bi_val r < bi_val n /\
       cg (bi_val n) (bi_val r * bi_val b ^ bi_val ex) (bi_val a ^ bi_val e))
    (fun st => let '(ex, _, _) := st in bi_val ex)
    (fun r => wf r /\ bi_val r = bi_val a ^ bi_val e mod bi_val n)) with (n := fuel) (s := (e, a, o)) as (r & -> & Wr & Vr).
  - intros [[ex b] r] (W1 & W2 & W3 & H3 & H4 & H5 & H6). unfold pow_body.
    rewrite (bi_gt_spec ex z W1 Wz), Vz. cbn [obind]. destruct (Z.ltb_spec 0 (bi_val ex)) as [L|L].
    + left. rewrite is_odd_spec by assumption. cbn [obind].
      assert (HR : exists r', (if Z.odd (bi_val ex) then t <- bi_mul r b ;; bi_rem t n else Ret r) = Ret r' /\ wf r' /\
        0 <= bi_val r' < bi_val n /\ cg (bi_val n) (bi_val r') (bi_val r * bi_val b ^ (bi_val ex mod 2))).
      { rewrite Zmod_odd. destruct (Z.odd (bi_val ex)).
        - ret (bi_mul_spec r b W3 W2) t Wt Vt. destruct (bi_rem_spec t n Wt Wn ltac:(lia)) as (r' & -> & Wr' & Vr').
          assert (0 <= bi_val t) by (rewrite Vt; apply Z.mul_nonneg_nonneg; lia).
          rewrite Z.rem_mod_nonneg in Vr' by lia. exists r'. split; [reflexivity|]. split; [assumption|].
          split; [rewrite Vr'; apply Z.mod_pos_bound; lia|].
          rewrite Vr', (cg_mod_l _ (bi_val t)), Vt, Z.pow_1_r by lia. reflexivity.
        - exists r. rewrite Z.pow_0_r, Z.mul_1_r. split; [reflexivity|]. split; [assumption|]. split; [assumption|]. reflexivity. }
      destruct HR as (r' & -> & Wr' & Hr' & Cr'). cbn [obind].
      ret (shr_full ex 1 W1 ltac:(lia)) ex' We' Ve'. 
      assert (Ve : bi_val ex' = bi_val ex / 2).
      { rewrite Ve'. rewrite Z.sgn_pos, Z.abs_eq by lia. change (2 ^ 1) with 2. lia. }
      ret (bi_mul_spec b b W2 W2) b2 Wb2 Vb2. ret (bi_rem_spec b2 n Wb2 Wn ltac:(lia)) b' Wb' Vb'.
      assert (0 <= bi_val b2) by (rewrite Vb2; apply Z.mul_nonneg_nonneg; lia).
      rewrite Z.rem_mod_nonneg in Vb' by lia.
      assert (Hhalf : 0 <= bi_val ex / 2 < bi_val ex) by (split; [apply Z.div_pos; lia|apply Z.div_lt; lia]).
      eexists. split; [reflexivity|]. split; [|lia].
      split; [assumption|]. split; [assumption|]. split; [assumption|]. split; [lia|].
      split; [rewrite Vb'; apply Z.mod_pos_bound; lia|]. split; [assumption|].
      rewrite <- H6, Cr', Vb', (cg_mod_l _ (bi_val b2)), Vb2, Ve by lia.
      apply cg_of_eq. pose proof (Z.div_mod (bi_val ex) 2 ltac:(lia)) as DM.
      pose proof (Z.mod_pos_bound (bi_val ex) 2 ltac:(lia)) as MB.
      set (q := bi_val ex / 2) in *. set (w := bi_val ex mod 2) in *. rewrite DM. clearbody q w. rewrite Z.pow_add_r, Z.pow_mul_r by lia. rewrite Z.pow_2_r. ring.
    + right. exists r. split; [reflexivity|]. split; [assumption|]. symmetry. apply cg_eq_mod; [assumption|].
      rewrite <- H6. replace (bi_val ex) with 0 by lia. rewrite Z.pow_0_r, Z.mul_1_r. reflexivity.
  - split; [assumption|]. split; [assumption|]. split; [assumption|]. split; [assumption|]. split; [lia|]. rewrite Vo.
    split; [lia|]. rewrite Z.mul_1_l. reflexivity.
  - intros [[ex b] r] (_ & _ & _ & H3 & _). assumption.
  - lia.
  - exists r. auto.
Qed.

(** * Square roots *)

Lemma one_shl_spec k : 0 <= k -> returns (one_shl k) (2 ^ k).
Proof.
  intros Hk. unfold one_shl. destruct (Z.leb_spec 0 k); [|lia]. cbn [oassert dassert].
  ret bi_one_spec o Wo Vo. destruct (bi_shl_spec o k Wo Hk) as (r & -> & V & W).
  exists r. split; [reflexivity|]. split; [apply W; left; lia|]. rewrite V, Vo. lia.
Qed.

Section Sqrt.
Variables (a p one : bigint).
Hypothesis Wa : wf a.
Hypothesis Wp : wf p.
Hypothesis Wone : wf one.
Hypothesis Vone : bi_val one = 1.
Hypothesis Hprime : prime (bi_val p).
Hypothesis Hp2 : 2 < bi_val p.
Hypothesis Ha : 0 < bi_val a < bi_val p.
Local Notation P := (bi_val p).
Local Notation "x == y" := (cg P x y) (at level 70).

Lemma mulmod_spec x y {A} (k : bigint -> outcome A) : wf x -> wf y -> 0 <= bi_val x -> 0 <= bi_val y ->
  exists r, wf r /\ 0 <= bi_val r < P /\ bi_val r == bi_val x * bi_val y /\ (t <- bi_mul x y ;; t' <- bi_rem t p ;; k t') = k r.
Proof.
  intros Wx Wy Hx Hy. ret (bi_mul_spec x y Wx Wy) t Wt Vt. ret (bi_rem_spec t p Wt Wp ltac:(lia)) r Wr Vr.
  assert (0 <= bi_val t) by (rewrite Vt; apply Z.mul_nonneg_nonneg; lia).
  rewrite Z.rem_mod_nonneg in Vr by lia. exists r. split; [assumption|]. split; [rewrite Vr; apply Z.mod_pos_bound; lia|].
  split; [|reflexivity]. rewrite Vr, (cg_mod_l _ (bi_val t)), Vt by lia. reflexivity.
Qed.

Lemma pow_cg x e : wf x -> wf e -> 0 < bi_val x < P -> 0 <= bi_val e ->
  exists r, pow x e p = Ret r /\ wf r /\ 0 < bi_val r < P /\ bi_val r == bi_val x ^ bi_val e.
Proof.
  intros Wx We Hx He. destruct (pow_spec x e p Wx We Wp Hx He) as (r & -> & Wr & Vr). exists r.
  split; [reflexivity|]. split; [assumption|].
  assert (C : bi_val r == bi_val x ^ bi_val e) by (rewrite Vr; apply cg_mod_l; lia).
  split; [|assumption]. pose proof (Z.mod_pos_bound (bi_val x ^ bi_val e) P ltac:(lia)).
  assert (bi_val r <> 0); [|lia]. intros E. rewrite E in C. symmetry in C. clear Vr H.
  apply (cg_range_nz P (bi_val x) Hx).
  revert C. pattern (bi_val e). apply natlike_ind; [|intros k Hk IH|assumption].
  - rewrite Z.pow_0_r. intros C. exfalso. exact (cg_1_0 P Hprime C).
  - rewrite Z.pow_succ_r by assumption. intros C. apply (cg_integral P Hprime) in C as [C|C]; auto.
Qed.

Lemma order_spec b r fuel : wf b -> 0 <= bi_val b < P -> 1 <= r -> bi_val b ^ (2 ^ (r - 1)) == 1 -> r < 2 ^ Z.of_nat fuel ->
  exists m, run_loop fuel (order_body p one r) (0, b) = Ret m /\ 0 <= m < r /\
    bi_val b ^ (2 ^ m) == 1 /\ (m = 0 -> bi_val b = 1) /\ (0 < m -> ~ bi_val b ^ (2 ^ (m - 1)) == 1).
Proof.
  intros Wb Hb Hr Hone Hf.
  apply (run_loop_spec (order_body p one r)
    (fun st => let '(c, t) := st in wf t /\ 0 <= c < r /\ 0 <= bi_val t < P /\ bi_val t == bi_val b ^ (2 ^ c) /\
        (c = 0 -> t = b) /\ (0 < c -> ~ bi_val b ^ (2 ^ (c - 1)) == 1))
    (fun st => let '(c, t) := st in r - c)).
  - intros [c t] (Wt & Hc & Ht & Et & E0 & Hn). unfold order_body. rewrite (bi_eq_spec t one Wt Wone), Vone. cbn [obind].
    destruct (Z.eqb_spec (bi_val t) 1) as [E|E].
    + right. exists c. split; [reflexivity|]. split; [assumption|]. split; [rewrite <- Et, E; reflexivity|].
      split; [intros Z0; rewrite <- (E0 Z0); assumption|assumption].
    + left. assert (Nt : ~ bi_val b ^ 2 ^ c == 1) by (rewrite <- Et; intros C; apply cg_small in C; lia).
      destruct (Z.eqb_spec (c + 1) r) as [Er|Er].
      * exfalso. apply Nt. replace c with (r - 1) by lia. assumption.
      * destruct (mulmod_spec t t (fun t' => Ret (inl (c + 1, t') : Z * bigint + Z)) Wt Wt ltac:(lia) ltac:(lia)) as (t' & Wt' & Ht' & Ct' & ->).
        exists (c + 1, t'). split; [reflexivity|]. split; [|lia].
        split; [assumption|]. split; [lia|]. split; [assumption|]. split.
        { rewrite Ct', Et. apply cg_of_eq. rewrite <- Z.pow_add_r by (apply Z.pow_nonneg; lia). f_equal.
          rewrite Z.pow_add_r by lia. lia. }
        split; [lia|]. intros _. replace (c + 1 - 1) with c by lia. assumption.
  - split; [assumption|]. split; [lia|]. split; [assumption|]. split; [change (2 ^ 0) with 1; rewrite Z.pow_1_r; reflexivity|]. split; [reflexivity|lia].
  - intros [c t] (_ & H & _). lia.
  - lia.
Qed.

Lemma pow2_pred k : 1 <= k -> 2 ^ k = 2 * 2 ^ (k - 1).
Proof. intros Hk. rewrite <- Z.pow_succ_r by lia. f_equal. lia. Qed.

Lemma pow_pow2_split x k : 1 <= k -> (x ^ 2 ^ (k - 1)) * (x ^ 2 ^ (k - 1)) = x ^ 2 ^ k.
Proof.
  intros Hk. rewrite <- Z.pow_add_r by (apply Z.pow_nonneg; lia). f_equal.
  rewrite (pow2_pred k Hk). lia.
Qed.

Lemma shanks_spec x b g e fuel : 
  wf x -> wf b -> wf g -> 0 <= bi_val x < P -> 0 <= bi_val b < P -> 0 < bi_val g < P -> 1 <= e -> e < 2 ^ Z.of_nat fuel ->
  bi_val x * bi_val x == bi_val a * bi_val b -> bi_val b ^ 2 ^ (e - 1) == 1 -> bi_val g ^ 2 ^ (e - 1) == -1 ->
  exists r1 r2, run_loop fuel (shanks_body p one fuel) (x, b, g, e) = Ret (r1, r2) /\ wf r1 /\ wf r2 /\
    0 < bi_val r1 < P /\ bi_val r2 = P - bi_val r1 /\ bi_val r1 * bi_val r1 == bi_val a.
Proof.
  intros Wx Wb Wg Hx Hb Hg He Hf C1 C2 C3.
  destruct (run_loop_spec (shanks_body p one fuel)
    (fun st => let '(x, b, g, r) := st in wf x /\ wf b /\ wf g /\ 0 <= bi_val x < P /\ 0 <= bi_val b < P /\ 0 < bi_val g < P /\
       1 <= r /\ r < 2 ^ Z.of_nat fuel /\
       bi_val x * bi_val x == bi_val a * bi_val b /\ bi_val b ^ 2 ^ (r - 1) == 1 /\ bi_val g ^ 2 ^ (r - 1) == -1)
    (fun st => let '(x, b, g, r) := st in r)
    (fun rs => let '(r1, r2) := rs in wf r1 /\ wf r2 /\ 0 < bi_val r1 < P /\ bi_val r2 = P - bi_val r1 /\ bi_val r1 * bi_val r1 == bi_val a))
    with (n := fuel) (s := (x, b, g, e)) as ([r1 r2] & -> & Hr); [| | |lia|exists r1, r2; auto].
  - clear x b g e Wx Wb Wg Hx Hb Hg He Hf C1 C2 C3. intros [[[x b] g] r] (Wx & Wb & Wg & Hx & Hb & Hg & Hr & Hf & C1 & C2 & C3). unfold shanks_body.
    destruct (order_spec b r fuel Wb Hb Hr C2 Hf) as (m & -> & Hm & Cm & E0 & En). cbn [obind].
    destruct (Z.eqb_spec m 0) as [Em|Em].
    + right. destruct (bi_neg_spec x Wx) as [Wn Vn]. ret (modulo_spec (bi_neg x) p Wn Wp ltac:(lia)) x2 W2 V2.
      exists (x, x2). split; [reflexivity|]. split; [assumption|]. split; [assumption|].
      assert (Cx : bi_val x * bi_val x == bi_val a) by (rewrite C1, (E0 Em), Z.mul_1_r; reflexivity).
      assert (Nx : bi_val x <> 0).
      { intros Zx. rewrite Zx in Cx. symmetry in Cx. exact (cg_range_nz P _ Ha Cx). }
      split; [lia|]. split; [|assumption]. rewrite V2, Vn. apply cg_eq_mod; [lia|]. exists (-1). lia.
    + left. ret (one_shl_spec (r - m - 1) ltac:(lia)) e1 We1 Ve1.
      destruct (pow_cg g e1 Wg We1 Hg ltac:(rewrite Ve1; apply Z.pow_nonneg; lia)) as (g1 & -> & Wg1 & Hg1 & Cg1). cbn [obind].
      destruct (mulmod_spec x g1 (fun x' => e2 <- one_shl (r - m);; g2 <- pow g e2 p;; bg <- bi_mul b g2;; b' <- bi_rem bg p;;
        e3 <- one_shl (r - m);; g' <- pow g e3 p;; Ret (inl (x', b', g', m) : bigint * bigint * bigint * Z + bigint * bigint)) Wx Wg1 ltac:(lia) ltac:(lia)) as (x' & Wx' & Hx' & Cx' & ->).
      ret (one_shl_spec (r - m) ltac:(lia)) e2 We2 Ve2.
      destruct (pow_cg g e2 Wg We2 Hg ltac:(rewrite Ve2; apply Z.pow_nonneg; lia)) as (g2 & Eg2 & Wg2 & Hg2 & Cg2). rewrite Eg2. cbn [obind].
      destruct (mulmod_spec b g2 (fun b' => Ret (inl (x', b', g2, m) : bigint * bigint * bigint * Z + bigint * bigint)) Wb Wg2 ltac:(lia) ltac:(lia)) as (b' & Wb' & Hb' & Cb' & ->).
      exists (x', b', g2, m). split; [reflexivity|]. split; [|lia].
      split; [assumption|]. split; [assumption|]. split; [assumption|]. split; [assumption|]. split; [assumption|]. split; [assumption|].
      split; [lia|]. split; [lia|]. rewrite Ve1 in Cg1. rewrite Ve2 in Cg2. split; [|split].
      * rewrite Cx', Cb', Cg1, Cg2. 
        transitivity (bi_val x * bi_val x * (bi_val g ^ 2 ^ (r - m - 1) * bi_val g ^ 2 ^ (r - m - 1))); [apply cg_of_eq; ring|].
        rewrite (pow_pow2_split _ (r - m)) by lia. rewrite C1. apply cg_of_eq. ring.
      * assert (Hsq : bi_val b ^ 2 ^ (m - 1) == -1).
        { pose proof (pow_pow2_split (bi_val b) m ltac:(lia)) as Sq. rewrite <- Sq in Cm.
          apply (cg_sqrt1 P Hprime) in Cm as [Cm|Cm]; [|assumption]. exfalso. apply En; [lia|assumption]. }
        rewrite Cb', Cg2. rewrite Z.pow_mul_l, Hsq, <- Z.pow_mul_r by (apply Z.pow_nonneg; lia).
        rewrite <- Z.pow_add_r by lia. replace (r - m + (m - 1)) with (r - 1) by lia. rewrite C3. reflexivity.
      * rewrite Cg2, <- Z.pow_mul_r by (apply Z.pow_nonneg; lia). rewrite <- Z.pow_add_r by lia.
        replace (r - m + (m - 1)) with (r - 1) by lia. assumption.
  - auto 12.
  - intros [[[x0 b0] g0] r] (_ & _ & _ & _ & _ & _ & H & _). lia.
Qed.

Lemma nonresidue_spec t1 t2 n0 fuel : wf t1 -> wf t2 -> wf n0 -> bi_val t1 = (P - 1) / 2 -> bi_val t2 = P - 1 -> bi_val n0 = 2 ->
  P < 2 ^ Z.of_nat fuel ->
  exists n, run_loop fuel (nonresidue_body p t1 t2 one) n0 = Ret n /\ wf n /\ 1 < bi_val n < P /\ bi_val n ^ ((P - 1) / 2) == -1.
Proof.
  intros W1 W2 W0 V1 V2 V0 Hf.
  destruct (exists_nonresidue P Hprime Hp2) as (q & Hq & Cq).
  apply (run_loop_spec (nonresidue_body p t1 t2 one)
    (fun n => wf n /\ 1 < bi_val n <= q) (fun n => q - bi_val n)).
  - intros n (Wn & Hn). unfold nonresidue_body.
    destruct (pow_cg n t1 Wn W1 ltac:(lia) ltac:(rewrite V1; apply Z.div_pos; lia)) as (t & -> & Wt & Ht & Ct). cbn [obind].
    rewrite (bi_ne_spec t t2 Wt W2), V2. cbn [obind]. rewrite V1 in Ct.
    destruct (Z.eqb_spec (bi_val t) (P - 1)) as [E|E]; cbn [negb].
    + right. exists n. split; [reflexivity|]. split; [assumption|]. split; [lia|]. rewrite <- Ct, E. exists 1. lia.
    + left. ret (bi_add_spec n one Wn Wone) n' Wn' Vn'. exists n'. split; [reflexivity|]. split; [|lia]. split; [assumption|].
      assert (bi_val n <> q); [|lia]. intros Eq. apply E. apply cg_small with P; [lia|lia|]. rewrite Ct, Eq, Cq. exists (-1). lia.
  - split; [assumption|lia].
  - intros n (_ & H). lia.
  - lia.
Qed.

End Sqrt.

Theorem sqrt_spec a p : wf a -> wf p -> prime (bi_val p) -> 2 < bi_val p -> 0 < bi_val a < bi_val p ->
  (exists r1 r2, sqrt a p = Ret (Some (r1, r2)) /\ wf r1 /\ wf r2 /\ 0 < bi_val r1 < bi_val p /\
     bi_val r2 = bi_val p - bi_val r1 /\ (bi_val r1 * bi_val r1) mod bi_val p = bi_val a) \/
  (sqrt a p = Ret None /\ forall r, (r * r) mod bi_val p <> bi_val a).
Proof.
  intros Wa Wp Hprime Hp2 Ha. pose proof (p_odd _ Hprime Hp2) as Podd. pose proof (half_twice _ Hprime Hp2) as Hhalf.
  set (P := bi_val p) in *. unfold sqrt.
  ret bi_zero_spec z Wz Vz. ret bi_one_spec one Wone Vone. ret (from_int_small 2 ltac:(lia)) two Wtwo Vtwo.
  rewrite is_odd_spec by assumption. cbn [obind]. fold P. 
  rewrite Zmod_odd in Podd. destruct (Z.odd P); [|lia]. cbn [oassert dassert].
  rewrite (bi_gt_spec p two Wp Wtwo), (bi_gt_spec a z Wa Wz), (bi_lt_spec a p Wa Wp), Vtwo, Vz. fold P. cbn [obind].
  destruct (Z.ltb_spec 2 P); [|lia]. destruct (Z.ltb_spec 0 (bi_val a)); [|lia]. destruct (Z.ltb_spec (bi_val a) P); [|lia]. cbn [oassert dassert].
  ret (bi_sub_spec p one Wp Wone) pm Wpm Vpm. rewrite Vone in Vpm. fold P in Vpm.
  destruct (bi_div_spec pm two Wpm Wtwo ltac:(lia)) as (h & Eh & Wh & Vh). rewrite Eh. cbn [obind].
  rewrite Vpm, Vtwo, Z.quot_div_nonneg in Vh by lia.
  destruct (pow_cg p Wp Hprime Hp2 a h Wa Wh Ha ltac:(rewrite Vh; apply Z.div_pos; lia)) as (t & -> & Wt & Ht & Ct). cbn [obind].
  fold P in Ht, Ct. rewrite Vh in Ct.
  rewrite (bi_ne_spec t one Wt Wone), Vone. cbn [obind].
  destruct (Z.eqb_spec (bi_val t) 1) as [E|E]; cbn [negb].
  2:{ right. split; [reflexivity|]. intros r Hr. apply E. apply cg_small with P; [lia|lia|]. rewrite Ct.
      apply (square_euler P Hprime Hp2 r); [|apply cg_range_nz; assumption].
      rewrite <- Hr. symmetry. apply cg_mod_l. lia. }
  left. rewrite E in Ct.
  destruct (trailing_zeros_spec pm Wpm ltac:(lia)) as (e & m & -> & He & Hem). cbn [obind].
  rewrite Vpm, Z.abs_eq in Hem by lia.
  ret (shr_full pm e Wpm He) s Ws Vs.
  assert (P2 : 0 < 2 ^ e) by (apply Z.pow_pos_nonneg; lia).
  assert (Vs' : bi_val s = 2 * m + 1).
  { rewrite Vs, Vpm. rewrite Z.sgn_pos, Z.abs_eq by lia. rewrite Hem, Z.div_mul by lia. lia. }
  assert (Hm : 0 <= m).
  { clear - Hem P2 Hp2. destruct (Z.le_gt_cases 0 m); [assumption|]. exfalso.
    assert ((2 * m + 1) * 2 ^ e <= 0 * 2 ^ e) by (apply Z.mul_le_mono_nonneg_r; lia). lia. }
  assert (He1 : 1 <= e).
  { destruct (Z.eq_dec e 0) as [->|]; [|lia]. exfalso. change (2 ^ 0) with 1 in Hem. clear - Hem Hhalf. lia. }
  ret (from_int_small (-1) ltac:(lia)) m1 Wm1 Vm1.
  ret (modulo_spec m1 p Wm1 Wp ltac:(fold P; lia)) t2 Wt2 Vt2. rewrite Vm1 in Vt2. fold P in Vt2.
  assert (Vt2' : bi_val t2 = P - 1) by (rewrite Vt2; apply cg_eq_mod; [lia|exists (-1); lia]).
  destruct (fuel_of_spec p Wp) as (fuel & -> & Hf). cbn [obind]. fold P in Hf. rewrite Z.abs_eq in Hf by lia.
  destruct (nonresidue_spec p one Wp Wone Vone Hprime Hp2 h t2 two fuel Wh Wt2 Wtwo Vh Vt2' Vtwo Hf) as (n & -> & Wn & Hn & Cn). cbn [obind].
  fold P in Hn, Cn.
  ret (bi_add_spec s one Ws Wone) s1 Ws1 Vs1. rewrite Vone, Vs' in Vs1.
  ret (bi_div_spec s1 two Ws1 Wtwo ltac:(lia)) sh Wsh Vsh. rewrite Vtwo, Vs1, Z.quot_div_nonneg in Vsh by lia.
  replace (2 * m + 1 + 1) with ((m + 1) * 2) in Vsh by lia. rewrite Z.div_mul in Vsh by lia.
  destruct (pow_cg p Wp Hprime Hp2 a sh Wa Wsh Ha ltac:(lia)) as (x & -> & Wx & Hx & Cx). cbn [obind].
  destruct (pow_cg p Wp Hprime Hp2 a s Wa Ws Ha ltac:(lia)) as (b & -> & Wb & Hb & Cb). cbn [obind].
  destruct (pow_cg p Wp Hprime Hp2 n s Wn Ws ltac:(fold P; lia) ltac:(lia)) as (g & -> & Wg & Hg & Cg). cbn [obind].
  fold P in Hx, Cx, Hb, Cb, Hg, Cg.
  assert (Hse : bi_val s * 2 ^ (e - 1) = (P - 1) / 2).
  { rewrite Vs'. apply (Z.mul_reg_r _ _ 2); [lia|]. rewrite Hhalf, Hem.
    rewrite (pow2_pred e He1). ring. }
  assert (Pe : 0 < 2 ^ (e - 1)) by (apply Z.pow_pos_nonneg; lia).
  assert (Hef : e < 2 ^ Z.of_nat fuel).
  { assert (e < 2 ^ e) by (apply Z.pow_gt_lin_r; lia).
    assert (1 * 2 ^ e <= (2 * m + 1) * 2 ^ e) by (apply Z.mul_le_mono_nonneg_r; lia). lia. }
  destruct (shanks_spec a p one Wp Wone Vone Hprime Hp2 Ha x b g e fuel) as (r1 & r2 & -> & W1 & W2 & HH1 & HH2 & C12);
    try assumption; try (fold P; lia).
  - fold P. rewrite Cx, Cb, Vsh, Vs'. apply cg_of_eq. rewrite <- Z.pow_add_r by lia.
    replace (m + 1 + (m + 1)) with (Z.succ (2 * m + 1)) by lia. rewrite Z.pow_succ_r by lia. reflexivity.
  - fold P. rewrite Cb, <- Z.pow_mul_r by lia. rewrite Hse. symmetry. exact Ct.
  - fold P. rewrite Cg, <- Z.pow_mul_r by lia. rewrite Hse. exact Cn.
  - cbn [obind]. exists r1, r2. split; [reflexivity|]. split; [assumption|]. split; [assumption|]. split; [assumption|].
    split; [assumption|]. apply cg_eq_mod; [lia|]. exact C12.
Qed.

End Proofs.

Section Props.
Context {cfg : digit_cfg}.
Local Notation bi_val := (S_BigInt.bi_val (cfg:=cfg)).

Lemma sqrt_full a p : wf a -> wf p -> prime (bi_val p) -> 2 < bi_val p -> 0 < bi_val a < bi_val p ->
  (exists r1 r2, sqrt a p = Ret (Some (r1, r2)) /\ wf r1 /\ wf r2 /\
     (forall r, 0 <= r < bi_val p -> (r * r) mod bi_val p = bi_val a <-> r = bi_val r1 \/ r = bi_val r2) /\
     bi_val r1 <> bi_val r2) \/
  (sqrt a p = Ret None /\ forall r, (r * r) mod bi_val p <> bi_val a).
Proof.
  intros Wa Wp Hp H2 Ha. destruct (sqrt_spec a p Wa Wp Hp H2 Ha) as [(r1 & r2 & E & W1 & W2 & H & E2 & Hr)|H]; [left|right; exact H].
  exists r1, r2. split; [exact E|]. split; [exact W1|]. split; [exact W2|].
  set (P := bi_val p) in *. set (x := bi_val r1) in *.
  assert (Cx : cg P (x * x) (bi_val a)) by (rewrite <- Hr; symmetry; apply cg_mod_l; lia).
  assert (Hodd : x <> P - x).
  { pose proof (p_odd P Hp H2) as O. intros Ex. assert (P = 2 * x) by lia. rewrite H0 in O. rewrite Z.mul_comm, Z.mod_mul in O; lia. }
  split; [|rewrite E2; exact Hodd]. rewrite E2. intros r Hrr. split.
  - intros K. assert (Cr : cg P (r * r) (bi_val a)) by (rewrite <- K; symmetry; apply cg_mod_l; lia).
    assert (C : cg P ((r - x) * (r + x)) 0).
    { replace ((r - x) * (r + x)) with (r * r - x * x) by ring. rewrite Cr, Cx. apply cg_of_eq. ring. }
    apply (cg_integral P Hp) in C as [C|C].
    + left. apply cg_small with P; try lia. apply (proj1 (cg_0 P _)) in C. exact C.
    + right. apply cg_small with P; try lia. apply (proj1 (cg_0 P _)) in C as [k C]. exists (k - 1). lia.
  - intros [->| ->]; apply cg_eq_mod; try lia.
    + exact Cx.
    + rewrite <- Cx. exists (P - 2 * x). ring.
Qed.

Lemma modulo_full a n : wf a -> wf n -> 0 < bi_val n ->
  exists r, modulo a n = Ret r /\ wf r /\ 0 <= bi_val r < bi_val n /\ (bi_val n | bi_val a - bi_val r).
Proof.
  intros Wa Wn H. destruct (modulo_spec a n Wa Wn H) as (r & E & W & V). exists r. split; [exact E|]. split; [exact W|].
  rewrite V. split; [apply Z.mod_pos_bound; exact H|]. exists (bi_val a / bi_val n).
  pose proof (Z.div_mod (bi_val a) (bi_val n) ltac:(lia)). lia.
Qed.

End Props.

From Verif Require Import P_BigProp.

Lemma ex_nm : let n := mkBig [18446744073709551615; 3; 18446744073709551614] 3 Positive in
  let m := mkBig [17; 18446744073709551613; 12345678901234567891] 3 Positive in
  @wf U64 n /\ @wf U64 m /\ 0 < @bi_val U64 m < @bi_val U64 n /\
  exists x y v, @gcd U64 n m = Ret (x, y, v) /\ @bi_val U64 v = Z.gcd (@bi_val U64 n) (@bi_val U64 m).
Proof.
  cbn zeta. split; [apply wf_b_ok; vm_compute; reflexivity|]. split; [apply wf_b_ok; vm_compute; reflexivity|].
  split; [vm_compute; split; reflexivity|]. eexists _, _, _. vm_compute. repeat split.
Qed.

Definition sqrt_of (a p : Z) : outcome (option (bigint * bigint)) :=
  x <- @from_int U64 a ;; y <- @from_int U64 p ;; @sqrt U64 x y.

Lemma ex_sqrt : prime 97 /\ sqrt_of 5 97 = Ret None /\
  exists r1 r2, sqrt_of 11 97 = Ret (Some (r1, r2)) /\ @bi_val U64 r1 = 37 /\ @bi_val U64 r2 = 60.
Proof.
  split; [apply prime_check; [lia|vm_compute; reflexivity]|]. split; [vm_compute; reflexivity|].
  eexists _, _. split; [vm_compute; reflexivity|]. split; vm_compute; reflexivity.
Qed.

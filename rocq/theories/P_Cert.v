(** Certificates for curve parameters: primality (trial division, Pocklington), and multiples of the base point by a
    checked chain of doublings and additions. *)

From Coq Require Import ZArith Zpow_facts Lia Bool List.
From Verif Require Import S_Curve S_EcModel P_NumTheory P_Curve P_Order P_Fast.
Import ListNotations.
Open Scope Z_scope.

(** * Reduction: the functions that stand for [fun x => x mod m], fast for the kernel's own evaluation *)
Definition reduces (m : Z) (red : Z -> Z) : Prop := forall x, red x = x mod m.

(** * Modular exponentiation *)
Fixpoint powm_pos (red : Z -> Z) (a : Z) (e : positive) : Z :=
  match e with
  | xH => red a
  | xO e' => let h := powm_pos red a e' in red (fmul h h)
  | xI e' => let h := powm_pos red a e' in red (fmul a (red (fmul h h)))
  end.
Definition powm (red : Z -> Z) (a e : Z) : Z := match e with Zpos e' => powm_pos red a e' | _ => red 1 end.
Lemma powm_pos_spec red a m e : reduces m red -> 0 < m -> powm_pos red a e = a ^ Zpos e mod m.
Proof.
  intros HR Hm. induction e as [e IH|e IH|]; cbn [powm_pos]; cbv zeta; rewrite ?fmul_eq, ?HR.
  - rewrite IH. rewrite Pos2Z.inj_xI, Z.pow_add_r, Z.pow_1_r, Z.pow_mul_r by lia.
    rewrite <- Zmult_mod, Zmult_mod_idemp_r. f_equal. rewrite Z.mul_comm. f_equal.
    rewrite <- Z.pow_mul_r, <- Z.pow_add_r by lia. f_equal. lia.
  - rewrite IH. rewrite <- Zmult_mod. f_equal. rewrite <- Z.pow_add_r by lia. f_equal. lia.
  - now rewrite Z.pow_1_r.
Qed.
Lemma powm_spec red a e m : reduces m red -> 0 <= e -> 0 < m -> powm red a e = a ^ e mod m.
Proof. intros HR He Hm. destruct e as [|e|e]; [apply HR|now apply powm_pos_spec|lia]. Qed.

(** * Trial division *)
Fixpoint trial (fuel : nat) (d n : Z) : bool :=
  match fuel with
  | O => false
  | S f => if n <? d * d then true else if n mod d =? 0 then false else trial f (d + 1) n
  end.
Lemma trial_spec f : forall d n, 2 <= d -> trial f d n = true -> forall q, d <= q -> q * q <= n -> ~ (q | n).
Proof.
  induction f as [|f IH]; intros d n Hd; cbn [trial]; [discriminate|].
  destruct (Z.ltb_spec n (d * d)) as [L|L]; [intros _ q Hq H; nia|].
  destruct (Z.eqb_spec (n mod d) 0) as [K|K]; [discriminate|]. intros H q Hq Hqn. destruct (Z.eq_dec q d) as [->|N].
  - intros D. apply K. now apply Zdivide_mod.
  - apply (IH (d + 1) n); [lia|assumption|lia|assumption].
Qed.
(** a number without divisors up to its square root is prime *)
Lemma prime_sqrt n : 1 < n -> (forall q, prime q -> q * q <= n -> ~ (q | n)) -> prime n.
Proof.
  intros Hn H. destruct (prime_dec n) as [P|NP]; [assumption|exfalso].
  destruct (not_prime_divide n Hn NP) as (d & Hd & D).
  assert (S : exists c, 1 < c < n /\ (c | n) /\ c * c <= n).
  { destruct D as [c D]. destruct (Z.le_gt_cases (d * d) n); [exists d; repeat split; try lia; exists c; lia|].
    exists c. assert (1 < c < n) by nia. split; [assumption|]. split; [exists d; lia|]. nia. }
  destruct S as (c & Hc & Dc & Sc).
  assert (PD : exists q, prime q /\ (q | c)).
  { assert (W : forall m, 0 <= m -> 1 < m -> exists q, prime q /\ (q | m)).
    { apply (Z_lt_induction (fun m => 1 < m -> exists q, prime q /\ (q | m))). intros m IH Hm.
      destruct (prime_dec m) as [P|N]; [exists m; split; [assumption|apply Z.divide_refl]|].
      destruct (not_prime_divide m Hm N) as (e & He & De). destruct (IH e ltac:(lia) ltac:(lia)) as (q & Q1 & Q2).
      exists q. split; [assumption|]. eapply Z.divide_trans; eauto. }
    apply W; lia. }
  destruct PD as (q & Q1 & Q2). apply (H q Q1); [|eapply Z.divide_trans; eauto].
  apply Z.divide_pos_le in Q2; [|lia]. pose proof (prime_ge_2 q Q1). nia.
Qed.
Lemma trial_prime f n : 1 < n -> trial f 2 n = true -> prime n.
Proof.
  intros Hn T. apply prime_sqrt; [assumption|]. intros q Q1 Q2. apply (trial_spec f 2 n); [lia|assumption| |assumption]. now apply prime_ge_2.
Qed.

(** * Pocklington's criterion *)
(** one certified prime factor [q] of N - 1, with a base [a] *)
Definition pock1 (red : Z -> Z) (N q a : Z) : bool :=
  let t := powm red a ((N - 1) / q) in
  ((N - 1) mod q =? 0) && (powm red t q =? 1) && (Z.gcd (t - 1) N =? 1).
Lemma pock1_spec red N q a P : reduces N red -> 1 < N -> 0 < q -> pock1 red N q a = true -> prime q -> prime P -> (P | N) -> (q | P - 1).
Proof.
  intros HR HN Hq C Pq PP DP. unfold pock1 in C. cbv zeta in C. apply andb_prop in C. destruct C as [C C3]. apply andb_prop in C. destruct C as [C1 C2].
  apply Z.eqb_eq in C1, C2, C3. pose proof (prime_ge_2 P PP) as P2. set (R := (N - 1) / q) in *.
  assert (ER : N - 1 = R * q) by (unfold R; rewrite Z.mul_comm; apply Z_div_exact_full_2; lia).
  assert (HR0 : 0 <= R) by (unfold R; apply Z.div_pos; lia).
  rewrite (powm_spec red a R N HR HR0 ltac:(lia)) in C2, C3. rewrite (powm_spec red _ q N HR ltac:(lia) ltac:(lia)) in C2.
  rewrite <- Zpower_mod, <- Z.pow_mul_r in C2 by lia.
  assert (A1 : cg P (a ^ (R * q)) 1).
  { destruct DP as [k DP]. pose proof (Z.div_mod (a ^ (R * q)) N ltac:(lia)) as DM. rewrite C2 in DM.
    exists (k * (a ^ (R * q) / N)). rewrite DM at 1. rewrite DP at 1. ring. }
  assert (A2 : ~ cg P (a ^ R) 1).
  { intros K. assert (D1 : (P | a ^ R mod N - 1)).
    { assert (K' : cg P (a ^ R mod N) 1).
      { eapply cg_trans; [|exact K]. destruct DP as [k DP]. pose proof (Z.div_mod (a ^ R) N ltac:(lia)) as DM.
        exists (- (k * (a ^ R / N))). rewrite DM at 2. rewrite DP at 2. ring. }
      destruct K' as [k K']. exists k. exact K'. }
    pose proof (Z.gcd_greatest _ _ _ D1 DP) as D2. rewrite C3 in D2. apply Z.divide_1_r_nonneg in D2; lia. }
  destruct (Zdivide_dec q (P - 1)) as [D|D]; [assumption|exfalso]. apply A2.
  assert (NZ : ~ cg P a 0).
  { intros K. apply (proj1 (cg_0 P a)) in K. assert (K2 : (P | a ^ (R * q))).
    { destruct (Z.eq_dec (R * q) 0) as [Z0|Z0]; [rewrite <- ER in Z0; lia|].
      replace (R * q) with (Z.succ (R * q - 1)) by lia. rewrite Z.pow_succ_r by lia. apply Z.divide_mul_l. exact K. }
    destruct A1 as [k A1]. destruct K2 as [l K2]. assert (P | 1). { exists (l - k). lia. } apply Z.divide_1_r_nonneg in H; lia. }
  pose proof (fermat P PP a NZ) as FM.
  destruct (rel_prime_bezout q (P - 1)) as [u v B]; [now apply prime_rel_prime|].
  (* u q + v (P-1) = 1; make the coefficient of q non-negative *)
  set (t := u mod (P - 1)). destruct (Z.eq_dec P 2) as [P_2|P_2].
  { exfalso. apply D. rewrite P_2. change (2 - 1) with 1. (* P = 2: P - 1 = 1 *)
    exfalso. subst P. apply A2. change (2 - 1) with 1 in FM. rewrite Z.pow_1_r in FM.
    eapply cg_trans; [apply cg_pow; exact FM|]. rewrite Z.pow_1_l by lia. apply cg_refl. }
  pose proof (Z.mod_pos_bound u (P - 1) ltac:(lia)) as TB. fold t in TB.
  assert (ET : exists w, 0 <= w /\ t * q = 1 + w * (P - 1)).
  { exists (- v - (u / (P - 1)) * q). pose proof (Z.div_mod u (P - 1) ltac:(lia)) as DM. fold t in DM.
    assert (EQ : t * q = 1 + (- v - u / (P - 1) * q) * (P - 1)) by (replace t with (u - (P - 1) * (u / (P - 1))) by lia; nia).
    split; [|exact EQ]. assert (T0 : t <> 0). { intros Z0. rewrite Z0 in EQ. assert ((P - 1) * (- (- v - u / (P - 1) * q)) = 1) by lia. assert ((P - 1 | 1)) by (exists (- (- v - u / (P - 1) * q)); lia). apply Z.divide_1_r_nonneg in H0; lia. }
    assert (1 <= t * q) by nia. nia. }
  destruct ET as (w & Hw & ET).
  (* (a^R)^1 * ((a^R)^(P-1))^w = (a^(R q))^t *)
  assert (K : cg P (a ^ R * (a ^ (P - 1)) ^ (R * w)) ((a ^ (R * q)) ^ t)).
  { apply cg_of_eq. rewrite <- !Z.pow_mul_r, <- Z.pow_add_r by nia. f_equal. rewrite <- Z.mul_assoc, (Z.mul_comm q t), ET. ring. }
  assert (L : cg P ((a ^ (P - 1)) ^ (R * w)) 1) by (eapply cg_trans; [apply cg_pow; exact FM|]; rewrite Z.pow_1_l by nia; apply cg_refl).
  assert (M : cg P ((a ^ (R * q)) ^ t) 1) by (eapply cg_trans; [apply cg_pow; exact A1|]; rewrite Z.pow_1_l by nia; apply cg_refl).
  eapply cg_trans; [|exact M]. eapply cg_trans; [|exact K]. rewrite L. apply cg_of_eq. ring.
Qed.

(** a list of distinct certified prime factors whose product exceeds the square root *)
Fixpoint prodq (l : list (Z * Z)) : Z := match l with [] => 1 | (q, _) :: l' => q * prodq l' end.
Fixpoint distinct_from (q : Z) (l : list (Z * Z)) : bool := match l with [] => true | (q', _) :: l' => negb (q =? q') && distinct_from q l' end.
Fixpoint all_distinct (l : list (Z * Z)) : bool := match l with [] => true | (q, _) :: l' => distinct_from q l' && all_distinct l' end.
Definition pock (red : Z -> Z) (N : Z) (l : list (Z * Z)) : bool :=
  forallb (fun qa => pock1 red N (fst qa) (snd qa)) l && all_distinct l && (N <? prodq l * prodq l).
Lemma coprime_prod q l : prime q -> Forall (fun qa => prime (fst qa)) l -> distinct_from q l = true -> rel_prime q (prodq l).
Proof.
  intros Hq. induction l as [|[q' a] l IH]; intros HF D; cbn [prodq distinct_from] in *; [apply rel_prime_sym, rel_prime_1|].
  inversion HF as [|x y H1 H2 E1]; subst. cbn [fst] in H1. apply andb_prop in D. destruct D as [D1 D2].
  apply rel_prime_mult.
  - apply prime_rel_prime; [assumption|]. intros K. apply negb_true_iff, Z.eqb_neq in D1. apply D1.
    destruct (prime_divisors q' H1 q K) as [E|[E|[E|E]]]; pose proof (prime_ge_2 q Hq); pose proof (prime_ge_2 q' H1); lia.
  - now apply IH.
Qed.
Theorem pocklington red N l : reduces N red -> 1 < N -> Forall (fun qa => prime (fst qa)) l -> pock red N l = true -> prime N.
Proof.
  intros HR HN HF C. unfold pock in C. apply andb_prop in C. destruct C as [C C3]. apply andb_prop in C. destruct C as [C1 C2]. apply Z.ltb_lt in C3.
  apply prime_sqrt; [assumption|]. intros P PP PN DP. pose proof (prime_ge_2 P PP) as P2.
  assert (D : (prodq l | P - 1)).
  { clear C3. induction l as [|[q a] l IH]; cbn [prodq]; [apply Z.divide_1_l|]. cbn [forallb all_distinct] in C1, C2.
    apply andb_prop in C1, C2. destruct C1 as [K1 K2]. destruct C2 as [K3 K4]. inversion HF as [|x y H1 H2 E1]; subst. cbn [fst snd] in *.
    pose proof (prime_ge_2 q H1).
    assert (Q1 : (q | P - 1)) by (apply (pock1_spec red N q a P); auto; lia). destruct (IH H2 K2 K4) as [c Q2].
    pose proof (coprime_prod q l H1 H2 K3) as RP. rewrite Q2 in Q1. rewrite Z.mul_comm in Q1. apply Gauss in Q1; [|assumption].
    destruct Q1 as [e Q1]. exists e. rewrite Q2, Q1. ring. }
  apply Z.divide_pos_le in D; [|lia].
  assert (0 < prodq l).
  { clear - HF. induction HF as [|[q a] l H1 H2 IH]; cbn [prodq]; [lia|]. cbn [fst] in H1. pose proof (prime_ge_2 q H1). nia. }
  nia.
Qed.

(** * Multiples of the base point, by a checked chain of doublings and additions *)
(** the sum of two points, given its slope m *)
Definition chord (red : Z -> Z) (p x1 y1 x2 m : Z) : Z * Z :=
  let x3 := red (fmul m m + (2 * p - x1 - x2)) in (x3, red (fmul m (x1 + (p - x3)) + (p - y1))).
Definition dblh (red : Z -> Z) (C : ecurve) (P : Z * Z) (m : Z) : option (Z * Z) :=
  let (x, y) := P in
  if negb (red (y + y) =? 0) && (red (fmul m (2 * y)) =? red (3 * fmul x x + ea C)) then Some (chord red (ep C) x y x m) else None.
Definition addh (red : Z -> Z) (C : ecurve) (P Q : Z * Z) (m : Z) : option (Z * Z) :=
  let (x1, y1) := P in let (x2, y2) := Q in
  if negb (red (x2 + (ep C - x1)) =? 0) && negb (x1 =? x2) && (red (fmul m (x2 + (ep C - x1))) =? red (y2 + (ep C - y1))) then Some (chord red (ep C) x1 y1 x2 m) else None.
(** for each (d, m1, m2) replace P = k G by (2 k + d) G *)
Fixpoint chainh (red : Z -> Z) (C : ecurve) (G P : Z * Z) (k : Z) (l : list (Z * Z * Z)) : option (Z * Z * Z) :=
  match l with
  | [] => Some (P, k)
  | (d, m1, m2) :: l' =>
      match dblh red C P m1 with
      | None => None
      | Some P2 =>
          match d with
          | 0 => chainh red C G P2 (2 * k) l'
          | 1 => match addh red C P2 G m2 with None => None | Some P3 => chainh red C G P3 (2 * k + 1) l' end
          | _ => match addh red C P2 (fst G, ep C - snd G) m2 with None => None | Some P3 => chainh red C G P3 (2 * k - 1) l' end
          end
      end
  end.
Lemma slope_unique p m a b : prime p -> a mod p <> 0 -> cg p (m * a) b -> cg p m (b * zinv p a).
Proof.
  intros Hp Ha H. assert (P2 : 1 < p) by (pose proof (prime_ge_2 p Hp); lia).
  assert (I : cg p (a * zinv p a) 1) by (apply cg_iff; [lia|]; rewrite zinv_spec by assumption; rewrite Z.mod_small; lia).
  apply cg_trans with (m * (a * zinv p a)); [apply cg_sym; eapply cg_trans; [apply cg_mul; [apply cg_refl|exact I]|]; apply cg_of_eq; ring|].
  apply cg_trans with (m * a * zinv p a); [apply cg_of_eq; ring|]. apply cg_mul; [exact H|apply cg_refl].
Qed.
Lemma chord_ok red p x1 y1 x2 m m' : reduces p red -> 0 < p -> cg p m m' ->
  chord red p x1 y1 x2 m = ((m' * m' - x1 - x2) mod p, (m' * (x1 - (m' * m' - x1 - x2) mod p) - y1) mod p).
Proof.
  intros HR Hp E. unfold chord. cbv zeta. rewrite !fmul_eq, !HR.
  assert (X : (m * m + (2 * p - x1 - x2)) mod p = (m' * m' - x1 - x2) mod p).
  { apply cg_iff; [assumption|]. rewrite E. exists 2. ring. }
  rewrite X. f_equal. apply cg_iff; [assumption|]. rewrite E. set (x3 := _ mod p). exists (m' + 1). ring.
Qed.
Lemma dblh_ok red C P m Q : reduces (ep C) red -> prime (ep C) -> dblh red C P m = Some Q -> Some Q = eadd C (Some P) (Some P).
Proof.
  intros HR Hp. assert (P0 : 0 < ep C) by (pose proof (prime_ge_2 _ Hp); lia). destruct P as [x y]. unfold dblh. rewrite !fmul_eq, !HR.
  destruct (Z.eqb_spec ((y + y) mod ep C) 0) as [|N]; [discriminate|]. cbn [negb andb].
  match goal with |- context [?u =? ?v] => destruct (Z.eqb_spec u v) as [K|] end; [|discriminate]. intros H. injection H as <-.
  cbn [eadd]. rewrite Z.eqb_refl. apply Z.eqb_neq in N. rewrite N. cbn [andb]. cbv zeta. f_equal. apply chord_ok; try assumption.
  apply slope_unique; [assumption|replace (2 * y) with (y + y) by ring; now apply Z.eqb_neq|].
  apply cg_iff in K; [|assumption]. eapply cg_trans; [exact K|]. apply cg_of_eq. ring.
Qed.
Lemma addh_ok red C P Q m R : reduces (ep C) red -> prime (ep C) -> addh red C P Q m = Some R -> Some R = eadd C (Some P) (Some Q).
Proof.
  intros HR Hp. assert (P0 : 0 < ep C) by (pose proof (prime_ge_2 _ Hp); lia). destruct P as [x1 y1], Q as [x2 y2]. unfold addh. rewrite !fmul_eq, !HR.
  destruct (Z.eqb_spec ((x2 + (ep C - x1)) mod ep C) 0) as [|N]; [discriminate|]. destruct (Z.eqb_spec x1 x2) as [|NX]; [discriminate|]. cbn [negb andb].
  match goal with |- context [?u =? ?v] => destruct (Z.eqb_spec u v) as [K|] end; [|discriminate]. intros H. injection H as <-.
  cbn [eadd]. apply Z.eqb_neq in NX. rewrite NX. cbn [andb]. cbv zeta. f_equal. apply chord_ok; try assumption.
  assert (EX : cg (ep C) (x2 + (ep C - x1)) (x2 - x1)) by (exists 1; ring). assert (EY : cg (ep C) (y2 + (ep C - y1)) (y2 - y1)) by (exists 1; ring).
  apply slope_unique; [assumption| |].
  - intros Z0. apply N. rewrite <- Z0. apply cg_iff; [assumption|exact EX].
  - apply cg_iff in K; [|assumption]. rewrite EX, EY in K. exact K.
Qed.
Lemma chainh_ok red C G l : reduces (ep C) red -> curve_ok C -> on_curve C (Some G) -> 0 < snd G -> forall P k P' k', 1 <= k -> Some P = emul C k (Some G) ->
  chainh red C G P k l = Some (P', k') -> Some P' = emul C k' (Some G).
Proof.
  intros HR OK HG G0. assert (Hp : prime (ep C)) by apply OK. assert (HN : Some (fst G, ep C - snd G) = eneg C (Some G)).
  { destruct G as [x y]. cbn [eneg fst snd] in *. f_equal. f_equal. destruct HG as (_ & Hy & _). rewrite Z.mod_opp_l_nz; rewrite ?Z.mod_small; lia. }
  induction l as [|[[d m1] m2] l IH]; intros P k P' k' Hk HP; cbn [chainh]; [intros H; injection H as <- <-; exact HP|].
  destruct (dblh red C P m1) as [P2|] eqn:E2; [|discriminate]. apply dblh_ok in E2; try assumption.
  assert (E2' : Some P2 = emul C (2 * k) (Some G)) by (rewrite E2, HP; replace (2 * k) with (k + k) by lia; symmetry; apply emul_add; (assumption || lia)).
  assert (NEG : forall P3, addh red C P2 (fst G, ep C - snd G) m2 = Some P3 -> Some P3 = emul C (2 * k - 1) (Some G)).
  { intros P3 E3. apply addh_ok in E3; try assumption. rewrite E3, HN, E2'. replace (2 * k) with ((2 * k - 1) + 1) at 1 by lia.
    rewrite emul_add by (assumption || lia). rewrite emul_1. rewrite eadd_assoc; [|assumption|now apply emul_closed|assumption|now apply eneg_closed].
    rewrite eadd_neg by assumption. apply eadd_0_r. }
  destruct d as [|[d|d|]|d].
  - apply IH; [lia|exact E2'].
  - destruct (addh red C P2 _ m2) as [P3|] eqn:E3; [|discriminate]. apply IH; [lia|now apply NEG].
  - destruct (addh red C P2 _ m2) as [P3|] eqn:E3; [|discriminate]. apply IH; [lia|now apply NEG].
  - destruct (addh red C P2 G m2) as [P3|] eqn:E3; [|discriminate]. apply IH; [lia|]. apply addh_ok in E3; try assumption. rewrite E3, E2'.
    rewrite emul_add by (assumption || lia). now rewrite emul_1.
  - destruct (addh red C P2 _ m2) as [P3|] eqn:E3; [|discriminate]. apply IH; [lia|now apply NEG].
Qed.

(** * Tactics *)
Ltac by_trial f := apply (trial_prime f); [lia|vm_cast_no_check (eq_refl true)].
Ltac by_pock_with red ok l := apply (pocklington red _ l); [ok|reflexivity|repeat (apply Forall_cons; [cbn [fst]; auto with primes|]); apply Forall_nil|vm_cast_no_check (eq_refl true)].
Ltac by_pock l := match goal with |- prime ?N =>
  let k := eval vm_compute in (Z.to_nat (Z.log2 N + 1)) in let mu := eval vm_compute in (2 ^ (2 * Z.of_nat k + 8) / N) in
  by_pock_with (barrett N k mu) ltac:(intros ?; apply barrett_ok; reflexivity) l end.

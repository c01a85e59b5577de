(** Number theory modulo a prime: congruences, Fermat's little theorem,
    the number of roots of a polynomial, quadratic non-residues. *)

From Coq Require Import ZArith Lia List Znumtheory Setoid Morphisms Permutation.
Import ListNotations.
Open Scope Z_scope.

(** Congruence modulo [p]. *)
Definition cg (p a b : Z) : Prop := (p | a - b).

Section Cong.
Variable p : Z.

Lemma cg_refl a : cg p a a. Proof. exists 0. lia. Qed.
Lemma cg_sym a b : cg p a b -> cg p b a. Proof. intros [k H]. exists (- k). lia. Qed.
Lemma cg_trans a b c : cg p a b -> cg p b c -> cg p a c. Proof. intros [k H] [l K]. exists (k + l). lia. Qed.
Global Instance cg_equiv : Equivalence (cg p).
Proof. split; [exact cg_refl|exact cg_sym|exact cg_trans]. Qed.
Global Instance cg_add : Proper (cg p ==> cg p ==> cg p) Z.add.
Proof. intros a b [k H] c d [l K]. exists (k + l). lia. Qed.
Global Instance cg_sub : Proper (cg p ==> cg p ==> cg p) Z.sub.
Proof. intros a b [k H] c d [l K]. exists (k - l). lia. Qed.
Global Instance cg_opp : Proper (cg p ==> cg p) Z.opp.
Proof. intros a b [k H]. exists (- k). lia. Qed.
Global Instance cg_mul : Proper (cg p ==> cg p ==> cg p) Z.mul.
Proof.
  intros a b [k H] c d [l K]. exists (k * c + b * l). replace (a * c - b * d) with ((a - b) * c + b * (c - d)) by ring.
  rewrite H, K. ring.
Qed.
Lemma cg_pow a b n : cg p a b -> cg p (a ^ n) (b ^ n).
Proof.
  intros H. destruct (Z.neg_nonneg_cases n) as [N|N]; [rewrite !Z.pow_neg_r by assumption; reflexivity|].
  pattern n. apply natlike_ind; [reflexivity| |assumption].
  intros k Hk IH. rewrite !Z.pow_succ_r by assumption. apply cg_mul; assumption.
Qed.
Global Instance cg_pow_proper : Proper (cg p ==> eq ==> cg p) Z.pow.
Proof. intros a b H n m ->. apply cg_pow. assumption. Qed.

Lemma cg_mod_l a : 0 < p -> cg p (a mod p) a.
Proof. intros H. exists (- (a / p)). pose proof (Z.div_mod a p ltac:(lia)). lia. Qed.
Lemma cg_iff a b : 0 < p -> cg p a b <-> a mod p = b mod p.
Proof.
  intros H. split.
  - intros [k E]. replace a with (b + k * p) by lia. apply Z.mod_add. lia.
  - intros E. rewrite <- (cg_mod_l a H), <- (cg_mod_l b H), E. reflexivity.
Qed.
Lemma cg_small a b : 0 <= a < p -> 0 <= b < p -> cg p a b -> a = b.
Proof. intros Ha Hb H. apply cg_iff in H; [|lia]. rewrite !Z.mod_small in H by lia. assumption. Qed.
Lemma cg_0 a : cg p a 0 <-> (p | a).
Proof. unfold cg. rewrite Z.sub_0_r. reflexivity. Qed.
Lemma cg_eq_mod a b : 0 <= b < p -> cg p a b -> a mod p = b.
Proof. intros Hb H. apply cg_iff in H; [|lia]. rewrite H. apply Z.mod_small. assumption. Qed.
Lemma cg_of_eq a b : a = b -> cg p a b.
Proof. intros ->. reflexivity. Qed.

End Cong.

Section Prime.
Variable p : Z.
Hypothesis Hp : prime p.

Lemma p_ge2 : 2 <= p. Proof. apply prime_ge_2; assumption. Qed.

Lemma cg_integral a b : cg p (a * b) 0 -> cg p a 0 \/ cg p b 0.
Proof. rewrite !cg_0. apply prime_mult. assumption. Qed.

Lemma cg_cancel a x y : ~ cg p a 0 -> cg p (a * x) (a * y) -> cg p x y.
Proof.
  intros Ha H. assert (K : cg p (a * (x - y)) 0).
  { rewrite Z.mul_sub_distr_l, H. apply cg_of_eq. ring. }
  apply cg_integral in K as [K|K]; [contradiction|]. rewrite cg_0 in K. exact K.
Qed.

Lemma cg_1_0 : ~ cg p 1 0.
Proof. rewrite cg_0. intros H. pose proof p_ge2. apply Z.divide_1_r_nonneg in H; lia. Qed.

Lemma cg_range_nz x : 0 < x < p -> ~ cg p x 0.
Proof. intros H K. apply cg_small in K; lia. Qed.

Lemma cg_sqrt1 x : cg p (x * x) 1 -> cg p x 1 \/ cg p x (-1).
Proof.
  intros H. assert (K : cg p ((x - 1) * (x + 1)) 0).
  { replace ((x - 1) * (x + 1)) with (x * x - 1) by ring. rewrite H. apply cg_of_eq. ring. }
  apply cg_integral in K as [[k K]|[k K]]; [left|right]; exists k; lia.
Qed.

(** ** Fermat *)

Definition units : list Z := map Z.of_nat (seq 1 (Z.to_nat (p - 1))).

Lemma units_in x : In x units <-> 0 < x < p.
Proof.
  pose proof p_ge2. unfold units. rewrite in_map_iff. split.
  - intros (k & <- & Hk). apply in_seq in Hk. lia.
  - intros Hx. exists (Z.to_nat x). split; [lia|]. apply in_seq. lia.
Qed.

Lemma units_nodup : NoDup units.
Proof. apply FinFun.Injective_map_NoDup; [intros a b; lia|apply seq_NoDup]. Qed.

Lemma units_length : Z.of_nat (length units) = p - 1.
Proof. pose proof p_ge2. unfold units. rewrite map_length, seq_length. lia. Qed.

Definition prodl (l : list Z) : Z := fold_right Z.mul 1 l.

Lemma prodl_perm l m : Permutation l m -> prodl l = prodl m.
Proof. unfold prodl. induction 1; cbn [fold_right]; try lia. Qed.

Lemma prodl_scale a l : cg p (prodl (map (fun x => (a * x) mod p) l)) (a ^ Z.of_nat (length l) * prodl l).
Proof.
  pose proof p_ge2. unfold prodl. induction l as [|x l IH]; [reflexivity|].
  cbn [map fold_right length]. rewrite Nat2Z.inj_succ, Z.pow_succ_r by lia.
  rewrite IH, (cg_mod_l p (a * x)) by lia. apply cg_of_eq. ring.
Qed.

Lemma prodl_units_nz : forall l, (forall x, In x l -> 0 < x < p) -> ~ cg p (prodl l) 0.
Proof.
  unfold prodl. induction l as [|x l IH]; intros H; cbn [fold_right]; [exact cg_1_0|].
  intros K. apply cg_integral in K as [K|K].
  - apply (cg_range_nz x); [apply H; left; reflexivity|assumption].
  - revert K. apply IH. intros y Hy. apply H. right. assumption.
Qed.

Lemma nodup_map_inj (f : Z -> Z) l : (forall x y, In x l -> In y l -> f x = f y -> x = y) -> NoDup l -> NoDup (map f l).
Proof.
  induction l as [|a l IH]; intros Hi Hn; cbn [map]; [constructor|]. inversion Hn; subst. constructor.
  - intros C. apply in_map_iff in C as (x & E & Hx). apply Hi in E; [subst; contradiction|right; assumption|left; reflexivity].
  - apply IH; [|assumption]. intros x y Hx Hy. apply Hi; right; assumption.
Qed.

Theorem fermat a : ~ cg p a 0 -> cg p (a ^ (p - 1)) 1.
Proof.
  intros Ha. pose proof p_ge2 as H2.
  set (M := map (fun x => (a * x) mod p) units).
  assert (HM : Permutation M units).
  { apply NoDup_Permutation_bis.
    - unfold M. apply nodup_map_inj; [|apply units_nodup].
      intros x y Hx Hy E. apply units_in in Hx, Hy. apply cg_small with p; try lia.
      apply cg_cancel with a; [assumption|]. apply cg_iff; [lia|assumption].
    - unfold M. rewrite map_length. lia.
    - intros y Hy. apply in_map_iff in Hy as (x & <- & Hx). apply units_in in Hx. apply units_in.
      pose proof (Z.mod_pos_bound (a * x) p ltac:(lia)).
      assert ((a * x) mod p <> 0); [|lia]. intros E.
      assert (K : cg p (a * x) 0) by (apply cg_iff; [lia|rewrite E, Z.mod_0_l by lia; reflexivity]).
      apply cg_integral in K as [K|K]; [contradiction|]. revert K. apply cg_range_nz. assumption. }
  pose proof (prodl_scale a units) as S. fold M in S. rewrite (prodl_perm _ _ HM), units_length in S.
  symmetry. apply cg_cancel with (prodl units); [apply prodl_units_nz; intros x; apply units_in|].
  rewrite Z.mul_1_r, (Z.mul_comm (prodl units)). exact S.
Qed.

(** ** A polynomial has at most as many roots as its degree *)

(** Coefficients, constant term first. *)
Fixpoint peval (f : list Z) (x : Z) : Z :=
  match f with [] => 0 | c :: f' => c + x * peval f' x end.

(** Division by (x - r): [pdiv f r] is the quotient (without the remainder f(r)). *)
Fixpoint pdiv (f : list Z) (r : Z) : list Z :=
  match f with
  | [] => []
  | c :: f' => match f' with [] => [] | _ => peval f' r :: pdiv f' r end
  end.

Lemma pdiv_spec f r x : peval f x = peval f r + (x - r) * peval (pdiv f r) x.
Proof.
  induction f as [|c f IH]; cbn [peval pdiv]; [ring|].
  destruct f as [|d f']; [cbn [peval]; ring|].
  cbn [peval] in *. rewrite IH. ring.
Qed.

Lemma pdiv_length f r : length (pdiv f r) = (length f - 1)%nat.
Proof. induction f as [|c f IH]; [reflexivity|]. cbn [pdiv]. destruct f; [reflexivity|]. cbn [length] in *. rewrite IH. lia. Qed.

Lemma pdiv_last f r : (2 <= length f)%nat -> last (pdiv f r) 0 = last f 0.
Proof.
  induction f as [|c f IH]; intros H; [cbn in H; lia|]. destruct f as [|d f']; [cbn in H; lia|].
  destruct f' as [|e f'].
  - cbn. ring.
  - change (pdiv (c :: d :: e :: f') r) with (peval (d :: e :: f') r :: pdiv (d :: e :: f') r).
    change (last (c :: d :: e :: f') 0) with (last (d :: e :: f') 0).
    rewrite <- IH by (cbn [length]; lia).
    assert (L : length (pdiv (d :: e :: f') r) = S (length f')) by (rewrite pdiv_length; cbn [length]; lia).
    destruct (pdiv (d :: e :: f') r); [discriminate|reflexivity].
Qed.

Definition distinct (l : list Z) : Prop := ForallOrdPairs (fun x y => ~ cg p x y) l.

Theorem poly_roots : forall roots f, distinct roots -> f <> [] -> ~ cg p (last f 0) 0 ->
  (forall x, In x roots -> cg p (peval f x) 0) -> (length roots < length f)%nat.
Proof.
  induction roots as [|r roots IH]; intros f Hd Hf Hl Hr.
  - destruct f; [congruence|cbn; lia].
  - inversion Hd as [|? ? H1 H2]; subst.
    destruct f as [|c [|d f]]; [congruence| |].
    + exfalso. cbn in Hl. apply Hl. specialize (Hr r (or_introl eq_refl)). cbn in Hr. rewrite Z.mul_0_r, Z.add_0_r in Hr. assumption.
    + set (g := c :: d :: f) in *.
      assert (L : (length roots < length (pdiv g r))%nat).
      { apply IH; [assumption| | |].
        - intros E. pose proof (pdiv_length g r) as K. rewrite E in K. unfold g in K. cbn in K. lia.
        - rewrite pdiv_last by (unfold g; cbn [length]; lia). assumption.
        - intros x Hx. pose proof (pdiv_spec g r x) as S.
          pose proof (Hr r (or_introl eq_refl)) as R1. pose proof (Hr x (or_intror Hx)) as R2.
          rewrite S, R1, Z.add_0_l in R2. apply cg_integral in R2 as [R2|R2]; [|assumption].
          exfalso. rewrite Forall_forall in H1. apply (H1 x Hx). symmetry. exact (proj1 (cg_0 p (x - r)) R2). }
      rewrite pdiv_length in L. cbn [length]. unfold g in *. cbn [length] in *. lia.
Qed.

(** x^n - 1 *)
Definition xn1 (n : nat) : list Z := -1 :: repeat 0 n ++ [1].
Lemma peval_shift n x : peval (repeat 0 n ++ [1]) x = x ^ Z.of_nat n.
Proof.
  induction n as [|n IH]; [change (1 + x * 0 = x ^ 0); rewrite Z.pow_0_r; ring|]. cbn [repeat app peval]. rewrite IH, Nat2Z.inj_succ, Z.pow_succ_r by lia. ring.
Qed.
Lemma xn1_eval n x : peval (xn1 n) x = x ^ (Z.of_nat n + 1) - 1.
Proof. unfold xn1. cbn [peval]. rewrite peval_shift, Z.pow_add_r, Z.pow_1_r by lia. ring. Qed.

(** Fewer than p - 1 units satisfy x^k = 1 when 1 <= k < p - 1. *)
Theorem exists_not_root k : 1 <= k < p - 1 -> exists x, 0 < x < p /\ ~ cg p (x ^ k) 1.
Proof.
  intros Hk. pose proof p_ge2 as H2.
  destruct (Forall_Exists_dec (fun x => x ^ k mod p = 1) (fun x => Z.eq_dec (x ^ k mod p) 1) units) as [F|E].
  - exfalso. pose proof (poly_roots units (xn1 (Z.to_nat (k - 1)))) as R.
    assert (K : (length units < length (xn1 (Z.to_nat (k - 1))))%nat).
    { apply R.
      - assert (G : forall l, NoDup l -> (forall x, In x l -> 0 < x < p) -> distinct l).
        { induction 1 as [|x l Hx Hn IH]; intros Hl; constructor.
          - apply Forall_forall. intros y Hy C. apply cg_small in C; [subst; contradiction| |];
              [specialize (Hl x (or_introl eq_refl))|specialize (Hl y (or_intror Hy))]; lia.
          - apply IH. intros y Hy. apply Hl. right. assumption. }
        apply G; [apply units_nodup|intros x; apply units_in].
      - discriminate.
      - unfold xn1. rewrite app_comm_cons, last_last. exact cg_1_0.
      - intros x Hx. rewrite xn1_eval. rewrite Forall_forall in F. specialize (F x Hx). cbn beta in F.
        replace (Z.of_nat (Z.to_nat (k - 1)) + 1) with k by lia.
        assert (cg p (x ^ k) 1) by (apply cg_iff; [lia|]; rewrite F, Z.mod_small; lia).
        rewrite H. apply cg_of_eq. ring. }
    unfold xn1 in K. cbn [length] in K. rewrite app_length, repeat_length in K. cbn [length] in K.
    pose proof units_length. lia.
  - apply Exists_exists in E as (x & Hx & Hn). exists x. apply units_in in Hx. split; [assumption|].
    intros C. apply Hn. apply cg_eq_mod; [lia|assumption].
Qed.

(** ** Euler's criterion, existence of a non-residue *)

Section Odd.
Hypothesis Hodd : 2 < p.

Lemma p_odd : p mod 2 = 1.
Proof.
  destruct (Z.eq_dec (p mod 2) 0) as [E|E]; [|pose proof (Z.mod_pos_bound p 2 ltac:(lia)); lia].
  exfalso. apply Z.mod_divide in E; [|lia].
  apply (prime_div_prime 2 p prime_2 Hp) in E. lia.
Qed.

Lemma half_twice : (p - 1) / 2 * 2 = p - 1.
Proof.
  pose proof p_odd as O. pose proof (Z.div_mod p 2 ltac:(lia)) as D. rewrite O in D.
  replace (p - 1) with (p / 2 * 2) by lia. rewrite Z.div_mul by lia. reflexivity.
Qed.

Lemma pow_half_pm1 x : ~ cg p x 0 -> cg p (x ^ ((p - 1) / 2)) 1 \/ cg p (x ^ ((p - 1) / 2)) (-1).
Proof.
  intros Hx. pose proof half_twice as H. apply cg_sqrt1.
  rewrite <- Z.pow_add_r by (apply Z.div_pos; lia).
  replace ((p - 1) / 2 + (p - 1) / 2) with (p - 1) by lia. apply fermat. assumption.
Qed.

Theorem exists_nonresidue : exists n, 1 < n < p /\ cg p (n ^ ((p - 1) / 2)) (-1).
Proof.
  pose proof half_twice as H. destruct (exists_not_root ((p - 1) / 2)) as (x & Hx & N); [lia|].
  exists x. destruct (pow_half_pm1 x (cg_range_nz x Hx)) as [K|K]; [contradiction|].
  split; [|assumption]. destruct (Z.eq_dec x 1) as [->|]; [|lia].
  exfalso. apply N. rewrite Z.pow_1_l by lia. reflexivity.
Qed.

(** A square is a root of unity of order (p-1)/2. *)
Lemma square_euler r a : cg p (r * r) a -> ~ cg p a 0 -> cg p (a ^ ((p - 1) / 2)) 1.
Proof.
  intros H Ha. pose proof half_twice as E.
  rewrite <- (cg_pow p _ _ _ H). rewrite Z.pow_mul_l, <- Z.pow_add_r by (apply Z.div_pos; lia).
  replace ((p - 1) / 2 + (p - 1) / 2) with (p - 1) by lia. apply fermat.
  intros C. apply Ha. rewrite <- H, C. apply cg_of_eq. ring.
Qed.

Lemma m1_ne_1 : ~ cg p (-1) 1.
Proof. intros [k K]. assert (k = 0 \/ k <= -1 \/ 1 <= k) by lia. nia. Qed.

End Odd.
End Prime.

(** Trial check of primality, for small examples. *)
Lemma prime_check n : 1 < n -> forallb (fun k => Z.gcd k n =? 1) (map Z.of_nat (seq 1 (Z.to_nat (n - 1)))) = true -> prime n.
Proof.
  intros H1 H. constructor; [assumption|]. intros k Hk. rewrite forallb_forall in H.
  apply Zgcd_1_rel_prime. apply Z.eqb_eq. apply H. apply in_map_iff. exists (Z.to_nat k). split; [lia|]. apply in_seq. lia.
Qed.

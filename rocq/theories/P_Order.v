(** The cyclic group generated by a point of prime order, and a counting argument showing that it can be
    the whole curve. *)

From Coq Require Import ZArith Lia Bool List.
From Verif Require Import S_Curve S_EcModel P_NumTheory P_Curve.
Import ListNotations.
Open Scope Z_scope.

Section Order.
Variable E : ecurve.
Hypothesis OK : curve_ok E.
Local Notation p := (ep E).
Variables (G : epoint) (n : Z).
Hypothesis HG : on_curve E G.
Hypothesis G0 : G <> None.
Hypothesis Hn : prime n.
Hypothesis nG : emul E n G = None.

Local Notation "k # P" := (emul E k P) (at level 35).

Lemma n2 : 2 <= n. Proof. now apply prime_ge_2. Qed.
Lemma kG_closed k : on_curve E (k # G). Proof. now apply emul_closed. Qed.
Lemma emul_modn k : 0 <= k -> (k mod n) # G = k # G.
Proof. intros. apply emul_mod; auto. pose proof n2 as N2. lia. Qed.

Lemma order_spec k : 0 <= k -> k # G = None <-> (n | k).
Proof.
  intros Hk. pose proof n2 as N2. split.
  - intros H. destruct (Zdivide_dec n k) as [D|D]; [assumption|exfalso]. apply G0.
    destruct (rel_prime_bezout n k) as [u v B]; [now apply prime_rel_prime|].
    (* u n + v k = 1 *)
    assert (K : (v mod n * k) # G = None).
    { rewrite emul_mul by (assumption || (apply Z.mod_pos_bound; lia) || lia). rewrite H. apply emul_None. }
    pose proof (Z.mod_pos_bound v n ltac:(lia)).
    assert (M : (v mod n * k) mod n = 1).
    { rewrite Zmult_mod_idemp_l. symmetry. apply (Z.mod_unique_pos _ _ (- u)); lia. }
    rewrite <- emul_modn, M, emul_1 in K by nia. exact K.
  - intros [q ->]. rewrite emul_mul by (assumption || nia). rewrite nG. apply emul_None.
Qed.
Lemma emul_inj : forall j k, 0 <= j < n -> 0 <= k < n -> j # G = k # G -> j = k.
Proof.
  assert (W : forall j k, 0 <= j <= k -> k < n -> j # G = k # G -> j = k).
  { intros i k Hi Hk H. assert (D : (k - i) # G = None).
    { apply (eadd_cancel_l E OK (i # G)); auto using kG_closed. exact Logic.I. rewrite <- emul_add by (assumption || lia).
      replace (i + (k - i)) with k by lia. now rewrite eadd_0_r. }
    apply order_spec in D; [|lia]. destruct (Z.eq_dec k i); [lia|]. apply Z.divide_pos_le in D; lia. }
  intros j k Hj Hk H. destruct (Z.le_ge_cases j k); [apply W; auto; lia|]. symmetry. apply W; auto; lia.
Qed.
Lemma emul_eq_mod j k : 0 <= j -> 0 <= k -> j # G = k # G <-> j mod n = k mod n.
Proof.
  intros Hj Hk. pose proof n2 as N2. rewrite <- (emul_modn j), <- (emul_modn k) by assumption. split; [|now intros ->].
  apply emul_inj; apply Z.mod_pos_bound; lia.
Qed.
Lemma neg_kG k : 0 <= k -> eneg E (k # G) = ((- k) mod n) # G.
Proof.
  intros Hk. pose proof n2 as N2. symmetry. apply eneg_unique; auto using kG_closed. pose proof (Z.mod_pos_bound (- k) n ltac:(lia)).
  rewrite <- emul_add by (assumption || lia). apply order_spec; [lia|]. apply Z.mod_divide; [lia|].
  rewrite Zplus_mod_idemp_r. replace (k + - k) with 0 by lia. apply Z.mod_0_l. lia.
Qed.

Lemma NoDup_app_ {A} (l m : list A) : NoDup l -> NoDup m -> (forall x, In x l -> In x m -> False) -> NoDup (l ++ m).
Proof.
  induction l as [|a l IH]; intros H1 H2 D; [assumption|]. inversion H1; subst. cbn. constructor.
  - intros K. apply in_app_or in K. destruct K as [K|K]; [contradiction|]. apply (D a); cbn; auto.
  - apply IH; auto. intros x K1 K2. apply (D x); cbn; auto.
Qed.

(** ** Counting *)
Definition code (P : epoint) : Z := match P with None => 2 * p | Some (x, y) => 2 * x + y mod 2 end.
Lemma code_range P : on_curve E P -> 0 <= code P <= 2 * p.
Proof. destruct P as [[x y]|]; cbn [on_curve code]; [|intros; pose proof (proj1 (proj2 OK)); lia]. intros (Hx & Hy & _). pose proof (Z.mod_pos_bound y 2 ltac:(lia)). lia. Qed.
Lemma podd : p mod 2 = 1.
Proof. apply P_NumTheory.p_odd; [apply OK|]. pose proof (proj1 (proj2 OK)). lia. Qed.
Lemma code_inj P Q : on_curve E P -> on_curve E Q -> code P = code Q -> P = Q.
Proof.
  pose proof (proj1 (proj2 OK)) as P3.
  destruct P as [[x y]|], Q as [[x' y']|]; cbn [on_curve code]; intros HP HQ H.
  - destruct HP as (Hx & Hy & EP). destruct HQ as (Hx' & Hy' & EQ).
    pose proof (Z.mod_pos_bound y 2 ltac:(lia)). pose proof (Z.mod_pos_bound y' 2 ltac:(lia)).
    assert (x = x') by lia. subst x'. assert (PY : y mod 2 = y' mod 2) by lia. do 2 f_equal.
    assert (K : cg p ((y - y') * (y + y')) 0).
    { replace (_ * _) with (y * y - y' * y') by ring. apply cg_iff; [lia|]. rewrite Zminus_mod, EP, EQ, <- Zminus_mod. f_equal. ring. }
    apply cg_integral in K; [|apply OK]. destruct K as [K|K].
    + apply (cg_small p); [lia|lia|]. destruct K as [k K]. exists k. lia.
    + destruct K as [k K]. rewrite Z.sub_0_r in K. assert (KK : k = 0 \/ k = 1) by nia. destruct KK as [-> | ->]; [lia|].
      exfalso. pose proof podd. pose proof (Z.div_mod y 2). pose proof (Z.div_mod y' 2). pose proof (Z.div_mod p 2). lia.
  - pose proof (Z.mod_pos_bound y 2 ltac:(lia)). lia.
  - pose proof (Z.mod_pos_bound y' 2 ltac:(lia)). lia.
  - reflexivity.
Qed.
Definition upto (m : Z) : list Z := map Z.of_nat (seq 0 (Z.to_nat m)).
Lemma upto_in m i : 0 <= m -> In i (upto m) <-> 0 <= i < m.
Proof.
  intros Hm. unfold upto. rewrite in_map_iff. split.
  - intros (k & <- & H). apply in_seq in H. lia.
  - intros H. exists (Z.to_nat i). rewrite in_seq. lia.
Qed.
Lemma upto_len m : 0 <= m -> Z.of_nat (length (upto m)) = m.
Proof. intros. unfold upto. rewrite map_length, seq_length. lia. Qed.
Lemma upto_nodup m : NoDup (upto m).
Proof. unfold upto. apply FinFun.Injective_map_NoDup; [intros a b; lia|apply seq_NoDup]. Qed.
Lemma count_points l : NoDup l -> (forall P, In P l -> on_curve E P) -> Z.of_nat (length l) <= 2 * p + 1.
Proof.
  intros ND On. pose proof (proj1 (proj2 OK)) as P3. rewrite <- (upto_len (2 * p + 1)) by lia. apply Nat2Z.inj_le.
  rewrite <- (map_length code l). apply NoDup_incl_length.
  - clear G0 nG HG. induction l as [|P l IH]; [constructor|]. inversion ND; subst. cbn [map]. constructor.
    + intros K. apply in_map_iff in K. destruct K as (Q & K1 & K2). apply code_inj in K1; [subst; contradiction| |]; apply On; cbn; auto.
    + apply IH; [assumption|]. intros. apply On. now right.
  - intros c K. apply in_map_iff in K. destruct K as (Q & <- & K). apply upto_in; [lia|]. pose proof (code_range Q (On Q K)). lia.
Qed.

Hypothesis n_odd : n mod 2 = 1.
Hypothesis no2 : forall P, on_curve E P -> ~ two_torsion P.

Lemma half P k : on_curve E P -> 0 <= k -> eadd E P P = k # G -> exists j, 0 <= j /\ P = j # G.
Proof.
  intros HP Hk H. pose proof n2 as N2. set (h := (n + 1) / 2). assert (Eh : 2 * h = n + 1).
  { unfold h. rewrite <- Z_div_exact_full_2; [reflexivity|lia|]. rewrite Zplus_mod, n_odd. reflexivity. }
  exists (k * h). split; [nia|]. set (Q := eadd E P (eneg E ((k * h) # G))).
  pose proof (kG_closed (k * h)) as K1. pose proof (eneg_closed E OK _ K1) as K2.
  assert (HQ : on_curve E Q) by now apply eadd_closed.
  assert (D : eadd E Q Q = None).
  { unfold Q. rewrite (eadd_assoc E OK), <- (eadd_assoc E OK (eneg E ((k * h) # G))) by auto using eadd_closed.
    rewrite (eadd_comm E OK (eneg E ((k * h) # G)) P), (eadd_assoc E OK P), <- (eadd_assoc E OK P P) by auto using eadd_closed.
    rewrite H. rewrite !neg_kG by nia. pose proof (Z.mod_pos_bound (- (k * h)) n ltac:(lia)).
    rewrite <- (emul_add E OK) by (assumption || lia). rewrite <- (emul_add E OK) by (assumption || lia).
    apply order_spec; [lia|]. apply Z.mod_divide; [lia|]. 
    apply cg_eq_mod; [lia|]. rewrite !(cg_mod_l n (- (k * h))) by lia. exists (- k). replace h with (n + 1 - h) by lia. nia. }
  assert (Q0 : Q = None).
  { destruct Q as [[x y]|] eqn:EQ; [|reflexivity]. exfalso. apply (no2 (Some (x, y)) HQ). exists x. do 2 f_equal.
    cbn [eadd] in D. rewrite Z.eqb_refl in D. cbn [andb] in D. destruct (Z.eqb_spec ((y + y) mod p) 0) as [K|K]; [|discriminate].
    cbn [on_curve] in HQ. destruct HQ as (_ & Hy & _). pose proof (proj1 (proj2 OK)) as P3.
    apply Z.mod_divide in K; [|lia]. replace (y + y)%Z with (2 * y) in K by ring. apply prime_mult in K; [|apply OK].
    destruct K as [K|K]; [apply Z.divide_pos_le in K; lia|]. destruct (Z.eq_dec y 0); [assumption|]. apply Z.divide_pos_le in K; lia. }
  unfold Q in Q0. rewrite (eadd_comm E OK) in Q0 by assumption. apply eneg_unique in Q0; auto. rewrite Q0, (eneg_neg E OK); auto.
Qed.

Hypothesis big : 2 * p + 1 < 3 * n.
Theorem generated P : on_curve E P -> exists k, 0 <= k < n /\ P = k # G.
Proof.
  intros HP. pose proof n2 as N2.
  assert (R : forall k, 0 <= k -> P = k # G -> exists k, 0 <= k < n /\ P = k # G).
  { intros k Hk H. exists (k mod n). split; [apply Z.mod_pos_bound; lia|]. now rewrite emul_modn. }
  destruct (in_dec (fun x y : epoint => ltac:(repeat decide equality) : {x = y} + {x <> y}) P (map (fun k => k # G) (upto n))) as [K|K].
  { apply in_map_iff in K. destruct K as (k & <- & K). apply upto_in in K; [|lia]. exists k. auto. }
  exfalso.
  assert (N : forall k, 0 <= k -> P <> k # G).
  { intros k Hk H. apply K. destruct (R k Hk H) as (j & Hj & ->). apply in_map_iff. exists j. split; [reflexivity|]. apply upto_in; lia. }
  clear R K. pose proof (eneg_closed E OK P HP) as HN.
  set (l := map (fun k => k # G) (upto n) ++ map (fun k => eadd E P (k # G)) (upto n) ++ map (fun k => eadd E (eneg E P) (k # G)) (upto n)).
  assert (ND : NoDup l).
  { assert (IN : forall T, on_curve E T -> NoDup (map (fun k => eadd E T (k # G)) (upto n))).
    { intros T HT. assert (G1 : forall l, NoDup l -> (forall k, In k l -> 0 <= k < n) -> NoDup (map (fun k => eadd E T (k # G)) l)).
      { intros l0 NL. induction NL as [|k l0 NI NL IH]; intros RG; [constructor|]. cbn [map]. constructor.
        - intros K. apply in_map_iff in K. destruct K as (j & K1 & K2). apply (eadd_cancel_l E OK) in K1; auto using kG_closed.
          apply emul_inj in K1; [subst; contradiction| |]; apply RG; cbn; auto.
        - apply IH. intros. apply RG. now right. }
      apply G1; [apply upto_nodup|]. intros k Hk. apply upto_in in Hk; lia. }
    unfold l. apply NoDup_app_.
    - exact (IN None Logic.I).
    - apply NoDup_app_; auto. intros Q K1 K2. apply in_map_iff in K1, K2. destruct K1 as (i & K1 & I1). destruct K2 as (j & K2 & I2).
      apply upto_in in I1, I2; try lia. subst Q.
      (* P + iG = -P + jG *)
      assert (D : eadd E P P = ((j + (- i) mod n) # G)).
      { pose proof (Z.mod_pos_bound (- i) n ltac:(lia)). rewrite emul_add by (assumption || lia).
        rewrite <- neg_kG by lia. pose proof (kG_closed i) as C1. pose proof (kG_closed j) as C2. pose proof (eneg_closed E OK _ C1) as C3.
        apply (eadd_cancel_l E OK (eadd E (eneg E P) (i # G))); auto using eadd_closed.
        transitivity (eadd E P (i # G)).
        - rewrite (eadd_comm E OK (eneg E P)), (eadd_assoc E OK) by auto using eadd_closed. 
          rewrite <- (eadd_assoc E OK (eneg E P)) by auto. rewrite (eadd_comm E OK (eneg E P) P), eadd_neg by auto. now apply eadd_comm.
        - rewrite <- K2. rewrite (eadd_comm E OK (i # G)) || idtac.
          rewrite (eadd_assoc E OK (eneg E P) (i # G)) by auto using eadd_closed. f_equal.
          rewrite (eadd_comm E OK (j # G)), <- (eadd_assoc E OK) by auto using eadd_closed. now rewrite eadd_neg. }
      destruct (half P (j + (- i) mod n)) as (m & Hm & HH); auto; [pose proof (Z.mod_pos_bound (- i) n ltac:(lia)); lia|]. now apply (N m).
    - intros Q K1 K2. apply in_app_or in K2. apply in_map_iff in K1. destruct K1 as (i & <- & I1). apply upto_in in I1; [|lia].
      assert (W : forall T j, on_curve E T -> 0 <= j -> eadd E T (j # G) = i # G -> exists m, 0 <= m /\ T = m # G).
      { intros T j HT Hj H. exists (i + (- j) mod n)%Z. pose proof (Z.mod_pos_bound (- j) n ltac:(lia)). split; [lia|].
        pose proof (kG_closed j) as C1. pose proof (eneg_closed E OK _ C1) as C2.
        rewrite emul_add, <- H, <- neg_kG by (assumption || lia). rewrite (eadd_assoc E OK), eadd_neg by auto. now rewrite eadd_0_r. }
      destruct K2 as [K2|K2]; apply in_map_iff in K2; destruct K2 as (j & K2 & I2); apply upto_in in I2; try lia.
      + destruct (W P j HP ltac:(lia) K2) as (m & Hm & HH). now apply (N m).
      + destruct (W (eneg E P) j HN ltac:(lia) K2) as (m & Hm & HH). apply (f_equal (eneg E)) in HH. rewrite (eneg_neg E OK), neg_kG in HH by auto.
        apply (N ((- m) mod n)); [apply Z.mod_pos_bound; lia|exact HH]. }
  pose proof (count_points l ND) as CNT. unfold l in CNT. rewrite !app_length, !map_length in CNT. pose proof (upto_len n ltac:(lia)).
  assert (On : forall Q, In Q l -> on_curve E Q).
  { intros Q K. unfold l in K. rewrite !in_app_iff, !in_map_iff in K. destruct K as [(k & <- & _)|[(k & <- & _)|(k & <- & _)]]; auto using eadd_closed, kG_closed. }
  specialize (CNT On). lia.
Qed.
End Order.

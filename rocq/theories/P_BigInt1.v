(** Digit lists: value, canonical form, length, comparison, add, sub, mul. *)

From Verif Require Import Base M_BigInt S_BigInt.
From Coq Require Import ZifyBool ZifyNat.
Open Scope Z_scope.
Ltac Zify.zify_post_hook ::= Z.div_mod_to_equations.

Lemma base_pow c : digit_base c = 2 ^ digit_bits c.
Proof. destruct c; reflexivity. Qed.
Lemma base_ge c : 256 <= digit_base c.
Proof. destruct c; cbn; lia. Qed.
Lemma bits_pos c : 8 <= digit_bits c.
Proof. destruct c; cbn; lia. Qed.
Lemma bits_bytes c : digit_bits c = 8 * Z.of_nat (digit_bytes c).
Proof. destruct c; reflexivity. Qed.
Lemma bytes_pos c : (1 <= digit_bytes c)%nat.
Proof. destruct c; cbn; lia. Qed.

(** Generic list facts *)
Lemma last_app_single {A} (l : list A) x d : last (l ++ [x]) d = x.
Proof. induction l as [|y l IH]; [reflexivity|]. cbn [app last]. destruct (l ++ [x]) eqn:E; [destruct l; discriminate|exact IH]. Qed.

Lemma Forall_firstn {A} (P : A -> Prop) n l : Forall P l -> Forall P (firstn n l).
Proof. intros H; revert n; induction H; intros [|n]; cbn; constructor; auto. Qed.
Lemma Forall_skipn {A} (P : A -> Prop) n l : Forall P l -> Forall P (skipn n l).
Proof. intros H; revert n; induction H; intros [|n]; cbn; try constructor; auto. Qed.
Lemma Forall_repeat {A} (P : A -> Prop) x n : P x -> Forall P (repeat x n).
Proof. intros H; induction n; cbn; constructor; auto. Qed.
Lemma Forall_app_intro {A} (P : A -> Prop) l1 l2 : Forall P l1 -> Forall P l2 -> Forall P (l1 ++ l2).
Proof. intros; apply Forall_app; auto. Qed.

Lemma firstn_app_exact {A} (l1 l2 : list A) : firstn (length l1) (l1 ++ l2) = l1.
Proof. rewrite firstn_app, Nat.sub_diag, firstn_all. cbn. apply app_nil_r. Qed.
Lemma skipn_app_exact {A} (l1 l2 : list A) : skipn (length l1) (l1 ++ l2) = l2.
Proof. rewrite skipn_app, Nat.sub_diag, skipn_all. reflexivity. Qed.

Lemma skipn_skipn {A} n m (l : list A) : skipn n (skipn m l) = skipn (n + m) l.
Proof.
  revert l; induction m as [|m IH]; intros l; [rewrite Nat.add_0_r; reflexivity|].
  rewrite Nat.add_succ_r. destruct l as [|x l]; [rewrite !skipn_nil; reflexivity|]. cbn [skipn]. apply IH.
Qed.

Lemma slice_ret {A} (l : list A) i j :
  (i <= j)%nat -> (j <= length l)%nat -> slice l i j = Ret (firstn (j - i) (skipn i l)).
Proof.
  intros H1 H2. unfold slice.
  destruct (Nat.leb_spec i j); [|lia]. destruct (Nat.leb_spec j (length l)); [|lia]. reflexivity.
Qed.
Lemma slice_to_ret {A} (l : list A) j : (j <= length l)%nat -> slice_to l j = Ret (firstn j l).
Proof. intros H. unfold slice_to. rewrite slice_ret by lia. cbn [skipn]. rewrite Nat.sub_0_r. reflexivity. Qed.
Lemma slice_from_ret {A} (l : list A) i : (i <= length l)%nat -> slice_from l i = Ret (skipn i l).
Proof.
  intros H. unfold slice_from. rewrite slice_ret by lia. f_equal.
  apply firstn_all2. rewrite skipn_length. lia.
Qed.

Lemma rposition_None {A} (f : A -> bool) l :
  rposition f l = None <-> Forall (fun x => f x = false) l.
Proof.
  induction l as [|x l IH]; cbn [rposition]; [split; auto|].
  destruct (rposition f l) eqn:E.
  - split; [discriminate|]. intros H. inversion H; subst. apply IH in H3. discriminate.
  - destruct (f x) eqn:Ex; split; intros H; try discriminate; auto.
    + inversion H; congruence.
    + constructor; [assumption|]. apply IH. reflexivity.
Qed.

Lemma rposition_Some {A} (f : A -> bool) l i (d : A) :
  rposition f l = Some i ->
  (i < length l)%nat /\ f (nth i l d) = true /\ Forall (fun x => f x = false) (skipn (S i) l).
Proof.
  revert i; induction l as [|x l IH]; intros i; cbn [rposition]; [discriminate|].
  destruct (rposition f l) eqn:E.
  - intros [= <-]. destruct (IH _ eq_refl) as (H1 & H2 & H3).
    cbn [length nth skipn]. repeat split; try lia; assumption.
  - destruct (f x) eqn:Ex; [|discriminate]. intros [= <-].
    cbn [length nth skipn]. repeat split; try lia; try assumption.
    apply rposition_None in E. exact E.
Qed.

Lemma nth_last_firstn {A} (l : list A) i (d : A) :
  (i < length l)%nat -> last (firstn (S i) l) d = nth i l d.
Proof.
  revert i; induction l as [|x l IH]; intros i; cbn [length]; [lia|].
  intros H. destruct i as [|i]; [reflexivity|].
  cbn [firstn nth]. rewrite <- IH by lia.
  destruct l as [|y l]; [cbn in H; lia|]. reflexivity.
Qed.

Section Proofs.
Context {cfg : digit_cfg}.
Local Notation BITS := (digit_bits cfg).
Local Notation B := (digit_base cfg).
Local Notation val := (@digits_val cfg).

Definition pw (n : nat) : Z := B ^ Z.of_nat n.
Arguments pw : simpl never.

Lemma pw_0 : pw 0 = 1. Proof. reflexivity. Qed.
Lemma pw_S n : pw (S n) = B * pw n.
Proof. unfold pw. rewrite Nat2Z.inj_succ, Z.pow_succ_r by lia. reflexivity. Qed.
Lemma pw_pos n : 0 < pw n.
Proof. unfold pw. pose proof (base_ge cfg). apply Z.pow_pos_nonneg; lia. Qed.
Lemma pw_add n m : pw (n + m) = pw n * pw m.
Proof. unfold pw. rewrite Nat2Z.inj_add, Z.pow_add_r by lia. reflexivity. Qed.
Lemma pw_1 : pw 1 = B. Proof. rewrite pw_S, pw_0. lia. Qed.
Lemma pw_mono n m : (n <= m)%nat -> pw n <= pw m.
Proof. intros H. unfold pw. pose proof (base_ge cfg). apply Z.pow_le_mono_r; lia. Qed.

Lemma val_app l1 l2 : val (l1 ++ l2) = val l1 + pw (length l1) * val l2.
Proof.
  induction l1 as [|x l IH]; cbn [app digits_val length]; [rewrite pw_0; lia|].
  rewrite IH, pw_S. ring.
Qed.
Lemma val_bound l : Forall digit l -> 0 <= val l < pw (length l).
Proof.
  induction 1 as [|x l Hx _ IH]; cbn [digits_val length]; [rewrite pw_0; lia|].
  rewrite pw_S. unfold digit in Hx. nia.
Qed.
Lemma val_nonneg l : Forall digit l -> 0 <= val l.
Proof. intros H; apply val_bound in H; lia. Qed.
Lemma val_zeros l : Forall (fun d => d = 0) l -> val l = 0.
Proof. induction 1 as [|x l Hx _ IH]; cbn [digits_val]; lia. Qed.
Lemma val_repeat0 n : val (repeat 0 n) = 0.
Proof. apply val_zeros. apply Forall_repeat; reflexivity. Qed.
Lemma val_single x : val [x] = x. Proof. cbn. lia. Qed.
Lemma val_firstn_skipn n l : val l = val (firstn n l) + pw (length (firstn n l)) * val (skipn n l).
Proof. rewrite <- (firstn_skipn n l) at 1. apply val_app. Qed.
Lemma digit_0 : @digit cfg 0.
Proof. unfold digit. pose proof (base_ge cfg). lia. Qed.
Lemma digit_1 : @digit cfg 1.
Proof. unfold digit. pose proof (base_ge cfg). lia. Qed.
Lemma digits_repeat0 n : Forall (@digit cfg) (repeat 0 n).
Proof. apply Forall_repeat, digit_0. Qed.

Lemma zeros_eq_repeat l : Forall (fun d => d = 0) l -> l = repeat 0 (length l).
Proof. induction 1 as [|x l Hx _ IH]; cbn; [reflexivity|]. subst; f_equal; assumption. Qed.

(** canonical lists *)
Lemma canon_nonempty l : canon l -> l <> []. Proof. intros [H _]; exact H. Qed.
Lemma canon_len l : canon l -> (1 <= length l)%nat.
Proof. intros [H _]. destruct l; [congruence|cbn; lia]. Qed.

Lemma canon_lower l : canon l -> Forall digit l -> (2 <= length l)%nat -> pw (length l - 1) <= val l.
Proof.
  intros [Hne Hc] Hd Hl. destruct Hc as [Hc|Hc]; [lia|].
  destruct (exists_last Hne) as (l' & x & ->).
  rewrite last_app_single in Hc. rewrite app_length in *. cbn [length] in *.
  replace (length l' + 1 - 1)%nat with (length l') by lia.
  rewrite val_app, val_single.
  apply Forall_app in Hd as [Hd1 Hd2]. inversion Hd2 as [|? ? Hx _]; subst. unfold digit in Hx.
  pose proof (val_nonneg _ Hd1). pose proof (pw_pos (length l')). nia.
Qed.

Lemma canon_zero_iff l : canon l -> Forall digit l -> (val l = 0 <-> l = [0]).
Proof.
  intros Hc Hd. split; [|intros ->; cbn; lia].
  intros Hv. pose proof (canon_len _ Hc).
  destruct (Nat.eq_dec (length l) 1) as [E|E].
  - destruct l as [|x [|y l]]; cbn in E; try lia. cbn in Hv. f_equal; lia.
  - pose proof (canon_lower _ Hc Hd ltac:(lia)). pose proof (pw_pos (length l - 1)). lia.
Qed.

Lemma canon_single x : canon [x].
Proof. split; [discriminate|left; reflexivity]. Qed.

Lemma len_digits_spec l :
  l <> [] ->
  exists n, len_digits l = Ret n /\ (1 <= n <= length l)%nat /\ canon (firstn n l) /\
            Forall (fun d => d = 0) (skipn n l).
Proof.
  intros Hne. unfold len_digits. destruct l as [|x0 l0]; [congruence|]. cbn [negb oassert dassert].
  set (l := x0 :: l0) in *. destruct (rposition _ l) as [i|] eqn:E.
  - apply (rposition_Some _ _ _ 0) in E as (H1 & H2 & H3).
    exists (S i). repeat split; try lia.
    + subst l; discriminate.
    + right. rewrite nth_last_firstn by lia. lia.
    + eapply Forall_impl; [|exact H3]. cbn; intros; lia.
  - apply rposition_None in E. exists 1%nat. subst l. cbn [firstn skipn length]. repeat split; try lia.
    + discriminate.
    + left; reflexivity.
    + inversion E; subst. eapply Forall_impl; [|eassumption]. cbn; intros; lia.
Qed.

Lemma len_digits_unique l n :
  l <> [] -> (1 <= n <= length l)%nat -> canon (firstn n l) ->
  Forall (fun d => d = 0) (skipn n l) -> len_digits l = Ret n.
Proof.
  intros Hne Hn Hc Hz. destruct (len_digits_spec l Hne) as (m & E & Hm & Hcm & Hzm).
  rewrite E. f_equal.
  assert (G : forall n m, (1 <= n <= length l)%nat -> (1 <= m <= length l)%nat ->
     canon (firstn n l) -> Forall (fun d => d = 0) (skipn m l) -> ~ (m < n)%nat).
  { clear. intros n m Hn Hm Hc Hz Hlt. destruct Hc as [_ [Hc|Hc]].
    - rewrite firstn_length in Hc. lia.
    - destruct n as [|n]; [lia|]. rewrite nth_last_firstn in Hc by lia.
      apply Hc. rewrite <- (firstn_skipn m l), app_nth2; rewrite firstn_length; [|lia].
      rewrite Nat.min_l by lia.
      destruct (Nat.lt_ge_cases (n - m) (length (skipn m l))) as [L|L].
      + rewrite Forall_forall in Hz. apply Hz. apply nth_In. exact L.
      + apply nth_overflow. exact L. }
  pose proof (G n m Hn Hm Hc Hzm). pose proof (G m n Hm Hn Hcm Hz). lia.
Qed.

Lemma valid_slice_iff l : is_valid_biguint_slice l = true <-> canon l.
Proof.
  unfold is_valid_biguint_slice. destruct l as [|x l'].
  - split; [discriminate|intros [H _]; congruence].
  - set (l := x :: l'). assert (Hne : l <> []) by discriminate.
    destruct (len_digits_spec l Hne) as (n & E & Hn & Hc & Hz). rewrite E.
    rewrite Nat.eqb_eq. split.
    + intros Hl. rewrite Hl, firstn_all in Hc. exact Hc.
    + intros Hcl. rewrite (len_digits_unique l (length l)) in E.
      * congruence.
      * exact Hne.
      * lia.
      * rewrite firstn_all; exact Hcl.
      * rewrite skipn_all. constructor.
Qed.
Lemma valid_slice l : canon l -> is_valid_biguint_slice l = true.
Proof. apply valid_slice_iff. Qed.

Lemma len_digits_canon l : canon l -> len_digits l = Ret (length l).
Proof.
  intros H. pose proof (canon_len _ H).
  apply len_digits_unique; [apply H|lia|rewrite firstn_all; exact H|rewrite skipn_all; constructor].
Qed.

Lemma is_zero_digits_spec l :
  canon l -> Forall digit l -> is_zero_digits l = Ret (val l =? 0).
Proof.
  intros Hc Hd. unfold is_zero_digits. rewrite valid_slice by assumption. cbn [oassert dassert]. f_equal.
  pose proof (canon_zero_iff l Hc Hd) as Hz. pose proof (canon_len _ Hc).
  destruct (Z.eqb_spec (val l) 0) as [E|E].
  - apply Hz in E. subst. reflexivity.
  - destruct l as [|x [|y l]]; cbn [length Nat.eqb hd andb]; try reflexivity.
    destruct (Z.eqb_spec x 0); [|reflexivity]. subst. exfalso; apply E; cbn; lia.
Qed.

(** comparison *)
Lemma lex_cmp_spec a b :
  length a = length b -> Forall digit a -> Forall digit b ->
  lex_cmp a b = (val (rev a) ?= val (rev b)).
Proof.
  revert b; induction a as [|x a IH]; intros [|y b] Hl Ha Hb; cbn [length] in Hl; try lia.
  - reflexivity.
  - inversion Ha as [|? ? Hx Ha']; inversion Hb as [|? ? Hy Hb']; subst.
    cbn [lex_cmp rev]. rewrite IH by (assumption || lia).
    rewrite !val_app, !val_single, !rev_length.
    replace (length b) with (length a) by lia.
    pose proof (val_bound (rev a) ltac:(apply Forall_rev; assumption)) as V1.
    pose proof (val_bound (rev b) ltac:(apply Forall_rev; assumption)) as V2.
    rewrite rev_length in V1, V2. replace (length b) with (length a) in V2 by lia.
    pose proof (pw_pos (length a)).
    destruct (Z.compare_spec x y) as [E|E|E].
    + subst. rewrite !(Z.add_comm _ (pw (length a) * y)), Zcompare_plus_compat. reflexivity.
    + symmetry. apply Z.compare_lt_iff. nia.
    + symmetry. apply Z.compare_gt_iff. nia.
Qed.

Lemma len_lt_val a b :
  canon b -> Forall digit a -> Forall digit b -> a <> [] ->
  (length a < length b)%nat -> val a < val b.
Proof.
  intros Hb Da Db Ha Hl.
  assert (1 <= length a)%nat by (destruct a; [congruence|cbn; lia]).
  pose proof (canon_lower b Hb Db ltac:(lia)). pose proof (val_bound a Da).
  pose proof (pw_mono (length a) (length b - 1) ltac:(lia)). lia.
Qed.

Lemma cmp_digits_spec a b :
  canon a -> canon b -> Forall digit a -> Forall digit b ->
  cmp_digits a b = Ret (val a ?= val b).
Proof.
  intros Ha Hb Da Db. unfold cmp_digits. rewrite !valid_slice by assumption. cbn [oassert dassert]. f_equal.
  destruct (Nat.compare_spec (length a) (length b)) as [E|E|E].
  - rewrite lex_cmp_spec, !rev_involutive; rewrite ?rev_length; auto using Forall_rev.
  - symmetry. apply Z.compare_lt_iff. apply len_lt_val; auto. apply Ha.
  - symmetry. apply Z.compare_gt_iff. apply len_lt_val; auto. apply Hb.
Qed.

Lemma list_eqb_eq a b : list_eqb a b = true <-> a = b.
Proof.
  revert b; induction a as [|x a IH]; intros [|y b]; cbn [list_eqb]; split; try congruence; try discriminate.
  - rewrite andb_true_iff, Z.eqb_eq, IH. intros [-> ->]; reflexivity.
  - intros [= -> ->]. rewrite andb_true_iff, Z.eqb_eq, IH. auto.
Qed.

Lemma val_inj a b :
  length a = length b -> Forall digit a -> Forall digit b -> val a = val b -> a = b.
Proof.
  revert b; induction a as [|x a IH]; intros [|y b] Hl Ha Hb Hv; cbn [length digits_val] in *; try lia.
  - reflexivity.
  - inversion Ha as [|? ? Hx Ha']; inversion Hb as [|? ? Hy Hb']; subst. unfold digit in *.
    assert (V : val a = val b) by (destruct (Z.lt_trichotomy (val a) (val b)) as [|[|]]; nia).
    f_equal; [rewrite V in Hv; lia|]. apply IH; auto.
Qed.

Lemma canon_inj a b :
  canon a -> canon b -> Forall digit a -> Forall digit b -> val a = val b -> a = b.
Proof.
  intros Ha Hb Da Db Hv.
  destruct (Nat.lt_trichotomy (length a) (length b)) as [H|[H|H]].
  - pose proof (len_lt_val a b Hb Da Db (canon_nonempty _ Ha) H). lia.
  - apply val_inj; auto.
  - pose proof (len_lt_val b a Ha Db Da (canon_nonempty _ Hb) H). lia.
Qed.

(** buffers *)
Lemma fill_buffer_ret n out :
  (length out <= n)%nat -> fill_buffer n out = Ret (out ++ repeat 0 (n - length out)).
Proof. intros H. unfold fill_buffer. destruct (Nat.leb_spec (length out) n); [reflexivity|lia]. Qed.

(** addition *)
Lemma mod_sub_once x b : 0 < b -> b <= x < 2 * b -> x mod b = x - b.
Proof. intros Hb H. symmetry. apply (Z.mod_unique x b 1); lia. Qed.
Lemma mod_add_once x b : 0 < b -> - b <= x < 0 -> x mod b = x + b.
Proof. intros Hb H. symmetry. apply (Z.mod_unique x b (-1)); lia. Qed.

Lemma carrying_add_spec x y c :
  digit x -> digit y ->
  exists d c', carrying_add x y c = (d, c') /\ digit d /\
     d + B * (if c' then 1 else 0) = x + y + (if c then 1 else 0).
Proof.
  intros Hx Hy. unfold carrying_add, digit in *. pose proof (base_ge cfg) as HB.
  generalize dependent B. intros b Hx Hy HB.
  eexists _, _. split; [reflexivity|].
  set (cy := if c then 1 else 0). assert (Hcy : 0 <= cy <= 1) by (subst cy; destruct c; lia).
  destruct (Z.leb_spec b (x + y)).
  - rewrite (mod_sub_once (x + y) b) by lia.
    destruct (Z.leb_spec b (x + y - b + cy)); [lia|]. cbn [orb].
    rewrite Z.mod_small by lia. lia.
  - rewrite (Z.mod_small (x + y)) by lia. cbn [orb].
    destruct (Z.leb_spec b (x + y + cy)).
    + rewrite mod_sub_once by lia. lia.
    + rewrite Z.mod_small by lia. lia.
Qed.
Lemma borrowing_sub_spec x y c :
  digit x -> digit y ->
  exists d c', borrowing_sub x y c = (d, c') /\ digit d /\
     d - B * (if c' then 1 else 0) = x - y - (if c then 1 else 0).
Proof.
  intros Hx Hy. unfold borrowing_sub, digit in *. pose proof (base_ge cfg) as HB.
  generalize dependent B. intros b Hx Hy HB.
  eexists _, _. split; [reflexivity|].
  set (cy := if c then 1 else 0). assert (Hcy : 0 <= cy <= 1) by (subst cy; destruct c; lia).
  destruct (Z.ltb_spec x y).
  - rewrite (mod_add_once (x - y) b) by lia.
    destruct (Z.ltb_spec (x - y + b) cy); cbn [orb].
    + lia.
    + rewrite Z.mod_small by lia. lia.
  - rewrite (Z.mod_small (x - y)) by lia. cbn [orb].
    destruct (Z.ltb_spec (x - y) cy).
    + rewrite mod_add_once by lia. lia.
    + rewrite Z.mod_small by lia. lia.
Qed.

Local Notation b2z := (fun c : bool => if c then 1 else 0).

Lemma add_zip_spec s g c :
  (length s <= length g)%nat -> Forall digit s -> Forall digit g ->
  exists ds c', add_zip s g c = (ds, c') /\ length ds = length s /\ Forall digit ds /\
    val ds + pw (length s) * b2z c' = val s + val (firstn (length s) g) + b2z c.
Proof.
  revert g c; induction s as [|x s IH]; intros g c Hl Hs Hg.
  - exists [], c. cbn. rewrite pw_0. repeat split; auto. lia.
  - destruct g as [|y g]; cbn [length] in Hl; [lia|].
    inversion Hs as [|? ? Hx Hs']; inversion Hg as [|? ? Hy Hg']; subst.
    cbn [add_zip]. destruct (carrying_add_spec y x c Hy Hx) as (d & c1 & -> & Hd & E).
    destruct (IH g c1 ltac:(lia) Hs' Hg') as (ds & c2 & -> & L & D & E2).
    exists (d :: ds), c2. cbn [length firstn digits_val]. rewrite pw_S. repeat split; auto; try lia.
    all: try nia.
Qed.
Lemma add_carry_spec g c :
  Forall digit g ->
  exists ds c', add_carry g c = (ds, c') /\ length ds = length g /\ Forall digit ds /\
    val ds + pw (length g) * b2z c' = val g + b2z c.
Proof.
  revert c; induction g as [|y g IH]; intros c Hg.
  - exists [], c. cbn. rewrite pw_0. repeat split; auto. lia.
  - inversion Hg as [|? ? Hy Hg']; subst.
    cbn [add_carry]. destruct (carrying_add_spec y 0 c Hy digit_0) as (d & c1 & -> & Hd & E).
    destruct (IH c1 Hg') as (ds & c2 & -> & L & D & E2).
    exists (d :: ds), c2. cbn [length digits_val]. rewrite pw_S. repeat split; auto; try lia.
    all: try nia.
Qed.
Lemma sub_zip_spec s g c :
  (length s <= length g)%nat -> Forall digit s -> Forall digit g ->
  exists ds c', sub_zip s g c = (ds, c') /\ length ds = length s /\ Forall digit ds /\
    val ds - pw (length s) * b2z c' = val (firstn (length s) g) - val s - b2z c.
Proof.
  revert g c; induction s as [|x s IH]; intros g c Hl Hs Hg.
  - exists [], c. cbn. rewrite pw_0. repeat split; auto. lia.
  - destruct g as [|y g]; cbn [length] in Hl; [lia|].
    inversion Hs as [|? ? Hx Hs']; inversion Hg as [|? ? Hy Hg']; subst.
    cbn [sub_zip]. destruct (borrowing_sub_spec y x c Hy Hx) as (d & c1 & -> & Hd & E).
    destruct (IH g c1 ltac:(lia) Hs' Hg') as (ds & c2 & -> & L & D & E2).
    exists (d :: ds), c2. cbn [length firstn digits_val]. rewrite pw_S. repeat split; auto; try lia.
    all: try nia.
Qed.
Lemma sub_borrow_spec g c :
  Forall digit g ->
  exists ds c', sub_borrow g c = (ds, c') /\ length ds = length g /\ Forall digit ds /\
    val ds - pw (length g) * b2z c' = val g - b2z c.
Proof.
  revert c; induction g as [|y g IH]; intros c Hg.
  - exists [], c. cbn. rewrite pw_0. repeat split; auto. lia.
  - inversion Hg as [|? ? Hy Hg']; subst.
    cbn [sub_borrow]. destruct (borrowing_sub_spec y 0 c Hy digit_0) as (d & c1 & -> & Hd & E).
    destruct (IH c1 Hg') as (ds & c2 & -> & L & D & E2).
    exists (d :: ds), c2. cbn [length digits_val]. rewrite pw_S. repeat split; auto; try lia.
    all: try nia.
Qed.

(** A result buffer [r] of length [n] whose first [l] digits canonically
    represent [v]. *)
Definition buf (r : list Z) (l n : nat) (v : Z) : Prop :=
  length r = n /\ Forall digit r /\ (1 <= l <= n)%nat /\ canon (firstn l r) /\
  Forall (fun d => d = 0) (skipn l r) /\ val (firstn l r) = v.

Lemma canon_of_lower l : (1 <= length l)%nat -> Forall digit l ->
  ((2 <= length l)%nat -> pw (length l - 1) <= val l) -> canon l.
Proof.
  intros H1 Hd H. split; [destruct l; [cbn in H1; lia|discriminate]|].
  destruct (Nat.eq_dec (length l) 1) as [|N]; [left; assumption|right].
  assert (Hne : l <> []) by (destruct l; [cbn in H1; lia|discriminate]).
  destruct (exists_last Hne) as (l' & x & ->).
  rewrite last_app_single. rewrite app_length in *. cbn [length] in *.
  specialize (H ltac:(lia)). replace (length l' + 1 - 1)%nat with (length l') in H by lia.
  rewrite val_app, val_single in H. apply Forall_app in Hd as [Hd1 Hd2].
  pose proof (val_bound _ Hd1). pose proof (pw_pos (length l')). nia.
Qed.

Lemma canon_len_mono a b : canon a -> canon b -> Forall digit a -> Forall digit b ->
  val a <= val b -> (length a <= length b)%nat.
Proof.
  intros Ha Hb Da Db H. destruct (Nat.le_gt_cases (length a) (length b)) as [|L]; [assumption|].
  pose proof (len_lt_val b a Ha Db Da (canon_nonempty _ Hb) L). lia.
Qed.

Lemma buf_prefix out n v :
  (length out <= n)%nat -> canon out -> Forall digit out -> val out = v ->
  buf (out ++ repeat 0 (n - length out)) (length out) n v.
Proof.
  intros Hl Hc Hd Hv. pose proof (canon_len _ Hc). unfold buf.
  rewrite app_length, repeat_length, firstn_app_exact, skipn_app_exact.
  repeat split; try lia; auto using Forall_app_intro, digits_repeat0, Forall_repeat; try apply Hc.
Qed.

Lemma add_digits_spec a b n :
  canon a -> canon b -> Forall digit a -> Forall digit b ->
  (adding_output_max_len (length a) (length b) <= n)%nat ->
  exists r l, add_digits a b n = Ret (r, l) /\ buf r l n (val a + val b).
Proof.
  intros Ha Hb Da Db Hn. unfold add_digits. rewrite !valid_slice by assumption.
  destruct (Nat.leb_spec (adding_output_max_len (length a) (length b)) n); [|lia].
  cbn [oassert dassert]. rewrite cmp_digits_spec by assumption. cbn [obind].
  unfold adding_output_max_len in Hn.
  assert (W : exists g s, (match val a ?= val b with Lt => (b, a) | _ => (a, b) end) = (g, s) /\
     canon g /\ canon s /\ Forall digit g /\ Forall digit s /\ val s <= val g /\
     val g + val s = val a + val b /\ (length g + 1 <= n)%nat).
  { destruct (Z.compare_spec (val a) (val b)); eexists _, _; (split; [reflexivity|]); repeat split;
      try apply Ha; try apply Hb; try assumption; lia. }
  destruct W as (g & s & -> & Hg & Hs & Dg & Ds & Hle & Hsum & Hlen).
  pose proof (canon_len_mono s g Hs Hg Ds Dg Hle) as Hls.
  pose proof (canon_len _ Hg). pose proof (canon_len _ Hs).
  destruct (add_zip_spec s g false Hls Ds Dg) as (low & c & -> & L1 & D1 & E1).
  rewrite slice_from_ret by lia. cbn [obind].
  set (rest := skipn (length s) g) in *.
  assert (Hrest : Forall digit rest) by (apply Forall_skipn; assumption).
  assert (Lrest : length rest = (length g - length s)%nat) by (apply skipn_length).
  assert (Vg : val g = val (firstn (length s) g) + pw (length s) * val rest).
  { rewrite (val_firstn_skipn (length s) g) at 1. rewrite firstn_length, Nat.min_l by lia. reflexivity. }
  cbv beta in E1.
  assert (Pg : pw (length g) = pw (length s) * pw (length rest)).
  { rewrite <- pw_add. f_equal. lia. }
  pose proof (pw_pos (length s)) as Ps.
  pose proof (val_nonneg _ Ds) as Ns.
  assert (Low : forall out, length out = length g -> Forall digit out -> val out = val a + val b -> canon out).
  { intros out Lo Do Vo. apply canon_of_lower; [lia|assumption|]. intros L2. rewrite Lo, Vo.
    pose proof (canon_lower g Hg Dg ltac:(lia)). lia. }
  destruct c.
  - destruct (add_carry_spec rest true Hrest) as (high & c2 & -> & L2 & D2 & E2). cbv beta in E2.
    destruct c2.
    + assert (V : val (low ++ high ++ [1]) = val a + val b).
      { rewrite !val_app, val_single, L1, L2. nia. }
      assert (Lo : length (low ++ high ++ [1]) = (length g + 1)%nat) by (rewrite !app_length; cbn; lia).
      assert (Do : Forall digit (low ++ high ++ [1])).
      { repeat apply Forall_app_intro; auto using digit_1. }
      rewrite fill_buffer_ret by lia. cbn [obind]. eexists _, _. split; [reflexivity|].
      rewrite <- Lo. apply buf_prefix; auto; try lia.
      apply canon_of_lower; [lia|assumption|]. intros _. rewrite Lo.
      replace (length g + 1 - 1)%nat with (length g) by lia. rewrite V.
      pose proof (val_bound _ D1). pose proof (val_bound _ D2). nia.
    + assert (V : val (low ++ high) = val a + val b) by (rewrite val_app, L1; nia).
      assert (Lo : length (low ++ high) = length g) by (rewrite app_length; lia).
      assert (Do : Forall digit (low ++ high)) by (apply Forall_app_intro; auto).
      rewrite fill_buffer_ret by lia. cbn [obind]. eexists _, _. split; [reflexivity|].
      rewrite <- Lo. apply buf_prefix; auto; lia.
  - assert (V : val (low ++ rest) = val a + val b) by (rewrite val_app, L1; nia).
    assert (Lo : length (low ++ rest) = length g) by (rewrite app_length; lia).
    assert (Do : Forall digit (low ++ rest)) by (apply Forall_app_intro; auto).
    rewrite fill_buffer_ret by lia. cbn [obind]. eexists _, _. split; [reflexivity|].
    rewrite <- Lo. apply buf_prefix; auto; lia.
Qed.

(** A buffer with known value and [len_digits]. *)
Lemma buf_len_digits r n v :
  length r = n -> (1 <= n)%nat -> Forall digit r -> val r = v ->
  exists l, len_digits r = Ret l /\ buf r l n v.
Proof.
  intros L Hn D V. assert (Hne : r <> []) by (destruct r; [cbn in L; lia|discriminate]).
  destruct (len_digits_spec r Hne) as (l & E & Hl & Hc & Hz).
  exists l. split; [assumption|]. unfold buf. repeat split; try lia; auto; try apply Hc.
  rewrite (val_firstn_skipn l r), (val_zeros _ Hz) in V. lia.
Qed.

Lemma sub_digits_spec a b n :
  canon a -> canon b -> Forall digit a -> Forall digit b ->
  (subtracting_output_max_len (length a) (length b) <= n)%nat -> val b <= val a ->
  exists r l, sub_digits a b n = Ret (r, l) /\ buf r l n (val a - val b).
Proof.
  intros Ha Hb Da Db Hn Hle. unfold sub_digits. rewrite !valid_slice by assumption.
  destruct (Nat.leb_spec (subtracting_output_max_len (length a) (length b)) n); [|lia].
  cbn [oassert dassert]. rewrite cmp_digits_spec by assumption. cbn [obind].
  unfold subtracting_output_max_len in Hn. pose proof (canon_len _ Ha). pose proof (canon_len _ Hb).
  destruct (Z.compare_spec (val a) (val b)) as [E|E|E]; [|lia|].
  - eexists _, _. split; [reflexivity|]. unfold buf. rewrite repeat_length.
    destruct n as [|n]; [lia|]. cbn [repeat firstn skipn].
    repeat split; auto; try lia.
    + constructor; auto using digit_0, digits_repeat0.
    + discriminate.
    + apply Forall_repeat; reflexivity.
    + cbn. lia.
  - rewrite !len_digits_canon by assumption. cbn [obind].
    pose proof (canon_len_mono b a Hb Ha Db Da Hle) as Hls.
    destruct (sub_zip_spec b a false Hls Db Da) as (low & c & -> & L1 & D1 & E1).
    rewrite slice_from_ret by lia. cbn [obind].
    set (rest := skipn (length b) a) in *.
    assert (Hrest : Forall digit rest) by (apply Forall_skipn; assumption).
    assert (Lrest : length rest = (length a - length b)%nat) by (apply skipn_length).
    assert (Vg : val a = val (firstn (length b) a) + pw (length b) * val rest).
    { rewrite (val_firstn_skipn (length b) a) at 1. rewrite firstn_length, Nat.min_l by lia. reflexivity. }
    cbv beta in E1.
    assert (Pg : pw (length a) = pw (length b) * pw (length rest)).
    { rewrite <- pw_add. f_equal. lia. }
    pose proof (pw_pos (length b)) as Pb. pose proof (pw_pos (length rest)) as Pr.
    assert (W : exists out, (if c then fill_buffer n (low ++ fst (sub_borrow rest true))
       else (assert! Nat.eqb (length a - length b) (length rest) ;; fill_buffer n (low ++ rest)))
       = Ret (out ++ repeat 0 (n - length out)) /\ length out = length a /\ Forall digit out /\ val out = val a - val b).
    { destruct c.
      - destruct (sub_borrow_spec rest true Hrest) as (high & c2 & -> & L2 & D2 & E2). cbv beta in E2.
        cbn [fst]. exists (low ++ high).
        assert (Lo : length (low ++ high) = length a) by (rewrite app_length; lia).
        assert (Do : Forall digit (low ++ high)) by (apply Forall_app_intro; auto).
        rewrite fill_buffer_ret by lia. repeat split; auto.
        rewrite val_app, L1.
        assert (c2 = false).
        { destruct c2; [exfalso|reflexivity].
          pose proof (val_bound _ D1). pose proof (val_bound _ D2). pose proof (val_bound _ Hrest).
          rewrite L1 in *. rewrite L2 in *. nia. }
        subst c2. nia.
      - exists (low ++ rest).
        assert (Lo : length (low ++ rest) = length a) by (rewrite app_length; lia).
        rewrite Lrest, Nat.eqb_refl. cbn [oassert dassert].
        assert (Do : Forall digit (low ++ rest)) by (apply Forall_app_intro; auto).
        rewrite fill_buffer_ret by lia. repeat split; auto.
        rewrite val_app, L1. nia. }
    destruct W as (out & -> & Lo & Do & Vo). cbn [obind].
    destruct (buf_len_digits (out ++ repeat 0 (n - length out)) n (val a - val b)) as (l & -> & Hb').
    + rewrite app_length, repeat_length. lia.
    + lia.
    + apply Forall_app_intro; auto using digits_repeat0.
    + rewrite val_app, val_repeat0. lia.
    + cbn [obind]. eexists _, _. split; [reflexivity|assumption].
Qed.

(** multiplication *)
Lemma ck_double_ret t : 0 <= t < B * B -> ck_double t = Ret t.
Proof.
  intros H. unfold ck_double.
  destruct (Z.leb_spec 0 t); [|lia]. destruct (Z.ltb_spec t (B * B)); [|lia]. reflexivity.
Qed.

Lemma mul_row_spec g w s c :
  (length g <= length w)%nat -> Forall digit g -> Forall digit w -> digit s -> digit c ->
  exists ds c', mul_row g w s c = Ret (ds, c') /\ length ds = length g /\ Forall digit ds /\ digit c' /\
     val ds + pw (length g) * c' = s * val g + val (firstn (length g) w) + c.
Proof.
  intros Hl Hg; revert w c Hl; induction Hg as [|x g Hx Hg IH]; intros w c Hl Hw Hs Hc.
  - exists [], c. cbn. rewrite pw_0. repeat split; auto; try apply Hc. lia.
  - destruct w as [|r w]; cbn [length] in Hl; [lia|]. inversion Hw as [|? ? Hr Hw']; subst.
    cbn [mul_row]. unfold digit in *. pose proof (base_ge cfg) as HB.
    assert (T : 0 <= s * x + r + c < B * B) by nia.
    rewrite ck_double_ret by assumption. cbn [obind].
    set (t := s * x + r + c) in *.
    assert (Hq : 0 <= t / B < B) by nia.
    destruct (IH w (t / B) ltac:(lia) Hw' Hs Hq) as (ds & c' & -> & L & D & Hc' & E).
    cbn [obind]. exists (t mod B :: ds), c'. cbn [length firstn digits_val]. rewrite pw_S.
    repeat split; auto; try lia.
    constructor; [|assumption]. unfold digit. nia.
Qed.

Lemma set_last_spec l v : l <> [] ->
  exists l', set_last l v = Ret (l' ++ [v]) /\ l = l' ++ [last l 0].
Proof.
  intros H. unfold set_last. destruct l as [|x l]; [congruence|].
  exists (removelast (x :: l)). split; [reflexivity|]. apply app_removelast_last. discriminate.
Qed.

Lemma mul_rows_spec s g r :
  Forall digit s -> Forall digit g -> Forall digit r -> (1 <= length g)%nat ->
  (length s + length g <= length r)%nat ->
  val r < pw (length g) ->
  Forall (fun d => d = 0) (skipn (length g) r) ->
  exists r', mul_rows s g r = Ret r' /\ length r' = length r /\ Forall digit r' /\
     val r' = val r + val s * val g.
Proof.
  intros Hs Hg; revert r; induction Hs as [|x s Hx Hs IH]; intros r Hr Hgl Hl Hv Hz.
  - exists r. cbn. repeat split; auto. lia.
  - cbn [mul_rows length] in *. rewrite slice_to_ret by lia. cbn [obind].
    set (w := firstn (length g + 1) r).
    assert (Lw : length w = (length g + 1)%nat) by (subst w; rewrite firstn_length; lia).
    assert (Dw : Forall digit w) by (apply Forall_firstn; assumption).
    destruct (mul_row_spec g w x 0 ltac:(lia) Hg Dw Hx digit_0) as (ds & c & -> & L & D & Hc & E).
    cbn [obind].
    assert (F : firstn (length g) w = firstn (length g) r).
    { subst w. rewrite firstn_firstn, Nat.min_l by lia. reflexivity. }
    rewrite F in E.
    assert (Hsk : skipn (length g) r = 0 :: skipn (S (length g)) r).
    { pose proof (skipn_length (length g) r) as SL. destruct (skipn (length g) r) as [|y tl] eqn:Es; cbn in SL; [lia|].
      inversion Hz; subst. f_equal.
      change (S (length g)) with (1 + length g)%nat. rewrite <- skipn_skipn, Es. reflexivity. }
    assert (Hwl : skipn (length g) w = [0]).
    { subst w. rewrite skipn_firstn_comm, Hsk. replace (length g + 1 - length g)%nat with 1%nat by lia. reflexivity. }
    rewrite Hwl.
    assert (Vr : val r = val (firstn (length g) r)).
    { rewrite (val_firstn_skipn (length g) r) at 1. rewrite (val_zeros _ Hz). lia. }
    assert (W : (if 0 <? c then set_last (ds ++ [0]) (c mod B) else Ret (ds ++ [0])) = Ret (ds ++ [c])).
    { unfold digit in Hc. destruct (Z.ltb_spec 0 c).
      - destruct (set_last_spec (ds ++ [0]) (c mod B)) as (l' & -> & E'); [destruct ds; discriminate|].
        rewrite last_app_single in E'. apply app_inj_tail in E' as [<- _].
        rewrite Z.mod_small by lia. reflexivity.
      - replace c with 0 by lia. reflexivity. }
    rewrite W. cbn [obind].
    replace (length g + 1)%nat with (S (length g)) by lia.
    set (tl0 := skipn (S (length g)) r) in *.
    assert (Ztl : Forall (fun d => d = 0) tl0) by (rewrite Hsk in Hz; inversion Hz; assumption).
    assert (Dtl : Forall digit tl0) by (apply Forall_skipn; assumption).
    assert (Ltl : length tl0 = (length r - S (length g))%nat) by (apply skipn_length).
    assert (Dall : Forall digit ((ds ++ [c]) ++ tl0)).
    { apply Forall_app_intro; [apply Forall_app_intro; auto|assumption]. }
    assert (Vall : val ((ds ++ [c]) ++ tl0) = val r + x * val g).
    { rewrite !val_app, val_single, (val_zeros tl0 Ztl), L. rewrite Vr. lia. }
    assert (Lall : length ((ds ++ [c]) ++ tl0) = length r).
    { rewrite !app_length; cbn [length]; lia. }
    destruct ds as [|d ds']; [cbn in L; lia|]. cbn [app] in *.
    set (r1 := (ds' ++ [c]) ++ tl0) in *. cbn [length digits_val] in Vall, Lall, L.
    apply Forall_cons_iff in Dall as [Dd Dr1].
    destruct (IH r1 Dr1 Hgl ltac:(lia)) as (r' & -> & Lr' & Dr' & Vr').
    + subst r1. rewrite val_app, (val_zeros tl0 Ztl).
      pose proof (val_bound (ds' ++ [c])) as V1. rewrite app_length in V1; cbn in V1.
      replace (length ds' + 1)%nat with (length g) in V1 by lia.
      assert (Forall digit (ds' ++ [c])) by (apply Forall_app in Dr1; apply Dr1). specialize (V1 H). lia.
    + subst r1. replace (length g) with (length (ds' ++ [c])) by (rewrite app_length; cbn; lia).
      rewrite skipn_app_exact. assumption.
    + cbn [obind]. exists (d :: r'). cbn [length digits_val]. repeat split; auto; try lia.
Qed.

Lemma mul_digits_spec a b n :
  canon a -> canon b -> Forall digit a -> Forall digit b -> (length a + length b <= n)%nat ->
  exists r l, mul_digits a b n = Ret (r, l) /\ buf r l n (val a * val b).
Proof.
  intros Ha Hb Da Db Hn. unfold mul_digits. rewrite !valid_slice by assumption.
  destruct (Nat.leb_spec (length a + length b) n); [|lia].
  cbn [oassert dassert]. rewrite !is_zero_digits_spec by assumption. cbn [obind].
  pose proof (canon_len _ Ha). pose proof (canon_len _ Hb).
  destruct ((val a =? 0) || (val b =? 0))%bool eqn:Ez.
  - eexists _, _. split; [reflexivity|].
    assert (V : val a * val b = 0) by (apply orb_true_iff in Ez as [E|E]; apply Z.eqb_eq in E; rewrite E; ring).
    rewrite V. destruct n as [|n]; [lia|].
    unfold buf. rewrite repeat_length. cbn [repeat firstn skipn].
    repeat split; auto; try lia.
    + constructor; auto using digit_0, digits_repeat0.
    + discriminate.
    + apply Forall_repeat; reflexivity.
    + cbn. lia.
  - rewrite cmp_digits_spec by assumption. cbn [obind].
    assert (W : exists g s, (match val a ?= val b with Lt => (b, a) | _ => (a, b) end) = (g, s) /\
       canon g /\ Forall digit g /\ Forall digit s /\
       val s * val g = val a * val b /\ (length s + length g <= n)%nat).
    { destruct (val a ?= val b); eexists _, _; (split; [reflexivity|]); repeat split;
        try apply Ha; try apply Hb; try assumption; try lia. }
    destruct W as (g & s & -> & Hg & Dg & Ds & Hprod & Hlen). pose proof (canon_len _ Hg).
    destruct (mul_rows_spec s g (repeat 0 n)) as (r & -> & Lr & Dr & Vr); rewrite ?repeat_length; auto.
    + apply digits_repeat0.
    + rewrite val_repeat0. apply pw_pos.
    + apply Forall_skipn, Forall_repeat. reflexivity.
    + cbn [obind]. rewrite repeat_length in Lr. rewrite val_repeat0 in Vr.
      destruct (buf_len_digits r n (val a * val b)) as (l & -> & Hb'); try assumption; try lia.
      cbn [obind]. eexists _, _. split; [reflexivity|assumption].
Qed.

End Proofs.

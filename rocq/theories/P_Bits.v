(** Bit strings, byte strings and slices: lemmas for the hash functions. *)

From Verif Require Import Base M_Word S_Sha2 P_BigInt3.
Open Scope Z_scope.

(** ** Lists *)
Lemma map_seq_ext {A} (f g : nat -> A) s n :
  (forall i, (s <= i < s + n)%nat -> f i = g i) -> map f (seq s n) = map g (seq s n).
Proof. intros H. apply map_ext_in. intros i Hi. apply in_seq in Hi. auto. Qed.

Lemma skipn_add {A} (i j : nat) (l : list A) : skipn i (skipn j l) = skipn (j + i) l.
Proof.
  revert l. induction j as [|j IH]; intros l; [reflexivity|].
  destruct l; [now rewrite !skipn_nil|]. cbn [skipn Nat.add]. apply IH.
Qed.

Lemma sub_sub {A} (l : list A) i n j k :
  (j + k <= n)%nat -> firstn k (skipn j (firstn n (skipn i l))) = firstn k (skipn (i + j) l).
Proof.
  intros H. rewrite skipn_firstn_comm, firstn_firstn, skipn_add. f_equal. lia.
Qed.

Lemma upd_length {A} i (v : A) l : length (upd i v l) = length l.
Proof. revert i. induction l; intros [|i]; cbn [upd length]; auto. Qed.
Lemma upd_nth {A} i j (v d : A) l :
  (i < length l)%nat -> nth j (upd i v l) d = if Nat.eqb i j then v else nth j l d.
Proof.
  revert i j. induction l as [|x t IH]; intros [|i] [|j] H; cbn [upd nth length Nat.eqb] in *;
    try lia; try reflexivity. apply IH. lia.
Qed.

Lemma seq_shift_by s n k : seq (k + s) n = map (fun i => (k + i)%nat) (seq s n).
Proof.
  revert s. induction n as [|n IH]; intros s; [reflexivity|]. cbn [seq map]. f_equal.
  rewrite <- IH. f_equal. lia.
Qed.

Lemma chunks_exact_app {A} n (l t : list A) : (0 < n)%nat ->
  chunks_exact n (l ++ t) = chunks_exact n l ++ chunks_exact n (remainder n l ++ t).
Proof.
  intros Hn. unfold chunks_exact, remainder.
  set (q := (length l / n)%nat).
  assert (Hq : (q * n <= length l)%nat).
  { unfold q. rewrite Nat.mul_comm. apply Nat.mul_div_le. lia. }
  assert (L : length (l ++ t) = (length (skipn (q * n) l ++ t) + q * n)%nat)
    by (rewrite !app_length, skipn_length; lia).
  rewrite L, Nat.div_add by lia.
  rewrite (Nat.add_comm _ q), seq_app, map_app. f_equal.
  - apply map_seq_ext. intros i Hi.
    assert ((i * n + n <= q * n)%nat) by nia.
    rewrite skipn_app, firstn_app, skipn_length.
    replace (n - (length l - i * n))%nat with 0%nat by lia.
    rewrite firstn_O, app_nil_r. reflexivity.
  - replace (0 + q)%nat with (q + 0)%nat by lia. rewrite seq_shift_by, map_map.
    apply map_ext. intros i. f_equal.
    rewrite Nat.mul_add_distr_r, <- skipn_add. f_equal.
    rewrite skipn_app. replace (q * n - length l)%nat with 0%nat by lia. reflexivity.
Qed.

Lemma remainder_length {A} n (l : list A) : (0 < n)%nat ->
  length (remainder n l) = (length l mod n)%nat.
Proof.
  intros Hn. unfold remainder. rewrite skipn_length.
  pose proof (Nat.div_mod (length l) n). lia.
Qed.

Lemma chunks_exact_multiple {A} n k (l : list A) : (0 < n)%nat -> length l = (k * n)%nat ->
  chunks_exact n l = map (fun i => firstn n (skipn (i * n) l)) (seq 0 k).
Proof. intros Hn E. unfold chunks_exact. rewrite E, Nat.div_mul by lia. reflexivity. Qed.

Lemma Forall_skipn' {A} (P : A -> Prop) n l : Forall P l -> Forall P (skipn n l).
Proof. revert l. induction n; intros l H; [exact H|]. destruct H; [constructor|]. cbn. auto. Qed.
Lemma Forall_firstn' {A} (P : A -> Prop) n l : Forall P l -> Forall P (firstn n l).
Proof.
  revert l. induction n; intros l H; [constructor|]. destruct H; [constructor|].
  cbn. constructor; auto.
Qed.

Lemma flat_map_length_const {A B} (f : A -> list B) c l :
  (forall x, length (f x) = c) -> length (flat_map f l) = (length l * c)%nat.
Proof.
  intros H. induction l; [reflexivity|]. cbn [flat_map length]. rewrite app_length, H, IHl. lia.
Qed.
Lemma flat_map_skipn {A B} (f : A -> list B) c k l :
  (forall x, length (f x) = c) -> skipn (k * c) (flat_map f l) = flat_map f (skipn k l).
Proof.
  intros H. revert l. induction k as [|k IH]; intros l; [reflexivity|].
  destruct l as [|x t]; [now rewrite skipn_nil|]. cbn [flat_map skipn].
  rewrite skipn_app, H. replace (S k * c - c)%nat with (k * c)%nat by lia.
  rewrite IH, skipn_all2; [reflexivity|]. rewrite H. lia.
Qed.
Lemma flat_map_firstn {A B} (f : A -> list B) c k l :
  (forall x, length (f x) = c) -> firstn (k * c) (flat_map f l) = flat_map f (firstn k l).
Proof.
  intros H. revert l. induction k as [|k IH]; intros l; [reflexivity|].
  destruct l as [|x t]; [now rewrite firstn_nil|]. cbn [flat_map firstn].
  rewrite firstn_app, H. replace (S k * c - c)%nat with (k * c)%nat by lia.
  rewrite IH, firstn_all2; [reflexivity|]. rewrite H. lia.
Qed.

(** ** Bits *)
Lemma bits_length n v : length (bits_of_Z n v) = n.
Proof. unfold bits_of_Z. now rewrite map_length, seq_length. Qed.

Lemma bits_app m k v :
  bits_of_Z (m + k) v = bits_of_Z m (v / 2 ^ Z.of_nat k) ++ bits_of_Z k v.
Proof.
  unfold bits_of_Z. rewrite seq_app, map_app. f_equal.
  - apply map_seq_ext. intros i Hi. rewrite Z.div_pow2_bits by lia. f_equal. lia.
  - replace (0 + m)%nat with (m + 0)%nat by lia. rewrite seq_shift_by, map_map.
    apply map_seq_ext. intros i Hi. f_equal. lia.
Qed.

Lemma bits_mod n v : bits_of_Z n (v mod 2 ^ Z.of_nat n) = bits_of_Z n v.
Proof.
  unfold bits_of_Z. apply map_seq_ext. intros i Hi. apply Z.mod_pow2_bits_low. lia.
Qed.

Lemma Z_of_bits_from l a :
  fold_left (fun acc (b : bool) => 2 * acc + (if b then 1 else 0)) l a =
  a * 2 ^ Z.of_nat (length l) + Z_of_bits l.
Proof.
  unfold Z_of_bits. revert a. induction l as [|b t IH]; intros a; cbn [fold_left length].
  - cbn. lia.
  - rewrite IH, (IH (2 * 0 + _)), Nat2Z.inj_succ, Z.pow_succ_r by lia. ring.
Qed.
Lemma Z_of_bits_app l t : Z_of_bits (l ++ t) = Z_of_bits l * 2 ^ Z.of_nat (length t) + Z_of_bits t.
Proof. unfold Z_of_bits at 1. rewrite fold_left_app, Z_of_bits_from. reflexivity. Qed.

Lemma Z_of_bits_of_Z n v : Z_of_bits (bits_of_Z n v) = v mod 2 ^ Z.of_nat n.
Proof.
  revert v. induction n as [|n IH]; intros v.
  - cbn. now rewrite Z.mod_1_r.
  - replace (S n) with (n + 1)%nat by lia. rewrite bits_app, Z_of_bits_app, bits_length, IH.
    change (2 ^ Z.of_nat 1) with 2. unfold bits_of_Z. cbn [seq map Z_of_bits fold_left].
    unfold Z_of_bits. cbn [fold_left]. change (Z.of_nat (1 - 1 - 0)) with 0.
    rewrite Z.bit0_odd, Nat2Z.inj_add, Z.pow_add_r by lia. change (2 ^ Z.of_nat 1) with 2.
    rewrite (Z.mul_comm (2 ^ _) 2), Z.rem_mul_r by lia.
    rewrite Zmod_odd. destruct (Z.odd v); lia.
Qed.

Lemma bits_of_bytes_length m : length (bits_of_bytes m) = (length m * 8)%nat.
Proof. apply flat_map_length_const, bits_length. Qed.
Lemma bits_of_bytes_app a b : bits_of_bytes (a ++ b) = bits_of_bytes a ++ bits_of_bytes b.
Proof. unfold bits_of_bytes. apply flat_map_app. Qed.

Lemma Z_of_bits_of_bytes m : bytes m -> Z_of_bits (bits_of_bytes m) = be_val m.
Proof.
  induction m as [|x t IH] using rev_ind; intros H; [reflexivity|].
  unfold bytes in H. apply Forall_app in H. destruct H as [H1 H2]. inversion H2; subst.
  rewrite bits_of_bytes_app, Z_of_bits_app, IH, be_val_app by assumption.
  unfold bits_of_bytes at 2. cbn [flat_map]. rewrite app_nil_r, Z_of_bits_of_Z.
  unfold bits_of_bytes at 1. cbn [flat_map]. rewrite app_nil_r, bits_length.
  change (2 ^ Z.of_nat 8) with 256. unfold byte in *. rewrite Z.mod_small by assumption.
  change (be_val [x]) with (0 + x). cbn [length]. rewrite Z.add_0_l. reflexivity.
Qed.

Lemma bits_to_be n v : bits_of_bytes (to_be n v) = bits_of_Z (n * 8) v.
Proof.
  revert v. induction n as [|n IH]; intros v; [reflexivity|].
  cbn [to_be]. rewrite bits_of_bytes_app, IH.
  replace (S n * 8)%nat with (n * 8 + 8)%nat by lia. rewrite bits_app. f_equal.
  unfold bits_of_bytes. cbn [flat_map]. rewrite app_nil_r.
  change 256 with (2 ^ Z.of_nat 8). apply bits_mod.
Qed.

Lemma bits_of_bytes_zeros n : bits_of_bytes (repeat 0 n) = repeat false (n * 8).
Proof.
  induction n; [reflexivity|]. cbn [repeat]. unfold bits_of_bytes in *. cbn [flat_map].
  rewrite IHn. reflexivity.
Qed.

Lemma sub_bits m i k :
  sub (bits_of_bytes m) (i * 8) (k * 8) = bits_of_bytes (firstn k (skipn i m)).
Proof.
  unfold sub, bits_of_bytes. rewrite (flat_map_skipn _ 8), (flat_map_firstn _ 8); auto using bits_length.
Qed.

Lemma bits_of_bytes_inj a b : bytes a -> bytes b -> bits_of_bytes a = bits_of_bytes b -> a = b.
Proof.
  revert b. induction a as [|x a IH]; intros [|y b] Ha Hb E; try reflexivity.
  - apply (f_equal (@length _)) in E. rewrite !bits_of_bytes_length in E. cbn in E. lia.
  - apply (f_equal (@length _)) in E. rewrite !bits_of_bytes_length in E. cbn in E. lia.
  - inversion Ha; inversion Hb; subst. unfold bits_of_bytes in E. cbn [flat_map] in E.
    assert (bits_of_Z 8 x = bits_of_Z 8 y /\ bits_of_bytes a = bits_of_bytes b) as [E1 E2].
    { split.
      - apply (f_equal (firstn 8)) in E. rewrite !firstn_app, !bits_length, !Nat.sub_diag, !firstn_O, !app_nil_r in E.
        rewrite !firstn_all2 in E by (rewrite bits_length; lia). exact E.
      - apply (f_equal (skipn 8)) in E. rewrite !skipn_app, !bits_length, !Nat.sub_diag in E.
        rewrite !skipn_all2 in E by (rewrite bits_length; lia). exact E. }
    f_equal; [|apply IH; assumption].
    apply (f_equal Z_of_bits) in E1. rewrite !Z_of_bits_of_Z in E1.
    change (2 ^ Z.of_nat 8) with 256 in E1. unfold byte in *. rewrite !Z.mod_small in E1 by assumption. exact E1.
Qed.

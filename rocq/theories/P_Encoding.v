(** The text encodings of points and signatures. *)

From Coq Require Import Lia.
From Verif Require Import Base M_Codec M_BigInt M_BigText M_Modular M_Curve M_Ecdsa M_Encoding
  S_BigInt S_Codec S_Curve S_EcModel S_Ecdsa S_Encoding
  P_BigInt1 P_BigInt3 P_BigInt4 P_BigApi P_Codec P_NumTheory P_Modular P_Curve P_EcModel P_Order P_EcLaws P_Ecdsa1 P_Ecdsa2.
Open Scope Z_scope.

(** * Hexadecimal numbers of fixed length *)
Definition hexs (L : nat) (v : Z) : list Z := bytes_to_lower_hex (to_be L v).

Lemma lower_hex_length bs : bytes bs -> length (bytes_to_lower_hex bs) = (2 * length bs)%nat.
Proof. intros H. rewrite bytes_to_lower_hex_spec, map_length by assumption. apply nibbles_length. Qed.
Lemma lower_hex_digits bs : bytes bs -> digits_of 16 (bytes_to_lower_hex bs) (nibbles bs).
Proof. intros H. rewrite bytes_to_lower_hex_spec by assumption. apply digits_of_lower, nibbles_range, H. Qed.
Lemma hexs_number L v : 0 <= v < 256 ^ Z.of_nat L -> hex_number L (hexs L v) v.
Proof.
  intros H. pose proof (to_be_bytes_range L v) as B. split; [unfold hexs; rewrite lower_hex_length, to_be_length by assumption; reflexivity|].
  exists (nibbles (to_be L v)). split; [apply lower_hex_digits, B|]. rewrite nibbles_positional. now apply be_val_to_be.
Qed.
Lemma lower_hex_lower bs : bytes bs -> lower_case (bytes_to_lower_hex bs).
Proof.
  intros H. rewrite bytes_to_lower_hex_spec by assumption. pose proof (nibbles_range bs H) as R. unfold lower_case. induction R; cbn [map]; constructor; auto.
  unfold lower_hex_digit. destruct (Z.ltb_spec x 10); lia.
Qed.
Lemma lower_app a b : lower_case a -> lower_case b -> lower_case (a ++ b).
Proof. intros A B. apply Forall_app. auto. Qed.
Lemma lower_bytes s : lower_case s -> bytes s.
Proof. intros H. eapply Forall_impl; [|exact H]. intros c Hc. unfold byte. cbn in Hc. lia. Qed.
Lemma bytes_lower_app a b : bytes_to_lower_hex (a ++ b) = bytes_to_lower_hex a ++ bytes_to_lower_hex b.
Proof. unfold bytes_to_lower_hex. apply flat_map_app. Qed.
Lemma lower_hex_zeros k : bytes_to_lower_hex (repeat 0 k) = repeat 48 (2 * k).
Proof. induction k as [|k IH]; [reflexivity|]. replace (2 * S k)%nat with (S (S (2 * k))) by lia. cbn [repeat]. rewrite <- IH. reflexivity. Qed.

Lemma hex_number_range L s v : hex_number L s v -> 0 <= v.
Proof. intros (_ & vs & H & <-). apply positional_nonneg; [lia|]. eapply digits_nonneg; eauto. Qed.
Lemma hex_number_fun L s v w : hex_number L s v -> hex_number L s w -> v = w.
Proof. intros (_ & vs & H & <-) (_ & ws & G & <-). f_equal. eapply digits_of_fun; eauto. Qed.

(** two texts of the same length and value are the same up to case *)
Lemma digit_range c v : is_digit 16 c v -> 0 <= v < 16.
Proof. intros [H1 H2]. apply alnum_range in H1. lia. Qed.
Lemma positional_bound vs : Forall (fun v => 0 <= v < 16) vs -> 0 <= positional 16 vs < 16 ^ Z.of_nat (length vs).
Proof.
  induction 1 as [|v vs Hv H IH]; [cbn; lia|]. rewrite positional_cons. cbn [length]. rewrite Nat2Z.inj_succ, Z.pow_succ_r by lia. nia.
Qed.
Lemma positional_inj vs : forall ws, length vs = length ws -> Forall (fun v => 0 <= v < 16) vs -> Forall (fun v => 0 <= v < 16) ws ->
  positional 16 vs = positional 16 ws -> vs = ws.
Proof.
  induction vs as [|v vs IH]; intros [|w ws] L Hv Hw E; try discriminate; [reflexivity|]. inversion Hv; inversion Hw; subst. injection L as L.
  rewrite !positional_cons, L in E. pose proof (positional_bound vs ltac:(assumption)) as B1. pose proof (positional_bound ws ltac:(assumption)) as B2. rewrite L in B1.
  set (M := 16 ^ Z.of_nat (length ws)) in *. assert (v = w) by nia. subst w. f_equal. apply IH; try assumption. lia.
Qed.
Lemma digits_range s vs : digits_of 16 s vs -> Forall (fun v => 0 <= v < 16) vs.
Proof. induction 1; constructor; auto. eapply digit_range; eauto. Qed.
Lemma same_digit c c' v : is_digit 16 c v -> is_digit 16 c' v ->
  (if (65 <=? c) && (c <=? 90) then c + 32 else c) = (if (65 <=? c') && (c' <=? 90) then c' + 32 else c').
Proof.
  unfold is_digit, alnum_value. intros [H1 H2] [H3 _].
  destruct (Z.leb_spec 48 c), (Z.leb_spec c 57), (Z.leb_spec 65 c), (Z.leb_spec c 90), (Z.leb_spec 97 c), (Z.leb_spec c 122); cbn [andb] in *; try discriminate; try lia;
  destruct (Z.leb_spec 48 c'), (Z.leb_spec c' 57), (Z.leb_spec 65 c'), (Z.leb_spec c' 90), (Z.leb_spec 97 c'), (Z.leb_spec c' 122); cbn [andb] in *; try discriminate; try lia;
  injection H1 as H1; injection H3 as H3; lia.
Qed.
Lemma hex_number_case L s t v : hex_number L s v -> hex_number L t v -> to_lower s = to_lower t.
Proof.
  intros (L1 & vs & D1 & E1) (L2 & ws & D2 & E2).
  assert (vs = ws).
  { apply positional_inj; [|eapply digits_range; eauto|eapply digits_range; eauto|congruence]. apply digits_of_length in D1, D2. congruence. }
  subst ws. clear - D1 D2. revert t D2. induction D1 as [|c v s vs H D IH]; intros t D2; inversion D2; subst; [reflexivity|].
  unfold to_lower in *. cbn [map]. f_equal; [|now apply IH]. eapply same_digit; eauto.
Qed.

Section Proofs.
Context {cfg : digit_cfg}.

(** * Padding *)
Lemma pad_lower x L : wf x -> 0 <= bi_val x < 256 ^ Z.of_nat L -> (0 < L)%nat ->
  exists h, bi_to_lower_hex x = Ret h /\ pad_hex (2 * Z.of_nat L) h = hexs L (bi_val x).
Proof.
  intros W Hx HL. destruct (bi_to_lower_hex_spec x W) as (bs & Hb & Hh & Hv & E). rewrite E. destruct (Z.ltb_spec (bi_val x) 0); [lia|]. cbn [app].
  rewrite Z.abs_eq in Hv by lia. eexists. split; [reflexivity|].
  assert (K : (length bs <= L)%nat).
  { destruct Hh as [->|[Hne H0]]; [exact HL|]. destruct bs as [|b bs]; [congruence|]. cbn [hd] in H0. rewrite be_val_cons in Hv.
    destruct (Nat.le_gt_cases (length (b :: bs)) L) as [|G]; [assumption|]. exfalso. cbn [length] in G.
    assert (P : 256 ^ Z.of_nat L <= 256 ^ Z.of_nat (length bs)) by (apply Z.pow_le_mono_r; lia). inversion Hb; subst. unfold byte in *. pose proof (be_val_bound bs ltac:(assumption)). nia. }
  unfold pad_hex, hexs. rewrite lower_hex_length by assumption.
  replace (Z.to_nat (2 * Z.of_nat L - Z.of_nat (2 * length bs))) with (2 * (L - length bs))%nat by lia.
  rewrite <- lower_hex_zeros, <- bytes_lower_app. f_equal. replace L with ((L - length bs) + length bs)%nat at 2 by lia.
  rewrite <- Hv. rewrite to_be_pad by (apply be_val_bound; assumption). f_equal. symmetry. now apply to_be_be_val.
Qed.
Lemma pad_bytes x L : wf x -> 0 <= bi_val x < 256 ^ Z.of_nat L ->
  (bs <- bi_to_be_bytes x ;; pad_to (Z.of_nat L) bs) = Ret (to_be L (bi_val x)).
Proof.
  intros W Hx. destruct (bi_to_be_bytes_spec x W) as (bs & -> & Hb & Hv & Hh). cbn [obind]. rewrite Z.abs_eq in Hv by lia.
  assert (K : (length bs <= L)%nat).
  { destruct Hh as [->|H0]; [cbn; lia|]. destruct bs as [|b bs]; [cbn; lia|]. cbn [hd] in H0. rewrite be_val_cons in Hv.
    destruct (Nat.le_gt_cases (length (b :: bs)) L) as [|G]; [assumption|]. exfalso. cbn [length] in G.
    assert (P : 256 ^ Z.of_nat L <= 256 ^ Z.of_nat (length bs)) by (apply Z.pow_le_mono_r; lia). inversion Hb; subst. unfold byte in *. pose proof (be_val_bound bs ltac:(assumption)). nia. }
  unfold pad_to. destruct (Z.leb_spec (Z.of_nat (length bs)) (Z.of_nat L)); [|lia]. cbn [oassert dassert]. f_equal.
  replace (Z.to_nat (Z.of_nat L - Z.of_nat (length bs))) with (L - length bs)%nat by lia. replace L with ((L - length bs) + length bs)%nat at 2 by lia.
  rewrite <- Hv. rewrite to_be_pad by (apply be_val_bound; assumption). f_equal. symmetry. now apply to_be_be_val.
Qed.

(** * Reading *)
Lemma hex_or_fixed {E} (e : E) L s : bytes s -> length s = (2 * L)%nat -> (0 < L)%nat ->
  (exists v r, hex_number L s v /\ hex_or e s = Ret (Ok r) /\ wf r /\ bi_val r = v) \/
  ((forall v, ~ hex_number L s v) /\ hex_or e s = Ret (Err e)).
Proof.
  intros Hb HL L0. unfold hex_or. destruct (bi_from_hex_spec s Hb) as [v r Hd He W V|e' H]; cbn [obind map_err].
  - left. exists v, r. split; [|auto]. split; [assumption|]. destruct Hd as [|s vs Hne Hd|s vs Hne Hd|s vs Hne Hd].
    + cbn in HL. lia.
    + eauto.
    + exfalso. cbn [digit_count] in He. cbn [length] in HL. change (Nat.even (length s) = true) in He. assert (Nat.even (S (length s)) = true) by (rewrite HL; apply even_double).
      rewrite Nat.even_succ, <- Nat.negb_even, He in H. discriminate.
    + exfalso. cbn [digit_count] in He. cbn [length] in HL. change (Nat.even (length s) = true) in He. assert (Nat.even (S (length s)) = true) by (rewrite HL; apply even_double).
      rewrite Nat.even_succ, <- Nat.negb_even, He in H. discriminate.
  - right. split; [|reflexivity]. intros v (_ & vs & Hd & <-). assert (Hne : s <> []) by (destruct s; [cbn in HL; lia|discriminate]).
    specialize (H _ (Den_plain 16 s vs Hne Hd)). destruct s as [|c s]; [congruence|]. cbn [digit_count] in H.
    destruct (first_digit_not_sign 16 (c :: s) vs c Hd eq_refl) as [N1 N2]. apply Z.eqb_neq in N1, N2. rewrite N1, N2 in H. cbn [orb] in H.
    rewrite HL, even_double in H. discriminate.
Qed.
Lemma hex_or_read {E} (e : E) L s v : bytes s -> hex_number L s v -> (0 < L)%nat -> exists r, hex_or e s = Ret (Ok r) /\ wf r /\ bi_val r = v.
Proof.
  intros Hb H L0. destruct (hex_or_fixed e L s Hb (proj1 H) L0) as [(w & r & Hw & R)|[N _]]; [|exfalso; eapply N; eauto].
  exists r. rewrite (hex_number_fun L s v w) by assumption. exact R.
Qed.

Lemma even_half n : Nat.even n = true -> exists k, n = (2 * k)%nat.
Proof. intros H. apply Nat.even_spec in H. exact H. Qed.
Lemma hex_or_loose {E} (e : E) L s : bytes s -> (2 * L <= length s)%nat -> (0 < L)%nat ->
  (exists v r, signed_hex L v s /\ hex_or e s = Ret (Ok r) /\ wf r /\ bi_val r = v) \/
  ((forall v, ~ signed_hex L v s) /\ hex_or e s = Ret (Err e)).
Proof.
  intros Hb HL L0. unfold hex_or. destruct (bi_from_hex_spec s Hb) as [v r Hd He W V|e' H]; cbn [obind map_err].
  - left. exists v, r. split; [|auto]. destruct Hd as [|s vs Hne Hd|s vs Hne Hd|s vs Hne Hd].
    + cbn in HL. lia.
    + destruct s as [|c s]; [congruence|]. cbn [digit_count] in He.
      destruct (first_digit_not_sign 16 (c :: s) vs c Hd eq_refl) as [N1 N2]. apply Z.eqb_neq in N1, N2. rewrite N1, N2 in He. cbn [orb] in He.
      destruct (even_half _ He) as [k Hk]. apply (hex_plain L _ k); [lia|]. split; [exact Hk|]. eauto.
    + change (Nat.even (length s) = true) in He. destruct (even_half _ He) as [k Hk]. cbn [length] in HL. apply (hex_plus L _ k); [lia|]. split; [exact Hk|]. eauto.
    + change (Nat.even (length s) = true) in He. destruct (even_half _ He) as [k Hk]. cbn [length] in HL. apply (hex_minus L _ k); [lia|]. split; [exact Hk|]. exists vs. split; [assumption|lia].
  - right. split; [|reflexivity]. intros v HV. destruct HV as [k s Hk (E1 & vs & Hd & EV)|k s Hk (E1 & vs & Hd & EV)|k s Hk (E1 & vs & Hd & EV)];
      assert (Hne : s <> []) by (destruct s; [cbn in E1, HL; lia|discriminate]).
    + specialize (H _ (Den_plain 16 s vs Hne Hd)). destruct s as [|c s]; [congruence|]. cbn [digit_count] in H.
      destruct (first_digit_not_sign 16 (c :: s) vs c Hd eq_refl) as [N1 N2]. apply Z.eqb_neq in N1, N2. rewrite N1, N2 in H. cbn [orb] in H.
      rewrite E1, even_double in H. discriminate.
    + specialize (H _ (Den_plus 16 s vs Hne Hd)). change (Nat.even (length s) = false) in H. rewrite E1, even_double in H. discriminate.
    + specialize (H _ (Den_minus 16 s vs Hne Hd)). change (Nat.even (length s) = false) in H. rewrite E1, even_double in H. discriminate.
Qed.
End Proofs.

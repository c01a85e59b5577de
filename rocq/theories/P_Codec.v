(** Hex codec, text conversion of big integers. *)

From Verif Require Import Base M_Codec M_BigInt M_BigText S_BigInt S_Codec P_BigInt1 P_BigInt2 P_BigInt3 P_BigInt4.
From Coq Require Import ZifyBool ZifyNat.
Open Scope Z_scope.
Ltac Zify.zify_post_hook ::= idtac.

Lemma byte_cases (P : Z -> Prop) : (forall n, (n < 256)%nat -> P (Z.of_nat n)) -> forall c, byte c -> P c.
Proof. intros H c [H1 H2]. rewrite <- (Z2Nat.id c) by lia. apply H. lia. Qed.

Definition oeqb (a b : option Z) : bool :=
  match a, b with Some x, Some y => x =? y | None, None => true | _, _ => false end.
Lemma oeqb_eq a b : oeqb a b = true -> a = b.
Proof. destruct a, b; cbn; intros; try discriminate; [f_equal; lia|reflexivity]. Qed.

Definition hex_value (c : Z) : option Z :=
  match alnum_value c with Some v => if v <? 16 then Some v else None | None => None end.

Lemma all_lt (f : nat -> bool) m : forallb f (seq 0 m) = true -> forall n, (n < m)%nat -> f n = true.
Proof. intros H n Hn. rewrite forallb_forall in H. apply H. apply in_seq. lia. Qed.

Lemma hex_char_spec c : byte c -> hex_char c = hex_value c.
Proof.
  revert c. apply byte_cases. intros n Hn. apply oeqb_eq.
  revert n Hn. apply (all_lt (fun n => oeqb (hex_char (Z.of_nat n)) (hex_value (Z.of_nat n))) 256). vm_compute. reflexivity.
Qed.

Lemma nibble_char_spec n : 0 <= n < 16 -> nibble_char n = lower_hex_digit n.
Proof.
  intros Hn. rewrite <- (Z2Nat.id n) by lia. assert (L : (Z.to_nat n < 16)%nat) by lia. revert L. generalize (Z.to_nat n).
  intros m Hm. apply Z.eqb_eq.
  apply (all_lt (fun m => nibble_char (Z.of_nat m) =? lower_hex_digit (Z.of_nat m)) 16); [vm_compute; reflexivity|assumption].
Qed.

Lemma hex_value_lower n : 0 <= n < 16 -> hex_value (lower_hex_digit n) = Some n.
Proof.
  intros Hn. unfold lower_hex_digit, hex_value, alnum_value. destruct (Z.ltb_spec n 10).
  - destruct (Z.leb_spec 48 (48 + n)), (Z.leb_spec (48 + n) 57); try lia. cbn [andb].
    replace (48 + n - 48) with n by lia. destruct (Z.ltb_spec n 16); [reflexivity|lia].
  - destruct (Z.leb_spec 48 (97 + (n - 10))), (Z.leb_spec (97 + (n - 10)) 57),
      (Z.leb_spec 65 (97 + (n - 10))), (Z.leb_spec (97 + (n - 10)) 90), (Z.leb_spec 97 (97 + (n - 10))), (Z.leb_spec (97 + (n - 10)) 122); try lia. cbn [andb].
    replace (97 + (n - 10) - 97 + 10) with n by lia. destruct (Z.ltb_spec n 16); [reflexivity|lia].
Qed.
Lemma lower_hex_byte n : 0 <= n < 16 -> byte (lower_hex_digit n).
Proof. intros H. unfold byte, lower_hex_digit. destruct (n <? 10); lia. Qed.

Lemma hex_value_range c v : hex_value c = Some v -> 0 <= v < 16.
Proof.
  unfold hex_value, alnum_value. destruct ((48 <=? c) && (c <=? 57))%bool eqn:E1.
  - destruct (Z.ltb_spec (c - 48) 16); intros [= <-]; lia.
  - destruct ((65 <=? c) && (c <=? 90))%bool eqn:E2.
    + destruct (Z.ltb_spec (c - 65 + 10) 16); intros [= <-]; lia.
    + destruct ((97 <=? c) && (c <=? 122))%bool eqn:E3; [|discriminate].
      destruct (Z.ltb_spec (c - 97 + 10) 16); intros [= <-]; lia.
Qed.
Lemma hex_value_digit c v : hex_value c = Some v <-> is_digit 16 c v.
Proof.
  unfold hex_value, is_digit. destruct (alnum_value c) as [w|]; [|split; [discriminate|intros [? ?]; discriminate]].
  destruct (Z.ltb_spec w 16); split.
  - intros [= <-]. auto.
  - intros [[= <-] _]. reflexivity.
  - discriminate.
  - intros [[= <-] ?]. lia.
Qed.

Lemma lor_nibbles h l : 0 <= h < 16 -> 0 <= l < 16 -> Z.lor ((h * 16) mod 256) l = 16 * h + l.
Proof.
  intros Hh Hl. rewrite Z.mod_small by lia. rewrite (lor_add_disjoint _ _ 4); [lia|lia|exact Hl|].
  change (2 ^ 4) with 16. apply Z.mod_mul. lia.
Qed.
Lemma nibble_split b : byte b -> Z.shiftr b 4 = b / 16 /\ Z.land b 15 = b mod 16.
Proof.
  intros H. split; [rewrite Z.shiftr_div_pow2 by lia; reflexivity|].
  change 15 with (Z.ones 4). rewrite Z.land_ones by lia. reflexivity.
Qed.

(** positional notation *)
Lemma positional_acc r vs acc :
  fold_left (fun a v => r * a + v) vs acc = acc * r ^ Z.of_nat (length vs) + positional r vs.
Proof.
  unfold positional. revert acc. induction vs as [|v vs IH]; intros acc; cbn [fold_left length].
  - rewrite Z.pow_0_r. lia.
  - rewrite IH, (IH (r * 0 + v)). rewrite Nat2Z.inj_succ, Z.pow_succ_r by lia. ring.
Qed.
Lemma positional_cons r v vs : positional r (v :: vs) = v * r ^ Z.of_nat (length vs) + positional r vs.
Proof. unfold positional at 1. cbn [fold_left]. rewrite positional_acc. f_equal. ring. Qed.

Lemma digits_of_length r s vs : digits_of r s vs -> length s = length vs.
Proof. induction 1; cbn; congruence. Qed.

(** all chars pairwise *)
Lemma even_ind {A} (P : list A -> Prop) :
  P [] -> (forall x y l, P l -> P (x :: y :: l)) -> forall l, Nat.even (length l) = true -> P l.
Proof.
  intros H0 H2 l. remember (length l) as n. revert l Heqn.
  induction n as [n IH] using lt_wf_ind. intros [|x [|y l]] E He; [assumption| |].
  - cbn in E. subst. discriminate.
  - apply H2. apply (IH (length l)); cbn [length] in *; [lia|reflexivity|]. subst n. cbn in He. exact He.
Qed.

Lemma len_even_land (l : list Z) : (Z.land (Z.of_nat (length l)) 1 =? 0) = Nat.even (length l).
Proof.
  change 1 with (Z.ones 1) at 1. rewrite Z.land_ones by lia. change (2 ^ 1) with 2.
  generalize (length l). intros n. rewrite Zmod_even.
  destruct (Nat.even n) eqn:E.
  - apply Nat.even_spec in E. destruct E as [m ->]. rewrite Nat2Z.inj_mul, Z.even_mul. reflexivity.
  - destruct (Z.even (Z.of_nat n)) eqn:E2; [|reflexivity]. exfalso.
    apply Z.even_spec in E2. destruct E2 as [m Hm]. assert (Nat.even n = true); [|congruence].
    apply Nat.even_spec. exists (Z.to_nat m). lia.
Qed.

Lemma hex_pairs_ok s vs : bytes s -> Nat.even (length s) = true -> digits_of 16 s vs ->
  exists bs, hex_pairs s = Ok bs /\ bytes bs /\ length s = (2 * length bs)%nat /\ be_val bs = positional 16 vs.
Proof.
  intros Hb He. revert Hb vs. pattern s. revert s He. apply even_ind.
  - intros _ vs H. inversion H; subst. exists []. repeat split; constructor.
  - intros x y s IH Hb vs H. inversion H as [|? hv ? ? H1 H']; subst. inversion H' as [|? lv ? vs' H2 H'']; subst.
    inversion Hb as [|? ? Hx Hb']; subst. inversion Hb' as [|? ? Hy Hb'']; subst.
    destruct (IH Hb'' _ H'') as (bs & E1 & E2 & E3 & E4).
    cbn [hex_pairs]. rewrite (hex_char_spec x), (hex_char_spec y) by assumption.
    apply hex_value_digit in H1. apply hex_value_digit in H2.
    rewrite H1, H2, E1. apply hex_value_range in H1. apply hex_value_range in H2.
    rewrite lor_nibbles by assumption. eexists. split; [reflexivity|]. repeat split.
    + constructor; [unfold byte; lia|assumption].
    + cbn [length]. lia.
    + rewrite be_val_cons, !positional_cons, E4. cbn [length].
      apply digits_of_length in H''. rewrite <- H'', E3.
      rewrite Nat2Z.inj_succ, Z.pow_succ_r by lia. rewrite Nat2Z.inj_mul. change (Z.of_nat 2) with 2.
      rewrite (Z.pow_mul_r 16 2) by lia. change (16 ^ 2) with 256. ring.
Qed.

Lemma hex_pairs_err s : bytes s -> Nat.even (length s) = true ->
  (forall vs, ~ digits_of 16 s vs) -> hex_pairs s = Err InvalidCharFound.
Proof.
  intros Hb He. revert Hb. pattern s. revert s He. apply even_ind.
  - intros _ H. exfalso. apply (H []). constructor.
  - intros x y s IH Hb H. inversion Hb as [|? ? Hx Hb']; subst. inversion Hb' as [|? ? Hy Hb'']; subst.
    cbn [hex_pairs]. rewrite (hex_char_spec x), (hex_char_spec y) by assumption.
    destruct (hex_value x) as [hv|] eqn:E1; [|reflexivity]. destruct (hex_value y) as [lv|] eqn:E2; [|reflexivity].
    rewrite IH; auto. intros vs Hvs. apply (H (hv :: lv :: vs)).
    constructor; [apply hex_value_digit; assumption|]. constructor; [apply hex_value_digit; assumption|assumption].
Qed.

Lemma digits_of_dec r s : (exists vs, digits_of r s vs) \/ (forall vs, ~ digits_of r s vs).
Proof.
  induction s as [|c s IH]; [left; exists []; constructor|].
  destruct (alnum_value c) as [v|] eqn:E.
  - destruct (Z.lt_ge_cases v r) as [Hv|Hv].
    + destruct IH as [[vs IH]|IH].
      * left. exists (v :: vs). constructor; [split; assumption|assumption].
      * right. intros vs H. inversion H; subst. eapply IH; eassumption.
    + right. intros vs H. inversion H as [|? w ? ? [H1 H2] _]; subst. rewrite E in H1. injection H1 as <-. lia.
  - right. intros vs H. inversion H as [|? w ? ? [H1 H2] _]; subst. congruence.
Qed.

(** the three outcomes of [hex_to_bytes] *)
Lemma hex_to_bytes_spec s : bytes s ->
  (Nat.even (length s) = false -> hex_to_bytes s = Err NotByteAligned) /\
  (Nat.even (length s) = true -> (forall vs, ~ digits_of 16 s vs) -> hex_to_bytes s = Err InvalidCharFound) /\
  (forall vs, Nat.even (length s) = true -> digits_of 16 s vs ->
    exists bs, hex_to_bytes s = Ok bs /\ bytes bs /\ length s = (2 * length bs)%nat /\ be_val bs = positional 16 vs).
Proof.
  intros Hb. unfold hex_to_bytes. rewrite len_even_land.
  split; [intros ->; reflexivity|]. split.
  - intros He H. rewrite He. cbn [negb]. apply hex_pairs_err; assumption.
  - intros vs He H. rewrite He. cbn [negb]. apply hex_pairs_ok; assumption.
Qed.

Fixpoint nibbles (bs : list Z) : list Z :=
  match bs with [] => [] | b :: bs' => b / 16 :: b mod 16 :: nibbles bs' end.

Lemma bytes_to_lower_hex_spec bs : bytes bs -> bytes_to_lower_hex bs = map lower_hex_digit (nibbles bs).
Proof.
  induction 1 as [|b bs Hb Hbs IH]; [reflexivity|]. unfold bytes_to_lower_hex in *. cbn [nibbles flat_map map app] in *.
  destruct (nibble_split b Hb) as [-> ->]. unfold byte in Hb.
  rewrite !nibble_char_spec; [f_equal; f_equal; exact IH| |].
  - apply Z.mod_pos_bound. lia.
  - split; [apply Z.div_pos; lia|apply Z.div_lt_upper_bound; lia].
Qed.

Lemma nibbles_range bs : bytes bs -> Forall (fun n => 0 <= n < 16) (nibbles bs).
Proof.
  induction 1 as [|b bs Hb Hbs IH]; cbn [nibbles]; [constructor|]. unfold byte in Hb. constructor.
  - split; [apply Z.div_pos; lia|apply Z.div_lt_upper_bound; lia].
  - constructor; [apply Z.mod_pos_bound; lia|assumption].
Qed.
Lemma nibbles_length bs : length (nibbles bs) = (2 * length bs)%nat.
Proof. induction bs; cbn [nibbles length] in *; lia. Qed.
Lemma nibbles_positional bs : positional 16 (nibbles bs) = be_val bs.
Proof.
  induction bs as [|b bs IH]; [reflexivity|]. cbn [nibbles].
  rewrite !positional_cons, IH, be_val_cons. cbn [length]. rewrite nibbles_length.
  rewrite Nat2Z.inj_succ, Z.pow_succ_r by lia. rewrite Nat2Z.inj_mul. change (Z.of_nat 2) with 2.
  rewrite (Z.pow_mul_r 16 2) by lia. change (16 ^ 2) with 256.
  pose proof (Z.div_mod b 16 ltac:(lia)) as DM. rewrite DM at 3. ring.
Qed.

Lemma digits_of_lower ns : Forall (fun n => 0 <= n < 16) ns -> digits_of 16 (map lower_hex_digit ns) ns.
Proof.
  induction 1 as [|n ns Hn Hns IH]; [constructor|]. cbn [map]. constructor; [|assumption].
  apply hex_value_digit. apply hex_value_lower. assumption.
Qed.

Lemma bytes_lower_hex bs : bytes bs -> bytes (bytes_to_lower_hex bs).
Proof.
  intros H. rewrite bytes_to_lower_hex_spec by assumption.
  pose proof (nibbles_range bs H) as R. induction R; cbn [map]; constructor; auto using lower_hex_byte.
Qed.

Lemma even_double n : Nat.even (2 * n) = true.
Proof. apply Nat.even_spec. exists n. reflexivity. Qed.

Lemma hex_roundtrip bs : bytes bs -> hex_to_bytes (bytes_to_lower_hex bs) = Ok bs.
Proof.
  intros H. pose proof (bytes_lower_hex bs H) as Hb.
  destruct (hex_to_bytes_spec _ Hb) as (_ & _ & H3).
  rewrite bytes_to_lower_hex_spec in * by assumption.
  assert (L : length (map lower_hex_digit (nibbles bs)) = (2 * length bs)%nat) by (rewrite map_length; apply nibbles_length).
  destruct (H3 (nibbles bs)) as (bs' & -> & B' & L' & V').
  - rewrite L. apply even_double.
  - apply digits_of_lower, nibbles_range, H.
  - f_equal. apply be_val_inj; auto; [lia|]. rewrite V'. apply nibbles_positional.
Qed.

Section Proofs.
Context {cfg : digit_cfg}.

Lemma first_digit_not_sign r s vs c : digits_of r s vs -> s = c :: tl s -> c <> 43 /\ c <> 45.
Proof.
  intros H E. destruct s as [|x s]; [discriminate|]. injection E as ->.
  inversion H as [|? v ? ? [H1 _] _]; subst. split; intros ->; cbn in H1; discriminate.
Qed.

(** sign splitting *)
Lemma split_sign_plain r s vs : s <> [] -> digits_of r s vs -> split_sign s = (Positive, s).
Proof.
  intros Hne H. destruct s as [|c s]; [congruence|].
  destruct (first_digit_not_sign r (c :: s) vs c H eq_refl) as [H1 H2]. unfold split_sign.
  destruct (Z.eqb_spec c 45); [congruence|]. destruct (Z.eqb_spec c 43); [congruence|]. reflexivity.
Qed.

Inductive hex_result (s : list Z) : outcome (result parse_int_error bigint) -> Prop :=
| HexOk v r : denotes 16 s v -> Nat.even (digit_count s) = true -> wf r -> bi_val r = v -> hex_result s (Ret (Ok r))
| HexErr e : (forall v, denotes 16 s v -> Nat.even (digit_count s) = false) -> hex_result s (Ret (Err e)).

Lemma from_hex_body s1 sg : bytes s1 -> s1 <> [] ->
  (exists vs r, Nat.even (length s1) = true /\ digits_of 16 s1 vs /\ wf r /\ bi_val r = sgz sg (positional 16 vs) /\
    match hex_to_bytes s1 with
    | Ok bs => r <- bi_from_be_bytes bs sg ;; Ret (Ok r) | Err e => Ret (Err (PCodecs e)) end = Ret (Ok r))
  \/ ((Nat.even (length s1) = false \/ forall vs, ~ digits_of 16 s1 vs) /\ exists e,
    match hex_to_bytes s1 with
    | Ok bs => r <- bi_from_be_bytes bs sg ;; Ret (Ok r) | Err e => Ret (Err (PCodecs e)) end = Ret (Err e)).
Proof.
  intros Hb Hne. destruct (hex_to_bytes_spec s1 Hb) as (H1 & H2 & H3).
  destruct (Nat.even (length s1)) eqn:Ee.
  - destruct (digits_of_dec 16 s1) as [[vs Hv]|Hv].
    + left. destruct (H3 vs eq_refl Hv) as (bs & -> & Bb & L & V).
      destruct (bi_from_be_bytes_spec (cfg:=cfg) bs sg) as (r & -> & W & Vr); auto.
      { intros ->. destruct s1; [congruence|]. cbn in L. lia. }
      exists vs, r. rewrite Vr, V. split; [reflexivity|]. split; [assumption|]. split; [assumption|]. split; reflexivity.
    + right. split; [right; assumption|]. rewrite H2 by auto. eexists. reflexivity.
  - right. split; [left; reflexivity|]. rewrite H1 by reflexivity. eexists. reflexivity.
Qed.

Lemma bi_from_hex_spec s : bytes s -> hex_result s (bi_from_hex s).
Proof.
  intros Hb. unfold bi_from_hex. destruct s as [|c s'].
  - destruct (from_int_0 (cfg:=cfg)) as (r & -> & W & V). cbn [obind]. eapply HexOk; [apply Den_empty|reflexivity|assumption|assumption].
  - inversion Hb as [|? ? Hc Hb']; subst.
    unfold split_sign. destruct (Z.eqb_spec c 45) as [->|N45]; [|destruct (Z.eqb_spec c 43) as [->|N43]].
    + destruct s' as [|c1 s1].
      * apply HexErr. intros v H. inversion H as [|? ? _ D| |? ? Hne D]; subst; [|congruence].
        inversion D as [|? ? ? ? [D1 _] _]; subst. discriminate.
      * destruct (from_hex_body (c1 :: s1) Negative Hb' ltac:(discriminate)) as [(vs & r & He & Hd & W & V & ->)|(Hor & e & ->)].
        -- eapply HexOk; [apply Den_minus; [discriminate|exact Hd]|exact He|assumption|exact V].
        -- apply HexErr. intros v H. destruct Hor as [Hor|Hor]; [exact Hor|exfalso].
           inversion H as [|? ? _ D| |? ? Hne D]; subst; [|eapply Hor; exact D].
           inversion D as [|? ? ? ? [D1 _] _]; subst. discriminate.
    + destruct s' as [|c1 s1].
      * apply HexErr. intros v H. inversion H as [|? ? _ D|? ? Hne D|]; subst; [|congruence].
        inversion D as [|? ? ? ? [D1 _] _]; subst. discriminate.
      * destruct (from_hex_body (c1 :: s1) Positive Hb' ltac:(discriminate)) as [(vs & r & He & Hd & W & V & ->)|(Hor & e & ->)].
        -- eapply HexOk; [apply Den_plus; [discriminate|exact Hd]|exact He|assumption|exact V].
        -- apply HexErr. intros v H. destruct Hor as [Hor|Hor]; [exact Hor|exfalso].
           inversion H as [|? ? _ D|? ? Hne D|]; subst; [|eapply Hor; exact D].
           inversion D as [|? ? ? ? [D1 _] _]; subst. discriminate.
    + assert (Ec : digit_count (c :: s') = length (c :: s')).
      { cbn [digit_count]. destruct (Z.eqb_spec c 43), (Z.eqb_spec c 45); try congruence. reflexivity. }
      destruct (from_hex_body (c :: s') Positive Hb ltac:(discriminate)) as [(vs & r & He & Hd & W & V & ->)|(Hor & e & ->)].
      -- eapply HexOk; [apply Den_plain; [discriminate|exact Hd]|rewrite Ec; exact He|assumption|exact V].
      -- apply HexErr. intros v H. rewrite Ec. destruct Hor as [Hor|Hor]; [exact Hor|exfalso].
         inversion H as [|? ? _ D| |]; subst; [|congruence|congruence]. eapply Hor; exact D.
Qed.

Lemma bi_to_lower_hex_spec x : wf x ->
  exists bs, bytes bs /\ (bs = [0] \/ bs <> [] /\ hd 0 bs <> 0) /\ be_val bs = Z.abs (bi_val x) /\
    bi_to_lower_hex x = Ret ((if bi_val x <? 0 then [45] else []) ++ bytes_to_lower_hex bs).
Proof.
  intros W. unfold bi_to_lower_hex. rewrite is_zero_spec by assumption. cbn [obind].
  destruct (Z.eqb_spec (bi_val x) 0) as [E|E].
  - exists [0]. rewrite E. repeat split; [constructor; [unfold byte; lia|constructor]|left; reflexivity].
  - destruct (bi_to_be_bytes_spec x W) as (l & -> & (Hb & Hv & Hh)). cbn [obind].
    exists l. split; [assumption|]. split.
    { right. destruct Hh as [->|Hh]; [cbn in Hv; lia|]. split; [|assumption]. intros ->. cbn in Hh. congruence. }
    split; [assumption|]. f_equal.
    destruct (wf_inv x W) as (a & _ & _ & Da & Va & _). pose proof (val_nonneg a Da).
    destruct (sign x); cbn [sgz] in Va; destruct (Z.ltb_spec (bi_val x) 0); try lia; reflexivity.
Qed.

Lemma bi_from_hex_neg s : s <> [] -> bi_from_hex (45 :: s) =
  match hex_to_bytes s with Ok bs => r <- bi_from_be_bytes bs Negative ;; Ret (Ok r) | Err e => Ret (Err (PCodecs e)) end.
Proof. intros H. destruct s; [congruence|reflexivity]. Qed.

Lemma hex_roundtrip_bigint x : wf x ->
  exists t r, bi_to_lower_hex x = Ret t /\ Nat.even (digit_count t) = true /\ bi_from_hex t = Ret (Ok r) /\ wf r /\ bi_val r = bi_val x.
Proof.
  intros W. destruct (bi_to_lower_hex_spec x W) as (bs & Hb & Hh & Hv & E). rewrite E.
  assert (Hne : bs <> []) by (destruct Hh as [->|[Hh _]]; [discriminate|assumption]).
  pose proof (bytes_lower_hex bs Hb) as Hbh.
  pose proof (hex_roundtrip bs Hb) as HR.
  assert (Hd : digits_of 16 (bytes_to_lower_hex bs) (nibbles bs)).
  { rewrite bytes_to_lower_hex_spec by assumption. apply digits_of_lower, nibbles_range, Hb. }
  assert (L : length (bytes_to_lower_hex bs) = (2 * length bs)%nat).
  { rewrite bytes_to_lower_hex_spec, map_length by assumption. apply nibbles_length. }
  assert (Hne2 : bytes_to_lower_hex bs <> []).
  { intros E0. rewrite E0 in L. destruct bs; [congruence|cbn in L; lia]. }
  destruct (Z.ltb_spec (bi_val x) 0) as [Hneg|Hneg]; cbn [app]; eexists.
  - destruct (bi_from_be_bytes_spec (cfg:=cfg) bs Negative) as (r & Er & Wr & Vr); auto.
    exists r. split; [reflexivity|]. split; [cbn [digit_count]; cbn [Z.eqb orb]; cbn; rewrite L; apply even_double|].
    split; [|split; [assumption|rewrite Vr; cbn [sgz]; lia]].
    rewrite bi_from_hex_neg, HR, Er by assumption. reflexivity.
  - destruct (bi_from_be_bytes_spec (cfg:=cfg) bs Positive) as (r & Er & Wr & Vr); auto.
    exists r. split; [reflexivity|].
    pose proof (split_sign_plain 16 _ _ Hne2 Hd) as HS.
    unfold bi_from_hex. rewrite HS. destruct (bytes_to_lower_hex bs) as [|c t] eqn:EB; [congruence|].
    destruct (first_digit_not_sign 16 _ _ c Hd eq_refl) as [N1 N2].
    split; [cbn [digit_count]; destruct (Z.eqb_spec c 43), (Z.eqb_spec c 45); try congruence; cbn [orb]; rewrite L; apply even_double|].
    split; [|split; [assumption|rewrite Vr; cbn [sgz]; lia]].
    rewrite HR, Er. reflexivity.
Qed.

(** radix *)
Lemma radix_char_spec c : radix_char c = alnum_value c.
Proof.
  unfold radix_char, alnum_value.
  destruct ((48 <=? c) && (c <=? 57))%bool eqn:E1; [reflexivity|].
  destruct ((97 <=? c) && (c <=? 122))%bool eqn:E2.
  - destruct ((65 <=? c) && (c <=? 90))%bool eqn:E3; [lia|]. f_equal. lia.
  - destruct ((65 <=? c) && (c <=? 90))%bool eqn:E3; [|reflexivity]. f_equal. lia.
Qed.
Lemma alnum_range c v : alnum_value c = Some v -> 0 <= v < 36.
Proof.
  unfold alnum_value. destruct ((48 <=? c) && (c <=? 57))%bool eqn:E1; [intros [= <-]; lia|].
  destruct ((65 <=? c) && (c <=? 90))%bool eqn:E2; [intros [= <-]; lia|].
  destruct ((97 <=? c) && (c <=? 122))%bool eqn:E3; [intros [= <-]; lia|discriminate].
Qed.

(** The parser as it is: digits up to and including the radix. *)
Lemma radix_loop_ok s vs radix rb acc :
  0 <= radix -> wf rb -> bi_val rb = radix -> wf acc -> 0 <= bi_val acc ->
  digits_of (radix + 1) s vs ->
  exists r, radix_loop s radix rb acc = Ret (Ok r) /\ wf r /\ 0 <= bi_val r /\
    bi_val r = fold_left (fun a v => radix * a + v) vs (bi_val acc).
Proof.
  intros Hr Wrb Vrb Wa Ha H. revert acc Wa Ha. induction H as [|c v s vs [Hc Hv] H IH]; intros acc Wa Ha.
  - exists acc. cbn. auto.
  - cbn [radix_loop fold_left]. rewrite radix_char_spec, Hc. pose proof (alnum_range _ _ Hc).
    destruct (Z.ltb_spec radix v); [lia|].
    destruct (bi_mul_spec acc rb Wa Wrb) as (m & -> & Wm & Vm). cbn [obind].
    destruct (from_u128_spec (cfg:=cfg) v Positive) as (d & Ed & Wd & Vd); [split; [lia|apply Z.lt_le_trans with 36; [lia|vm_compute; discriminate]]|].
    unfold from_uint. rewrite Ed. cbn [obind].
    destruct (bi_add_spec m d Wm Wd) as (a' & -> & W' & V'). cbn [obind].
    cbn [sgz] in Vd. assert (E : bi_val a' = radix * bi_val acc + v) by (rewrite V', Vm, Vd, Vrb; ring).
    destruct (IH a' W') as (r & E1 & E2 & E3 & E4); [rewrite E; nia|]. rewrite E in E4. exists r. auto.
Qed.

Lemma radix_loop_err s radix rb acc :
  0 <= radix -> wf rb -> bi_val rb = radix -> wf acc -> 0 <= bi_val acc ->
  (forall vs, ~ digits_of (radix + 1) s vs) ->
  radix_loop s radix rb acc = Ret (Err PInvalidInput).
Proof.
  intros Hr Wrb Vrb. revert acc. induction s as [|c s IH]; intros acc Wa Ha H.
  - exfalso. apply (H []). constructor.
  - cbn [radix_loop]. rewrite radix_char_spec. destruct (alnum_value c) as [v|] eqn:Hc; [|reflexivity].
    destruct (Z.ltb_spec radix v); [reflexivity|]. pose proof (alnum_range _ _ Hc).
    destruct (bi_mul_spec acc rb Wa Wrb) as (m & -> & Wm & Vm). cbn [obind].
    destruct (from_u128_spec (cfg:=cfg) v Positive) as (d & Ed & Wd & Vd); [split; [lia|apply Z.lt_le_trans with 36; [lia|vm_compute; discriminate]]|].
    unfold from_uint. rewrite Ed. cbn [obind].
    destruct (bi_add_spec m d Wm Wd) as (a' & -> & W' & V'). cbn [obind].
    cbn [sgz] in Vd. apply IH; [assumption|rewrite V', Vm, Vd, Vrb; nia|].
    intros vs Hvs. apply (H (v :: vs)). constructor; [split; [assumption|lia]|assumption].
Qed.

Lemma set_sign_spec x s : wf (cfg:=cfg) x -> wf (set_sign x s) /\ bi_val (set_sign x s) = sgz s (Z.abs (bi_val x)).
Proof.
  intros W. split; [exact W|]. destruct (wf_inv x W) as (a & Ea & Ca & Da & Va & Es & La & Ls).
  rewrite (abs_val x W a Ea), bi_val_sgz. cbn [set_sign storage dlen sign]. f_equal.
  unfold as_digits, dassert in Ea. destruct (Nat.ltb 0 (dlen x)); [|destruct (debug_checks cfg); [discriminate|]]; cbn in Ea.
  all: rewrite slice_to_ret in Ea by assumption; injection Ea as ->; reflexivity.
Qed.

(** [accepts radix s v]: what the parser really accepts. *)
Definition accepts (radix : Z) (s : list Z) (v : Z) : Prop :=
  (s = [] /\ v = 0) \/
  exists vs, snd (split_sign s) <> [] /\ digits_of (radix + 1) (snd (split_sign s)) vs /\
    v = sgz (fst (split_sign s)) (positional radix vs).

Lemma positional_nonneg r vs : 0 <= r -> Forall (fun v => 0 <= v) vs -> 0 <= positional r vs.
Proof.
  intros Hr. unfold positional. cut (forall acc, 0 <= acc -> Forall (fun v => 0 <= v) vs -> 0 <= fold_left (fun a v => r * a + v) vs acc).
  { intros H. apply H. lia. }
  induction vs as [|v vs IH]; intros acc Ha H; cbn; [assumption|]. inversion H; subst. apply IH; [nia|assumption].
Qed.
Lemma digits_nonneg r s vs : digits_of r s vs -> Forall (fun v => 0 <= v) vs.
Proof. induction 1 as [|c v s vs [H1 _] _ IH]; constructor; auto. apply alnum_range in H1. lia. Qed.

(** The radices (of type u8) that the debug assertion lets pass. *)
Definition radix_passes (radix : Z) : Prop := 2 <= radix <= 36 \/ (debug_checks cfg = false /\ 0 <= radix < 256).
Lemma radix_passes_check {A} radix (k : outcome A) : radix_passes radix ->
  dassert ((2 <=? radix) && (radix <=? 36))%bool k = k /\ 0 <= radix < 2 ^ 128.
Proof.
  change (2 ^ 128) with 340282366920938463463374607431768211456. unfold dassert.
  intros [H|[H1 H2]]; (split; [|lia]).
  - destruct (Z.leb_spec 2 radix); [|lia]. destruct (Z.leb_spec radix 36); [|lia]. reflexivity.
  - rewrite H1. now destruct ((2 <=? radix) && (radix <=? 36))%bool.
Qed.

Lemma bi_from_str_radix_ok s radix v : radix_passes radix -> accepts radix s v ->
  exists r, bi_from_str_radix s radix = Ret (Ok r) /\ wf r /\ bi_val r = v.
Proof.
  intros Hr HA. unfold bi_from_str_radix. destruct (radix_passes_check radix (Ret tt) Hr) as [_ Hr128]. rewrite (proj1 (radix_passes_check radix _ Hr)).
  destruct HA as [[-> ->]|(vs & Hne & Hd & ->)].
  - destruct (from_int_0 (cfg:=cfg)) as (r & -> & W & V). cbn [obind]. eauto.
  - destruct s as [|c s]; [cbn in Hne; congruence|].
    destruct (split_sign (c :: s)) as [sg s1]. cbn [fst snd] in *. destruct s1 as [|c1 s1]; [congruence|].
    destruct (from_u128_spec (cfg:=cfg) radix Positive) as (rb & Erb & Wrb & Vrb); [exact Hr128|].
    unfold from_uint. rewrite Erb. cbn [obind]. cbn [sgz] in Vrb.
    destruct (bi_zero_spec (cfg:=cfg)) as (z & -> & Wz & Vz). cbn [obind].
    destruct (radix_loop_ok (c1 :: s1) vs radix rb z) as (r & -> & Wr & Nr & Vr); auto; try lia.
    cbn [rbind]. eexists. split; [reflexivity|]. destruct (set_sign_spec r sg Wr) as [W' V'].
    split; [assumption|]. rewrite V', Vr, Vz. change (fold_left (fun a v : Z => radix * a + v) vs 0) with (positional radix vs).
    f_equal. apply Z.abs_eq. apply positional_nonneg; [lia|eapply digits_nonneg; eassumption].
Qed.

Lemma bi_from_str_radix_err s radix : radix_passes radix -> (forall v, ~ accepts radix s v) ->
  bi_from_str_radix s radix = Ret (Err PInvalidInput).
Proof.
  intros Hr HA. unfold bi_from_str_radix. destruct (radix_passes_check radix (Ret tt) Hr) as [_ Hr128]. rewrite (proj1 (radix_passes_check radix _ Hr)).
  destruct s as [|c s]; [exfalso; apply (HA 0); left; auto|].
  assert (HA' : snd (split_sign (c :: s)) <> [] -> forall vs, ~ digits_of (radix + 1) (snd (split_sign (c :: s))) vs).
  { intros Hne vs Hd. eapply HA. right. exists vs. eauto. }
  clear HA. destruct (split_sign (c :: s)) as [sg s1]. cbn [fst snd] in *. destruct s1 as [|c1 s1]; [reflexivity|].
  destruct (from_u128_spec (cfg:=cfg) radix Positive) as (rb & Erb & Wrb & Vrb); [exact Hr128|].
  unfold from_uint. rewrite Erb. cbn [obind]. cbn [sgz] in Vrb.
  destruct (bi_zero_spec (cfg:=cfg)) as (z & -> & Wz & Vz). cbn [obind].
  rewrite radix_loop_err; [reflexivity|lia|assumption|assumption|assumption|lia|]. apply HA'. discriminate.
Qed.

Lemma accepts_dec radix s : (exists v, accepts radix s v) \/ (forall v, ~ accepts radix s v).
Proof.
  destruct s as [|c s]; [left; exists 0; left; auto|].
  destruct (digits_of_dec (radix + 1) (snd (split_sign (c :: s)))) as [[vs H]|H].
  - destruct (snd (split_sign (c :: s))) eqn:E.
    + right. intros v [[? ?]|(vs' & Hne & _)]; [discriminate|]. rewrite E in Hne. congruence.
    + left. exists (sgz (fst (split_sign (c :: s))) (positional radix vs)). right. exists vs.
      rewrite E. repeat split; auto. discriminate.
  - right. intros v [[? ?]|(vs' & _ & Hd & _)]; [discriminate|]. eapply H; exact Hd.
Qed.

(** no character of digit value [radix] *)
Definition no_radix_digit (radix : Z) (s : list Z) : Prop := Forall (fun c => alnum_value c <> Some radix) s.

Lemma digits_of_tighten radix s vs : no_radix_digit radix s -> digits_of (radix + 1) s vs -> digits_of radix s vs.
Proof.
  intros Hn H. induction H as [|c v s vs [H1 H2] H IH]; [constructor|].
  inversion Hn; subst. constructor; [|apply IH; assumption]. split; [assumption|].
  assert (v <> radix) by congruence. lia.
Qed.
Lemma digits_of_loosen radix s vs : digits_of radix s vs -> digits_of (radix + 1) s vs.
Proof. induction 1 as [|c v s vs [H1 H2] H IH]; constructor; auto. split; [assumption|lia]. Qed.

Lemma denotes_accepts radix s v : denotes radix s v -> accepts radix s v.
Proof.
  intros H. destruct H as [|s vs Hne Hd|s vs Hne Hd|s vs Hne Hd].
  - left. auto.
  - right. exists vs. rewrite (split_sign_plain radix s vs Hne Hd). cbn [fst snd sgz]. auto using digits_of_loosen.
  - right. exists vs. cbn [split_sign Z.eqb]. cbn. repeat split; auto using digits_of_loosen.
  - right. exists vs. cbn. repeat split; auto using digits_of_loosen.
Qed.
Lemma accepts_denotes radix s v : no_radix_digit radix s -> accepts radix s v -> denotes radix s v.
Proof.
  intros Hn [[-> ->]|(vs & Hne & Hd & ->)]; [constructor|].
  destruct s as [|c s]; [cbn in Hne; congruence|]. inversion Hn as [|? ? Hc Hs]; subst.
  cbn [split_sign] in *. destruct (Z.eqb_spec c 45) as [->|N1]; [|destruct (Z.eqb_spec c 43) as [->|N2]]; cbn [fst snd sgz] in *.
  - apply Den_minus; [assumption|]. apply digits_of_tighten; assumption.
  - apply Den_plus; [assumption|]. apply digits_of_tighten; assumption.
  - apply Den_plain; [assumption|]. apply digits_of_tighten; assumption.
Qed.

Lemma accepts_reads radix s v : accepts radix s v <-> reads_as radix s v.
Proof.
  split.
  - intros [[-> ->]|(vs & Hne & Hd & ->)]; [constructor|]. destruct s as [|c s]; [cbn in Hne; congruence|].
    cbn [split_sign] in *. destruct (Z.eqb_spec c 45) as [->|N1]; [|destruct (Z.eqb_spec c 43) as [->|N2]]; cbn [fst snd sgz] in *.
    + now apply Read_minus.
    + now apply Read_plus.
    + now apply Read_plain.
  - intros H. destruct H as [|s vs Hne Hd|s vs Hne Hd|s vs Hne Hd].
    + left. auto.
    + right. exists vs. rewrite (split_sign_plain (radix + 1) s vs Hne Hd). cbn [fst snd sgz]. auto.
    + right. exists vs. cbn. auto.
    + right. exists vs. cbn. auto.
Qed.

Lemma from_str_radix_exact s radix v : 0 <= radix < 256 -> 2 <= radix <= 36 \/ debug_checks cfg = false ->
  ((exists r, bi_from_str_radix s radix = Ret (Ok r) /\ wf r /\ bi_val r = v) <-> reads_as radix s v) /\
  ((forall w, ~ reads_as radix s w) -> bi_from_str_radix s radix = Ret (Err PInvalidInput)).
Proof.
  intros Hr Hd. assert (P : radix_passes radix) by (destruct Hd; [now left|right; split; assumption]). split.
  - rewrite <- accepts_reads. split; [|now apply bi_from_str_radix_ok].
    intros (r & E & W & V). destruct (accepts_dec radix s) as [[w A]|A].
    + destruct (bi_from_str_radix_ok s radix w P A) as (r' & E' & _ & V'). assert (r' = r) by congruence. subst. exact A.
    + rewrite (bi_from_str_radix_err s radix P A) in E. discriminate.
  - intros N. apply bi_from_str_radix_err; [assumption|]. intros w A. apply (N w). now apply accepts_reads.
Qed.
Lemma from_str_radix_bad s radix : debug_checks cfg = true -> ~ 2 <= radix <= 36 -> bi_from_str_radix s radix = Panic.
Proof.
  intros G N. unfold bi_from_str_radix, dassert. rewrite G.
  destruct (Z.leb_spec 2 radix), (Z.leb_spec radix 36); cbn [andb]; try reflexivity. lia.
Qed.

End Proofs.

Lemma digits_of_fun r s vs ws : digits_of r s vs -> digits_of r s ws -> vs = ws.
Proof.
  intros H. revert ws. induction H as [|c v s vs [H1 _] H IH]; intros ws G; inversion G as [|? w ? ws' [G1 _] G']; subst; [reflexivity|].
  f_equal; [congruence|auto].
Qed.
Lemma not_sign_digit r s vs : ~ digits_of r (43 :: s) vs /\ ~ digits_of r (45 :: s) vs.
Proof. split; intros H; inversion H as [|? ? ? ? [D1 _] _]; subst; discriminate. Qed.
Lemma denotes_fun r s v w : denotes r s v -> denotes r s w -> v = w.
Proof.
  intros H G. destruct H as [|s vs Hne Hd|s vs Hne Hd|s vs Hne Hd]; inversion G as [|? ws Gne Gd|? ws Gne Gd|? ws Gne Gd]; subst; try congruence;
    repeat match goal with
      | H : digits_of _ (43 :: _) _ |- _ => exfalso; exact (proj1 (not_sign_digit _ _ _) H)
      | H : digits_of _ (45 :: _) _ |- _ => exfalso; exact (proj2 (not_sign_digit _ _ _) H)
      | H1 : digits_of _ ?s ?a, H2 : digits_of _ ?s ?b |- _ => assert (a = b) by (eapply digits_of_fun; eassumption); subst; clear H2
    end; reflexivity.
Qed.

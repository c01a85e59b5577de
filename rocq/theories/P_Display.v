(** Proofs for C71: the text of payloads and transactions. *)

From Coq Require Import String Ascii.
From Verif Require Import Base M_Parity M_Codec M_BigInt M_BigText M_Rlp M_EthTypes M_Tx M_TxSign M_Display
  S_BigInt S_Codec S_EthTypes S_Tx S_Eoa S_Display P_BigInt4 P_Codec P_BigProp P_Rlp P_EthTypes2 P_RlpInj.
Open Scope Z_scope.
Local Open Scope list_scope.

Lemma lower_inj a b : 0 <= a < 16 -> 0 <= b < 16 -> lower_hex_digit a = lower_hex_digit b -> a = b.
Proof. unfold lower_hex_digit. intros. destruct (Z.ltb_spec a 10), (Z.ltb_spec b 10); lia. Qed.
Lemma lower_map_inj l m : Forall (fun d => 0 <= d < 16) l -> Forall (fun d => 0 <= d < 16) m ->
  map lower_hex_digit l = map lower_hex_digit m -> l = m.
Proof.
  intros Hl. revert m. induction Hl as [|a l Ha Hl IH]; intros [|b m] Hm E; try discriminate; [reflexivity|].
  inversion Hm as [|? ? Hb Hm']; subst. cbn [map] in E. injection E as E1 E2.
  f_equal; [apply lower_inj; assumption|apply IH; assumption].
Qed.
Lemma widen radix l : radix <= 16 -> Forall (fun d => 0 <= d < radix) l -> Forall (fun d => 0 <= d < 16) l.
Proof. intros H. apply Forall_impl. intros a Ha. lia. Qed.
Lemma numeral_fun radix t n n' : radix <= 16 -> numeral radix t n -> numeral radix t n' -> n = n'.
Proof.
  intros Hr (ds & -> & _ & H & <-) (ds' & E & _ & H' & <-). f_equal.
  apply lower_map_inj; [eapply widen; eassumption..|assumption].
Qed.
(** the characters of a numeral *)
Lemma lower_range d : 0 <= d < 16 -> 48 <= lower_hex_digit d <= 102.
Proof. unfold lower_hex_digit. intros. destruct (Z.ltb_spec d 10); lia. Qed.
Lemma not_in_lower c l : c < 48 -> Forall (fun d => 0 <= d < 16) l -> ~ In c (map lower_hex_digit l).
Proof.
  intros Hc H I. apply in_map_iff in I as (d & E & I). rewrite Forall_forall in H. pose proof (lower_range d (H d I)). lia.
Qed.
Lemma numeral_not_in c radix t n : c < 48 -> radix <= 16 -> numeral radix t n -> ~ In c t.
Proof. intros Hc Hr (ds & -> & _ & H & _). apply not_in_lower; [assumption|eapply widen; eassumption]. Qed.

(** Cutting at the first occurrence of a character. *)
Lemma cut (c : Z) x y r r' : ~ In c x -> ~ In c y -> x ++ c :: r = y ++ c :: r' -> x = y /\ r = r'.
Proof.
  revert y. induction x as [|a x IH]; intros [|b y] Hx Hy E; cbn [app] in E.
  - injection E as ->. split; reflexivity.
  - injection E as E1 E2. exfalso. apply Hy. left. congruence.
  - injection E as E1 E2. exfalso. apply Hx. left. congruence.
  - injection E as -> E2. destruct (IH y) as [-> ->]; [firstorder..|exact E2|]. split; reflexivity.
Qed.

Lemma same_length_cut (x y r r' : list Z) : length x = length y -> x ++ r = y ++ r' -> x = y /\ r = r'.
Proof.
  revert y. induction x as [|a x IH]; intros [|b y] L E; try discriminate; [auto|].
  cbn in L, E. injection E as -> E. injection L as L. destruct (IH y L E) as [-> ->]. auto.
Qed.

(** * What is written *)
Lemma radix_digits_S radix k n acc : radix_digits radix (S k) n acc =
  if n / radix =? 0 then lower_hex_digit (n mod radix) :: acc else radix_digits radix k (n / radix) (lower_hex_digit (n mod radix) :: acc).
Proof. reflexivity. Qed.
Lemma digits_spec radix k : 2 <= radix <= 16 -> forall n acc, 0 <= n < radix ^ Z.of_nat (S k) ->
  exists ds, radix_digits radix (S k) n acc = map lower_hex_digit ds ++ acc /\ ds <> [] /\ Forall (fun d => 0 <= d < radix) ds /\
    positional radix ds = n /\ (n = 0 /\ ds = [0] \/ n <> 0 /\ hd 0 ds <> 0).
Proof.
  intros Hr. induction k as [|k IH]; intros n acc Hn.
  - change (radix ^ Z.of_nat 1) with (radix ^ 1) in Hn. rewrite Z.pow_1_r in Hn.
    rewrite radix_digits_S. rewrite Z.div_small, Z.mod_small by lia. cbn [Z.eqb].
    exists [n]. split; [reflexivity|]. split; [discriminate|]. split; [constructor; [lia|constructor]|].
    split; [unfold positional; cbn [fold_left]; lia|]. destruct (Z.eq_dec n 0) as [->|H]; [left; auto|right; auto].
  - rewrite radix_digits_S.
    pose proof (Z.mod_pos_bound n radix ltac:(lia)) as Hm. pose proof (Z.div_mod n radix ltac:(lia)) as DM.
    destruct (Z.eqb_spec (n / radix) 0) as [E|E].
    + exists [n mod radix]. split; [reflexivity|]. split; [discriminate|]. split; [constructor; [lia|constructor]|].
      split; [unfold positional; cbn [fold_left]; lia|].
      assert (n mod radix = n) as -> by lia. destruct (Z.eq_dec n 0) as [->|H]; [left; auto|right; auto].
    + assert (Hq : 0 <= n / radix < radix ^ Z.of_nat (S k)).
      { split; [apply Z.div_pos; lia|]. apply Z.div_lt_upper_bound; [lia|].
        rewrite (Nat2Z.inj_succ (S k)), Z.pow_succ_r in Hn by lia. lia. }
      destruct (IH (n / radix) (lower_hex_digit (n mod radix) :: acc) Hq) as (ds & E1 & Hne & Hd & Hp & Hh).
      exists (ds ++ [n mod radix]).
      rewrite E1. split; [rewrite map_app, <- app_assoc; reflexivity|]. split; [destruct ds; discriminate|].
      split; [apply Forall_app; split; [assumption|constructor; [lia|constructor]]|].
      split. { unfold positional in *. rewrite fold_left_app, Hp. cbn [fold_left]. lia. }
      right. split; [intros ->; rewrite Z.div_0_l in E by lia; lia|]. destruct Hh as [[? _]|[_ Hh]]; [contradiction|].
      destruct ds; [contradiction|exact Hh].
Qed.
Lemma lower_48 d : 0 <= d < 16 -> lower_hex_digit d = 48 -> d = 0.
Proof. intros H. change 48 with (lower_hex_digit 0). apply lower_inj; lia. Qed.
Lemma digits_shown radix k n : 2 <= radix <= 16 -> 0 <= n < radix ^ Z.of_nat (S k) ->
  let t := radix_digits radix (S k) n [] in numeral radix t n /\ no_leading_zero t.
Proof.
  intros Hr H. cbv zeta. destruct (digits_spec radix k Hr n [] H) as (ds & E & Hne & Hd & Hp & Hh).
  rewrite E, app_nil_r. split; [exists ds; auto|].
  intros H0. destruct Hh as [[_ ->]|[_ Hh]]; [reflexivity|]. destruct ds as [|d ds]; [contradiction|].
  apply (widen radix) in Hd; [|lia]. inversion Hd; subst. exfalso. apply Hh. apply lower_48; assumption.
Qed.
Lemma lower_hex_word n : 0 <= n < 2 ^ 64 -> numeral 16 (fmt_lower_hex n) n /\ no_leading_zero (fmt_lower_hex n).
Proof. intros H. apply (digits_shown 16 15); [lia|exact H]. Qed.
Lemma fmt_u8_spec n : 0 <= n < 256 -> numeral 10 (fmt_u8 n) n /\ no_leading_zero (fmt_u8 n).
Proof. intros H. apply (digits_shown 10 2); [lia|]. change (10 ^ Z.of_nat 3) with 1000. lia. Qed.

(** ** A number has one text *)
Lemma positional_bounds radix ds : 2 <= radix -> Forall (fun d => 0 <= d < radix) ds ->
  hd 0 ds * radix ^ (Z.of_nat (length ds) - 1) <= positional radix ds < radix ^ Z.of_nat (length ds).
Proof.
  intros Hr H. induction H as [|d ds Hd H IH]; [cbn; lia|]. rewrite positional_cons. cbn [hd length].
  rewrite Nat2Z.inj_succ, Z.pow_succ_r, <- Z.add_1_r, Z.add_simpl_r by lia.
  assert (0 <= positional radix ds).
  { destruct ds as [|e ds]; [cbn; lia|]. inversion H; subst. etransitivity; [|apply IH]. cbn [hd]. apply Z.mul_nonneg_nonneg; [lia|apply Z.pow_nonneg; lia]. }
  nia.
Qed.
Lemma positional_same_length radix ds es : 2 <= radix -> Forall (fun d => 0 <= d < radix) ds -> Forall (fun d => 0 <= d < radix) es ->
  length ds = length es -> positional radix ds = positional radix es -> ds = es.
Proof.
  intros Hr H. revert es. induction H as [|d ds Hd H IH]; intros [|e es] H' L E; try discriminate; [reflexivity|].
  inversion H' as [|? ? He H'']; subst. injection L as L. rewrite !positional_cons, L in E.
  pose proof (positional_bounds radix ds Hr H) as [B1 B2]. pose proof (positional_bounds radix es Hr H'') as [C1 C2]. rewrite L in B2.
  assert (P : forall l, Forall (fun d => 0 <= d < radix) l -> 0 <= positional radix l).
  { intros l Hl. destruct l as [|a l]; [cbn; lia|]. pose proof (positional_bounds radix (a :: l) Hr Hl) as [B _]. inversion Hl; subst.
    etransitivity; [|exact B]. cbn [hd]. apply Z.mul_nonneg_nonneg; [lia|apply Z.pow_nonneg; lia]. }
  pose proof (P _ H). pose proof (P _ H''). assert (d = e) by nia. subst. f_equal. apply IH; [assumption..|lia].
Qed.
Lemma numeral_unique radix n t u : 2 <= radix <= 16 -> numeral radix t n -> numeral radix u n -> no_leading_zero t -> no_leading_zero u -> t = u.
Proof.
  intros Hr (ds & -> & Nd & Hd & E) (es & -> & Ne & He & E') Zd Ze. f_equal.
  assert (Q : forall l, l <> [] -> Forall (fun d => 0 <= d < radix) l -> no_leading_zero (map lower_hex_digit l) ->
    length l = 1%nat \/ radix ^ (Z.of_nat (length l) - 1) <= positional radix l).
  { intros l Nl Hl Zl. pose proof (positional_bounds radix l ltac:(lia) Hl) as [B _]. destruct l as [|a l]; [contradiction|]. cbn [hd] in B.
    destruct (Z.eq_dec a 0) as [->|Ha].
    - left. specialize (Zl eq_refl). destruct l; [reflexivity|discriminate].
    - right. inversion Hl; subst. pose proof (Z.pow_pos_nonneg radix (Z.of_nat (length (a :: l)) - 1) ltac:(lia) ltac:(cbn [length]; lia)). nia. }
  apply (positional_same_length radix); [lia|assumption..| |congruence].
  pose proof (positional_bounds radix ds ltac:(lia) Hd) as [_ B]. pose proof (positional_bounds radix es ltac:(lia) He) as [_ C].
  assert (L : forall l : list Z, l <> [] -> (1 <= length l)%nat) by (intros [|] ?; [contradiction|cbn; lia]).
  pose proof (L ds Nd). pose proof (L es Ne).
  destruct (Nat.lt_trichotomy (length ds) (length es)) as [Lt|[Eq|Lt]]; [exfalso|exact Eq|exfalso].
  - destruct (Q es Ne He Ze) as [?|G]; [lia|].
    assert (radix ^ Z.of_nat (length ds) <= radix ^ (Z.of_nat (length es) - 1)) by (apply Z.pow_le_mono_r; lia). lia.
  - destruct (Q ds Nd Hd Zd) as [?|G]; [lia|].
    assert (radix ^ Z.of_nat (length es) <= radix ^ (Z.of_nat (length ds) - 1)) by (apply Z.pow_le_mono_r; lia). lia.
Qed.
Lemma even_numeral_unique n t u : numeral 16 t n -> numeral 16 u n -> Nat.even (length t) = true -> Nat.even (length u) = true ->
  (firstn 2 t = [48; 48] -> t = [48; 48]) -> (firstn 2 u = [48; 48] -> u = [48; 48]) -> t = u.
Proof.
  intros (ds & -> & Nd & Hd & E) (es & -> & Ne & He & E') Ld Le Zd Ze. rewrite map_length in Ld, Le. f_equal.
  assert (Q : forall l, l <> [] -> Forall (fun d => 0 <= d < 16) l -> Nat.even (length l) = true ->
    (firstn 2 (map lower_hex_digit l) = [48; 48] -> map lower_hex_digit l = [48; 48]) ->
    (2 <= length l)%nat /\ (length l = 2%nat \/ 16 ^ (Z.of_nat (length l) - 2) <= positional 16 l)).
  { intros [|a [|b l]] Nl Hl El Zl; [contradiction|discriminate|]. split; [cbn; lia|].
    inversion Hl as [|? ? Ha Hl']; subst. inversion Hl' as [|? ? Hb Hl'']; subst. rewrite !positional_cons. cbn [length].
    assert (0 <= positional 16 l).
    { pose proof (positional_bounds 16 l ltac:(lia) Hl'') as [B _]. destruct l as [|c l]; [cbn; lia|]. inversion Hl''; subst.
      etransitivity; [|exact B]. cbn [hd]. apply Z.mul_nonneg_nonneg; [lia|apply Z.pow_nonneg; lia]. }
    replace (Z.of_nat (S (S (length l))) - 2) with (Z.of_nat (length l)) by lia.
    rewrite Nat2Z.inj_succ, Z.pow_succ_r by lia. pose proof (Z.pow_pos_nonneg 16 (Z.of_nat (length l)) ltac:(lia) ltac:(lia)).
    destruct (Z.eq_dec a 0) as [->|Na]; [|right; nia]. destruct (Z.eq_dec b 0) as [->|Nb]; [|right; nia].
    left. specialize (Zl eq_refl). destruct l; [reflexivity|discriminate]. }
  destruct (Q ds Nd Hd Ld Zd) as [L2 G]. destruct (Q es Ne He Le Ze) as [L2' G'].
  pose proof (positional_bounds 16 ds ltac:(lia) Hd) as [_ B]. pose proof (positional_bounds 16 es ltac:(lia) He) as [_ C].
  apply Nat.even_spec in Ld as [i Ei]. apply Nat.even_spec in Le as [j Ej].
  apply (positional_same_length 16); [lia|assumption..| |congruence].
  destruct (Nat.lt_trichotomy (length ds) (length es)) as [Lt|[Eq|Lt]]; [exfalso|exact Eq|exfalso].
  - destruct G' as [?|G']; [lia|]. assert (16 ^ Z.of_nat (length ds) <= 16 ^ (Z.of_nat (length es) - 2)) by (apply Z.pow_le_mono_r; lia). lia.
  - destruct G as [?|G]; [lia|]. assert (16 ^ Z.of_nat (length es) <= 16 ^ (Z.of_nat (length ds) - 2)) by (apply Z.pow_le_mono_r; lia). lia.
Qed.
Lemma shows_unique v t u : shows v t -> shows v u -> t = u.
Proof.
  destruct v as [n|n|bs|a|l|n|y]; cbn [shows].
  - intros (h & -> & N & Z1) (h' & -> & N' & Z2). f_equal. eapply (numeral_unique 16); eauto. lia.
  - intros (h & -> & N & L1 & Z1) (h' & -> & N' & L2 & Z2). f_equal. eapply even_numeral_unique; eauto.
  - intros -> ->. reflexivity.
  - intros -> ->. reflexivity.
  - intros -> ->. reflexivity.
  - intros (h & d & -> & N1 & N2 & Z1 & Z2) (h' & d' & -> & M1 & M2 & Y1 & Y2).
    rewrite (numeral_unique 16 n h h'), (numeral_unique 10 n d d') by (assumption || lia). reflexivity.
  - intros -> ->. reflexivity.
Qed.
Lemma fields_unique fs t u : shows_fields fs t -> shows_fields fs u -> t = u.
Proof.
  revert t u. induction fs as [|[a v] fs IH]; intros t u; cbn [shows_fields]; [congruence|].
  intros (x & r & -> & S & F) (x' & r' & -> & S' & F'). rewrite (shows_unique v x x' S S'), (IH r r' F F'). reflexivity.
Qed.
Lemma hex_is bs : bytes bs -> bytes_to_lower_hex bs = hex bs.
Proof. exact (lower_hex bs). Qed.

Section WithCfg.
Context {cfg : digit_cfg}.

Lemma big_text x : wf x -> 0 <= bi_val x -> exists h, bu_to_lower_hex x = Ret h /\ shows (Big (bi_val x)) (48 :: 120 :: h).
Proof.
  intros W N. destruct (bi_to_lower_hex_spec x W) as (bs & Hb & Hh & Hv & E).
  destruct (Z.ltb_spec (bi_val x) 0); [lia|]. rewrite Z.abs_eq in Hv by assumption. cbn [app] in E.
  rewrite bytes_to_lower_hex_spec in E by assumption.
  exists (map lower_hex_digit (nibbles bs)). split; [exact E|]. exists (map lower_hex_digit (nibbles bs)).
  split; [reflexivity|]. split; [|split].
  - exists (nibbles bs). split; [reflexivity|]. split; [|split; [apply nibbles_range; assumption|rewrite nibbles_positional; assumption]].
    destruct Hh as [->|[Hh _]]; [discriminate|]. destruct bs; [contradiction|discriminate].
  - rewrite map_length, nibbles_length. apply even_double.
  - intros F. destruct Hh as [->|[Hne Hh]]; [reflexivity|]. exfalso. apply Hh. destruct bs as [|b bs]; [contradiction|].
    cbn [nibbles map firstn] in F. injection F as F1 F2. inversion Hb as [|? ? Hbb _]; subst. unfold byte in Hbb.
    apply lower_48 in F1; [|split; [apply Z.div_pos; lia|apply Z.div_lt_upper_bound; lia]].
    apply lower_48 in F2; [|apply Z.mod_pos_bound; lia]. cbn [hd]. rewrite (Z.div_mod b 16) by lia. lia.
Qed.
Lemma big_display x : big_ok x -> exists t, bu_display x = Ret t /\ shows (Big (bi_val x)) t.
Proof. intros [W N]. destruct (big_text x W N) as (h & E & H). exists (48 :: 120 :: h). unfold bu_display, bi_display. change (bi_to_lower_hex x) with (bu_to_lower_hex x). rewrite E. auto. Qed.
Lemma wei_display_shows x : big_ok x -> exists t, wei_display x = Ret t /\ shows (Big (bi_val x)) t.
Proof. intros [W N]. destruct (big_text x W N) as (h & E & H). exists (48 :: 120 :: h). unfold wei_display. rewrite E. auto. Qed.

Lemma keys_text ks : Forall (fun k => bytes k /\ length k = 32%nat) ks ->
  flat_map (fun k => line (txt "    " ++ storage_key_display k ++ txt ",")) ks =
  flat_map (fun k => ascii "    0x" ++ hex k ++ ascii "," ++ newline) ks.
Proof.
  induction 1 as [|k ks [Hk _] H IH]; [reflexivity|]. cbn [flat_map]. rewrite IH. f_equal.
  unfold line, storage_key_display. rewrite hex_is by assumption.
  change (txt "    " ++ (48 :: 120 :: hex k) ++ txt ",") with (ascii "    0x" ++ hex k ++ ascii ",").
  rewrite <- !app_assoc. reflexivity.
Qed.
Definition item_text (i : AccessListItem) : list Z :=
  ascii "  0x" ++ EIP55 (ali_address i) ++ ascii ": " ++ newline ++
  ascii "  [" ++ newline ++
  flat_map (fun k => ascii "    0x" ++ hex k ++ ascii "," ++ newline) (ali_storage_keys i) ++
  ascii "  ]" ++ newline ++ newline.
Definition ali_ok (i : AccessListItem) : Prop :=
  (bytes (ali_address i) /\ length (ali_address i) = 20%nat) /\ Forall (fun k => bytes k /\ length k = 32%nat) (ali_storage_keys i).
Lemma items_text be l acc : Forall ali_ok l -> access_list_items_display be l acc = Ret (acc ++ flat_map item_text l).
Proof.
  intros H. revert acc. induction H as [|i l [Ha Hk] H IH]; intros acc.
  - cbn [access_list_items_display flat_map]. rewrite app_nil_r. reflexivity.
  - cbn [access_list_items_display flat_map]. unfold access_list_item_display at 1.
    rewrite (address_display_spec be _ Ha). cbn [obind]. rewrite (keys_text _ Hk), IH. f_equal.
    rewrite <- app_assoc. f_equal. f_equal. unfold item_text, line.
    unfold newline. rewrite <- !app_assoc. cbn [txt ascii map list_ascii_of_string app].
    rewrite <- ?app_assoc. reflexivity.
Qed.
Lemma access_display be l : Forall ali_ok l -> access_list_display be l = Ret (access_text l).
Proof.
  intros H. unfold access_list_display. rewrite (items_text be l _ H). cbn [obind].
  unfold access_text, line, newline. rewrite <- ?app_assoc. reflexivity.
Qed.

(** * Reading it *)
Definition val_ok (v : shown) : Prop :=
  match v with
  | Data bs => bytes bs
  | Addr a => address_ok a
  | Access l => Forall ali_ok l
  | _ => True
  end.
Definition val_kind (v : shown) : Z :=
  match v with Word _ => 0 | Big _ => 1 | Data _ => 2 | Addr _ => 3 | Access _ => 4 | VByte _ => 5 | Parity _ => 6 end.

Lemma eip55_inj a b : address_ok a -> address_ok b -> EIP55 a = EIP55 b -> a = b.
Proof.
  intros Ha Hb E. destruct (address_text_roundtrip false a Ha) as (t & Ht & Ra).
  destruct (address_text_roundtrip false b Hb) as (u & Hu & Rb).
  rewrite (address_display_spec false a Ha) in Ht. rewrite (address_display_spec false b Hb) in Hu.
  injection Ht as <-. injection Hu as <-. rewrite E in Ra. congruence.
Qed.
Lemma hex_inj a b : bytes a -> bytes b -> hex a = hex b -> a = b.
Proof.
  intros Ha Hb E. pose proof (hex_roundtrip a Ha) as Ra. pose proof (hex_roundtrip b Hb) as Rb.
  rewrite hex_is in Ra, Rb by assumption. rewrite E in Ra. congruence.
Qed.
Lemma hex_not_in c bs : c < 48 -> bytes bs -> ~ In c (hex bs).
Proof. intros Hc H. rewrite <- hex_is, bytes_to_lower_hex_spec by assumption. apply not_in_lower; [assumption|apply nibbles_range; assumption]. Qed.
Lemma eip55_not_in c a : c < 48 -> address_ok a -> ~ In c (EIP55 a).
Proof.
  intros Hc Ha. destruct (EIP55_digits a Ha) as [D _]. unfold digits_of in D.
  induction D as [|x y l m [Hx _] D IH]; [intros []|]. intros [->|I]; [|exact (IH I)].
  unfold alnum_value in Hx. destruct (Z.leb_spec 48 c); [lia|]. destruct (Z.leb_spec 65 c); [lia|]. destruct (Z.leb_spec 97 c); [lia|]. discriminate.
Qed.

(** an access list, followed by anything *)
Lemma keys_cut ks ks' r r' : Forall (fun k => bytes k /\ length k = 32%nat) ks -> Forall (fun k => bytes k /\ length k = 32%nat) ks' ->
  let text := flat_map (fun k => ascii "    0x" ++ hex k ++ ascii "," ++ newline) in
  text ks ++ ascii "  ]" ++ r = text ks' ++ ascii "  ]" ++ r' -> ks = ks' /\ r = r'.
Proof.
  intros H. cbv zeta. revert ks'. induction H as [|k ks [Hk _] H IH]; intros [|k' ks'] H' E.
  - split; [reflexivity|]. cbn [flat_map app] in E. apply app_inv_head in E. exact E.
  - discriminate E.
  - discriminate E.
  - inversion H' as [|? ? [Hk' _] H'']; subst. cbn [flat_map] in E. rewrite <- !app_assoc in E.
    apply app_inv_head in E. change (ascii "," ++ ?x) with (44 :: x) in E.
    apply cut in E; [|apply hex_not_in; [lia|assumption]..]. destruct E as [E1 E2].
    apply app_inv_head in E2. destruct (IH ks' H'' E2) as [-> ->]. apply hex_inj in E1; [|assumption..]. subst. split; reflexivity.
Qed.
Lemma items_cut l l' r r' : Forall ali_ok l -> Forall ali_ok l' ->
  flat_map item_text l ++ ascii "]" ++ r = flat_map item_text l' ++ ascii "]" ++ r' -> l = l' /\ r = r'.
Proof.
  intros H. revert l'. induction H as [|i l [Ha Hk] H IH]; intros [|i' l'] H' E.
  - split; [reflexivity|]. cbn [flat_map app] in E. apply app_inv_head in E. exact E.
  - discriminate E.
  - discriminate E.
  - inversion H' as [|? ? [Ha' Hk'] H'']; subst. cbn [flat_map] in E. unfold item_text at 1 3 in E. rewrite <- !app_assoc in E.
    apply app_inv_head in E. apply same_length_cut in E; [|rewrite (proj2 (EIP55_digits _ Ha)), (proj2 (EIP55_digits _ Ha')); reflexivity].
    destruct E as [E1 E]. apply eip55_inj in E1; [|assumption..]. apply app_inv_head in E.
    do 3 apply app_inv_head in E. apply keys_cut in E as [E2 E]; [|assumption..].
    do 2 apply app_inv_head in E. destruct (IH l' H'' E) as [-> ->]. split; [|reflexivity]. f_equal.
    destruct i, i'. cbn in *. congruence.
Qed.
Lemma access_cut l l' r r' : Forall ali_ok l -> Forall ali_ok l' -> access_text l ++ r = access_text l' ++ r' -> l = l' /\ r = r'.
Proof.
  intros H H' E. unfold access_text in E. rewrite <- !app_assoc in E. do 2 apply app_inv_head in E.
  apply items_cut; assumption.
Qed.

Lemma in_app3 (c : Z) x y : ~ In c x -> ~ In c y -> ~ In c (x ++ y).
Proof. intros H K I. apply in_app_or in I. tauto. Qed.
Lemma shows_no_newline v t : val_ok v -> val_kind v <> 4 -> shows v t -> ~ In 10 t.
Proof.
  intros Hv Hk H. destruct v as [n|n|bs|a|l|n|y]; cbn [shows val_ok val_kind] in *; [| | | |congruence| |].
  - destruct H as (h & -> & Hn & _). apply in_app3; [cbn; lia|]. eapply numeral_not_in; [| |exact Hn]; lia.
  - destruct H as (h & -> & Hn & _). apply in_app3; [cbn; lia|]. eapply numeral_not_in; [| |exact Hn]; lia.
  - subst. apply in_app3; [cbn; lia|]. apply hex_not_in; [lia|assumption].
  - subst. apply in_app3; [cbn; lia|]. apply eip55_not_in; [lia|assumption].
  - destruct H as (h & d & -> & Hn & Hd & _). apply in_app3; [cbn; lia|]. apply in_app3; [eapply numeral_not_in; [| |exact Hn]; lia|].
    apply in_app3; [cbn; lia|]. apply in_app3; [eapply numeral_not_in; [| |exact Hd]; lia|cbn; lia].
  - destruct y; subst; cbn; lia.
Qed.
Lemma shows_inj v v' t : val_ok v -> val_ok v' -> val_kind v = val_kind v' -> shows v t -> shows v' t -> v = v'.
Proof.
  intros Hv Hv' Hk H H'.
  destruct v as [n|n|bs|a|l|n|y], v' as [n'|n'|bs'|a'|l'|n'|y']; cbn [val_kind] in Hk; try discriminate; clear Hk; cbn [shows val_ok] in *.
  - destruct H as (h & -> & Hn & _), H' as (h' & E & Hn' & _). apply app_inv_head in E. subst.
    f_equal. eapply (numeral_fun 16); [lia|exact Hn|exact Hn'].
  - destruct H as (h & -> & Hn & _), H' as (h' & E & Hn' & _). apply app_inv_head in E. subst.
    f_equal. eapply (numeral_fun 16); [lia|exact Hn|exact Hn'].
  - subst. apply app_inv_head in H'. f_equal. apply hex_inj; assumption.
  - subst. apply app_inv_head in H'. f_equal. apply eip55_inj; assumption.
  - subst. f_equal. apply (access_cut l l' [] []); [assumption..|]. rewrite !app_nil_r. assumption.
  - destruct H as (h & d & -> & Hn & Hd & _), H' as (h' & d' & E & Hn' & Hd' & _). apply app_inv_head in E.
    change (ascii " (" ++ ?x) with (32 :: 40 :: x) in E.
    apply cut in E as [E _]; [|eapply numeral_not_in; [| |eassumption]; lia..]. subst.
    f_equal. eapply (numeral_fun 16); [lia|exact Hn|exact Hn'].
  - subst. destruct y, y'; try discriminate; reflexivity.
Qed.
Lemma value_cut v v' t t' r r' : val_ok v -> val_ok v' -> val_kind v = val_kind v' -> shows v t -> shows v' t' ->
  t ++ newline ++ r = t' ++ newline ++ r' -> v = v' /\ r = r'.
Proof.
  intros Hv Hv' Hk H H' E. destruct (Z.eq_dec (val_kind v) 4) as [K|K].
  - destruct v, v'; try discriminate. cbn [shows val_ok] in *. subst. apply access_cut in E as [-> E]; [|assumption..].
    apply app_inv_head in E. auto.
  - pose proof (shows_no_newline v t Hv K H) as N. pose proof (shows_no_newline v' t' Hv' ltac:(congruence) H') as N'.
    change (newline ++ ?x) with (10 :: x) in E. apply cut in E as [-> ->]; [|assumption..]. split; [|reflexivity].
    eapply shows_inj; eassumption.
Qed.
Lemma fields_cut fs gs t u r r' : Forall (fun f => val_ok (snd f)) fs -> Forall (fun f => val_ok (snd f)) gs ->
  map (fun f => (fst f, val_kind (snd f))) fs = map (fun f => (fst f, val_kind (snd f))) gs ->
  shows_fields fs t -> shows_fields gs u -> t ++ r = u ++ r' -> fs = gs /\ r = r'.
Proof.
  intros H. revert gs t u. induction H as [|[a v] fs Hv H IH]; intros [|[b w] gs] t u H' E S S' T; try discriminate.
  - cbn in S, S'. subst. auto.
  - inversion H' as [|? ? Hw H'']; subst. cbn [map fst snd] in *. injection E as -> Ek E.
    cbn [shows_fields] in S, S'. destruct S as (x & rest & -> & Sv & S), S' as (x' & rest' & -> & Sw & S').
    rewrite <- !app_assoc in T. do 2 apply app_inv_head in T. destruct (value_cut v w x x' _ _ Hv Hw Ek Sv Sw T) as [-> T'].
    destruct (IH _ _ _ H'' E S S' T') as [-> ->]. auto.
Qed.

(** * Payloads *)
Lemma fields_ok p : payload_ok p -> Forall (fun f => val_ok (snd f)) (fields_of p).
Proof.
  destruct p as [p|p|p|p]; cbn [payload_ok fields_of];
    unfold payload_ok_legacy, payload_ok_155, payload_ok_2930, payload_ok_1559; intros H; decompose [and] H; clear H;
    repeat (apply Forall_cons; [first [exact I|assumption|split; assumption]|]); apply Forall_nil.
Qed.
Lemma same_big x y : big_ok y -> bi_val x = bi_val y -> same_int x y.
Proof. intros [W _] E. split; assumption. Qed.
Lemma fields_same p q : payload_ok q -> map fst (fields_of p) = map fst (fields_of q) -> fields_of p = fields_of q -> payload_same p q.
Proof.
  intros H K E. destruct p as [p|p|p|p], q as [q|q|q|q]; try discriminate K; clear K; cbn [fields_of] in E; injection E; clear E;
    cbn [payload_ok payload_same] in *; unfold payload_ok_legacy, payload_ok_155, payload_ok_2930, payload_ok_1559 in H;
    unfold payload_same_legacy, payload_same_but_chain_155, payload_same_2930, payload_same_1559; intros;
    repeat match goal with H : _ /\ _ |- _ => destruct H end;
    repeat match goal with |- _ /\ _ => split end; first [assumption|apply same_big; assumption].
Qed.

(** one line more *)
Lemma write_field_shows label v m f : (exists t, m = Ret t /\ shows v t) ->
  exists x, shows v x /\ write_field (label ++ ": ") m f = Ret (f ++ ascii label ++ ascii ": " ++ x ++ newline).
Proof.
  intros (t & -> & H). exists t. split; [assumption|]. unfold write_field. cbn [obind]. f_equal. f_equal. unfold line.
  assert (txt (label ++ ": ") = ascii label ++ ascii ": ") as ->.
  { unfold txt, ascii. rewrite <- map_app. f_equal. induction label as [|c label IH]; [reflexivity|]. cbn. f_equal. exact IH. }
  rewrite <- !app_assoc. reflexivity.
Qed.
(** ... whose value is written without its "0x" *)
Lemma write_field_shows_0x label v h f : shows v (txt "0x" ++ h) ->
  exists x, shows v x /\ write_field (label ++ ": 0x") (Ret h) f = Ret (f ++ ascii label ++ ascii ": " ++ x ++ newline).
Proof.
  intros H. exists (txt "0x" ++ h). split; [assumption|]. unfold write_field. cbn [obind]. f_equal. f_equal. unfold line.
  assert (txt (label ++ ": 0x") = ascii label ++ ascii ": " ++ txt "0x") as ->.
  { unfold txt, ascii. rewrite <- !map_app. f_equal. induction label as [|c label IH]; [reflexivity|]. cbn. f_equal. exact IH. }
  rewrite <- !app_assoc. reflexivity.
Qed.
Lemma write_nonce label n f : nonce_ok n ->
  exists x, shows (Word n) x /\ write_field (label ++ ": ") (Ret (nonce_display n)) f = Ret (f ++ ascii label ++ ascii ": " ++ x ++ newline).
Proof.
  intros H. apply write_field_shows. eexists. split; [reflexivity|]. exists (fmt_lower_hex n). split; [reflexivity|].
  apply lower_hex_word. unfold nonce_ok in H. lia.
Qed.
Lemma write_u64 label n f : u64_ok n ->
  exists x, shows (Word n) x /\ write_field (label ++ ": 0x") (Ret (fmt_lower_hex n)) f = Ret (f ++ ascii label ++ ascii ": " ++ x ++ newline).
Proof.
  intros H. apply write_field_shows_0x. exists (fmt_lower_hex n). split; [reflexivity|]. apply lower_hex_word. exact H.
Qed.
Lemma write_wei label w f : big_ok w ->
  exists x, shows (Big (bi_val w)) x /\ write_field (label ++ ": ") (wei_display w) f = Ret (f ++ ascii label ++ ascii ": " ++ x ++ newline).
Proof. intros H. apply write_field_shows. apply wei_display_shows. assumption. Qed.
Lemma write_big label w f : big_ok w ->
  exists x, shows (Big (bi_val w)) x /\ write_field (label ++ ": ") (bu_display w) f = Ret (f ++ ascii label ++ ascii ": " ++ x ++ newline).
Proof. intros H. apply write_field_shows. apply big_display. assumption. Qed.
Lemma write_address label be a f : address_ok a ->
  exists x, shows (Addr a) x /\ write_field (label ++ ": ") (address_display be a) f = Ret (f ++ ascii label ++ ascii ": " ++ x ++ newline).
Proof. intros H. apply write_field_shows. eexists. split; [apply address_display_spec; assumption|]. reflexivity. Qed.
Lemma write_data label bs f : bytes bs ->
  exists x, shows (Data bs) x /\ write_field (label ++ ": 0x") (Ret (bytes_to_lower_hex bs)) f = Ret (f ++ ascii label ++ ascii ": " ++ x ++ newline).
Proof. intros H. apply write_field_shows_0x. cbn [shows]. rewrite hex_is by assumption. reflexivity. Qed.
Lemma write_access label be l f : ok TAccessList l ->
  exists x, shows (Access l) x /\ write_field (label ++ ": ") (access_list_display be l) f = Ret (f ++ ascii label ++ ascii ": " ++ x ++ newline).
Proof. intros H. apply write_field_shows. eexists. split; [apply access_display; exact H|]. reflexivity. Qed.

Lemma fields_nil : shows_fields [] [].
Proof. reflexivity. Qed.
Lemma fields_snoc fs t label v x : shows_fields fs t -> shows v x ->
  shows_fields (fs ++ [(label, v)]) (t ++ ascii label ++ ascii ": " ++ x ++ newline).
Proof.
  revert t. induction fs as [|[a w] fs IH]; intros t H Hv.
  - cbn in H. subst. cbn [app shows_fields]. exists x, []. rewrite app_nil_r. auto.
  - cbn [shows_fields] in H. destruct H as (y & rest & -> & Hw & H). cbn [app shows_fields].
    exists y, (rest ++ ascii label ++ ascii ": " ++ x ++ newline). rewrite <- !app_assoc. auto.
Qed.
(** the next line of a text *)
Ltac wr F lab H :=
  match type of F with shows_fields _ ?f =>
    let x := fresh "x" in let S := fresh "S" in let E := fresh "E" in
    destruct (H f) as (x & S & E); cbn [String.append] in E; rewrite E; clear E; cbn [obind];
    apply (fun F => fields_snoc _ _ lab _ x F S) in F; clear S
  end;
  match type of F with shows_fields _ ?t => generalize dependent t; intros ? F end.
Lemma legacy_shows be p : payload_ok (PLegacy p) -> exists t, payload_legacy_display be p = Ret t /\ shows_fields (fields_of (PLegacy p)) t.
Proof.
  intros (H1 & H2 & H3 & H4 & H5 & H6). unfold payload_legacy_display. pose proof fields_nil as F.
  wr F "nonce"%string (fun f => write_nonce "nonce" _ f H1).
  wr F "gas_price"%string (fun f => write_wei "gas_price" _ f H2).
  wr F "gas_limit"%string (fun f => write_u64 "gas_limit" _ f H3).
  wr F "destination"%string (fun f => write_address "destination" be _ f H4).
  wr F "amount"%string (fun f => write_wei "amount" _ f H5).
  wr F "data"%string (fun f => write_data "data" _ f H6).
  eexists. split; [reflexivity|exact F].
Qed.
Lemma eip155_shows be p : payload_ok (P155 p) -> exists t, payload_155_display be p = Ret t /\ shows_fields (fields_of (P155 p)) t.
Proof.
  intros (H1 & H2 & H3 & H4 & H5 & H6 & H7). unfold payload_155_display, chain_id_display. pose proof fields_nil as F.
  wr F "chain_id"%string (fun f => write_big "chain_id" _ f H1).
  wr F "nonce"%string (fun f => write_nonce "nonce" _ f H2).
  wr F "gas_price"%string (fun f => write_wei "gas_price" _ f H3).
  wr F "gas_limit"%string (fun f => write_u64 "gas_limit" _ f H4).
  wr F "destination"%string (fun f => write_address "destination" be _ f H5).
  wr F "amount"%string (fun f => write_wei "amount" _ f H6).
  wr F "data"%string (fun f => write_data "data" _ f H7).
  eexists. split; [reflexivity|exact F].
Qed.
Lemma eip2930_shows be p : payload_ok (P2930 p) -> exists t, payload_2930_display be p = Ret t /\ shows_fields (fields_of (P2930 p)) t.
Proof.
  intros (H1 & H2 & H3 & H4 & H5 & H6 & H7 & H8). unfold payload_2930_display, chain_id_display. pose proof fields_nil as F.
  wr F "chain_id"%string (fun f => write_big "chain_id" _ f H1).
  wr F "nonce"%string (fun f => write_nonce "nonce" _ f H2).
  wr F "gas_price"%string (fun f => write_wei "gas_price" _ f H3).
  wr F "gas_limit"%string (fun f => write_u64 "gas_limit" _ f H4).
  wr F "destination"%string (fun f => write_address "destination" be _ f H5).
  wr F "amount"%string (fun f => write_wei "amount" _ f H6).
  wr F "data"%string (fun f => write_data "data" _ f H7).
  wr F "access_list"%string (fun f => write_access "access_list" be _ f H8).
  eexists. split; [reflexivity|exact F].
Qed.
Lemma eip1559_shows be p : payload_ok (P1559 p) -> exists t, payload_1559_display be p = Ret t /\ shows_fields (fields_of (P1559 p)) t.
Proof.
  intros (H1 & H2 & H3 & H4 & H5 & H6 & H7 & H8 & H9). unfold payload_1559_display, chain_id_display. pose proof fields_nil as F.
  wr F "chain_id"%string (fun f => write_big "chain_id" _ f H1).
  wr F "nonce"%string (fun f => write_nonce "nonce" _ f H2).
  wr F "max_priority_fee_per_gas"%string (fun f => write_wei "max_priority_fee_per_gas" _ f H3).
  wr F "max_fee_per_gas"%string (fun f => write_wei "max_fee_per_gas" _ f H4).
  wr F "gas_limit"%string (fun f => write_u64 "gas_limit" _ f H5).
  wr F "destination"%string (fun f => write_address "destination" be _ f H6).
  wr F "amount"%string (fun f => write_wei "amount" _ f H7).
  wr F "data"%string (fun f => write_data "data" _ f H8).
  wr F "access_list"%string (fun f => write_access "access_list" be _ f H9).
  eexists. split; [reflexivity|exact F].
Qed.

Theorem payload_shows be p : payload_ok p -> exists t, payload_display be p = Ret t /\ shows_fields (fields_of p) t.
Proof. destruct p as [p|p|p|p]; [apply legacy_shows|apply eip155_shows|apply eip2930_shows|apply eip1559_shows]. Qed.

(** * Transactions *)
Lemma write_app label m f g : write_field label m (f ++ g) = (x <- write_field label m g ;; Ret (f ++ x)).
Proof. unfold write_field. destruct m; cbn [obind]; [|reflexivity..]. rewrite <- app_assoc. reflexivity. Qed.
Lemma write_v n f : 0 <= n < 256 ->
  exists x, shows (VByte n) x /\ write_field "v: 0x" (Ret (fmt_lower_hex n ++ txt " (" ++ fmt_u8 n ++ txt ")")) f = Ret (f ++ ascii "v" ++ ascii ": " ++ x ++ newline).
Proof.
  intros H. apply (write_field_shows_0x "v"). exists (fmt_lower_hex n), (fmt_u8 n). split; [reflexivity|].
  destruct (lower_hex_word n ltac:(lia)), (fmt_u8_spec n H). auto.
Qed.
Lemma write_parity y f :
  exists x, shows (Parity y) x /\ write_field "y_parity: " (Ret (y_parity_display y)) f = Ret (f ++ ascii "y_parity" ++ ascii ": " ++ x ++ newline).
Proof. apply (write_field_shows "y_parity"). eexists. split; [reflexivity|]. destruct y; reflexivity. Qed.
(** the lines of the signature, after anything *)
Definition sig_lines (v : list Z -> outcome (list Z)) (r s : bigint) (f : list Z) : outcome (list Z) :=
  f <- v f ;; f <- write_field "r: " (bu_display r) f ;; write_field "s: " (bu_display s) f.
Lemma sig_shows label val v r s f : big_ok r -> big_ok s ->
  (forall f, exists x, shows val x /\ v f = Ret (f ++ ascii label ++ ascii ": " ++ x ++ newline)) ->
  exists st, shows_fields [(label, val); ("r"%string, Big (bi_val r)); ("s"%string, Big (bi_val s))] st /\ sig_lines v r s f = Ret (f ++ st).
Proof.
  intros Hr Hs Hv. unfold sig_lines. destruct (Hv f) as (x & S & E). rewrite E. cbn [obind].
  destruct (write_big "r" r (f ++ ascii label ++ ascii ": " ++ x ++ newline) Hr) as (y & S' & E'). cbn [String.append] in E'. rewrite E'. cbn [obind].
  destruct (write_big "s" s ((f ++ ascii label ++ ascii ": " ++ x ++ newline) ++ ascii "r" ++ ascii ": " ++ y ++ newline) Hs) as (z & S'' & E'').
  cbn [String.append] in E''. rewrite E''.
  exists (ascii label ++ ascii ": " ++ x ++ newline ++ ascii "r" ++ ascii ": " ++ y ++ newline ++ ascii "s" ++ ascii ": " ++ z ++ newline ++ []).
  split; [|rewrite <- !app_assoc, app_nil_r; reflexivity].
  exists x, (ascii "r" ++ ascii ": " ++ y ++ newline ++ ascii "s" ++ ascii ": " ++ z ++ newline ++ []). split; [reflexivity|]. split; [assumption|].
  exists y, (ascii "s" ++ ascii ": " ++ z ++ newline ++ []). split; [reflexivity|]. split; [assumption|].
  exists z, []. split; [reflexivity|]. split; [assumption|]. reflexivity.
Qed.
Lemma tx_display_is be t : transaction_display be t =
  (pt <- payload_display be (tx_payload t) ;;
   sig_lines
     (match t with
      | TLegacy t => write_field "v: 0x" (Ret (fmt_lower_hex (tl_v t) ++ txt " (" ++ fmt_u8 (tl_v t) ++ txt ")"))
      | T155 t => write_field "v: " (bu_display (t155_v t))
      | T2930 t => write_field "y_parity: " (Ret (y_parity_display (t2930_y_parity t)))
      | T1559 t => write_field "y_parity: " (Ret (y_parity_display (t1559_y_parity t)))
      end) (tx_r t) (tx_s t)
     (heading "=" (title_of t) ++ newline ++ heading "-" "Payload" ++ pt ++ newline ++ heading "-" "Signature")).
Proof.
  assert (A : forall (a b c : list Z) pt k, (f <- (t <- Ret pt ;; Ret (a ++ line (txt "" ++ t))) ;; k (f ++ b)) = k (a ++ pt ++ newline ++ b) :> outcome (list Z)).
  { intros. cbn [obind]. f_equal. unfold line, newline. cbn [txt map list_ascii_of_string app]. rewrite <- !app_assoc. reflexivity. }
  destruct t as [t|t|t|t]; cbn [transaction_display tx_payload payload_display tx_r tx_s];
    unfold transaction_legacy_display, transaction_155_display, transaction_2930_display, transaction_1559_display, write_field at 1; cbv zeta.
  all: match goal with |- context [obind (obind ?m _) _] => destruct m as [pt| |]; [|reflexivity..] end.
  all: cbn [obind].
  all: match goal with |- _ = sig_lines _ _ _ ?x => match goal with |- context [write_field _ _ ?y] => replace y with x; [reflexivity|] end end.
  all: unfold line, heading, newline; cbn [ascii txt map list_ascii_of_string app flat_map]; rewrite <- !app_assoc; reflexivity.
Qed.
Theorem transaction_shows be t : tx_ok t -> exists x, transaction_display be t = Ret x /\ shows_transaction t x.
Proof.
  intros H. rewrite tx_display_is.
  assert (P : payload_ok (tx_payload t) /\ big_ok (tx_r t) /\ big_ok (tx_s t)).
  { destruct t; cbn [tx_ok] in H; unfold tx_ok_legacy, tx_ok_155, tx_ok_2930, tx_ok_1559 in H; tauto. }
  destruct P as (Hp & Hr & Hs). destruct (payload_shows be _ Hp) as (pt & -> & P). cbn [obind].
  match goal with |- context [sig_lines ?v _ _ ?f] => assert (S : exists st, shows_fields (signature_fields_of t) st /\ sig_lines v (tx_r t) (tx_s t) f = Ret (f ++ st)) end.
  { destruct t as [t|t|t|t]; cbn [signature_fields_of tx_r tx_s] in *; apply sig_shows; try assumption; intros f.
    - apply write_v. apply H.
    - apply (write_big "v"). apply H.
    - apply write_parity.
    - apply write_parity. }
  destruct S as (st & S & ->). eexists. split; [reflexivity|]. exists pt, st. split; [assumption|]. split; [assumption|].
  rewrite <- !app_assoc. reflexivity.
Qed.

(** * What the text determines *)
Lemma fields_split fs gs t : shows_fields (fs ++ gs) t -> exists t1 t2, t = t1 ++ t2 /\ shows_fields fs t1 /\ shows_fields gs t2.
Proof.
  revert t. induction fs as [|[a v] fs IH]; intros t H; cbn [app] in H.
  - exists [], t. repeat split. assumption.
  - cbn [shows_fields] in H. destruct H as (x & rest & -> & Hv & H). destruct (IH rest H) as (t1 & t2 & -> & H1 & H2).
    exists (ascii a ++ ascii ": " ++ x ++ newline ++ t1), t2. rewrite <- !app_assoc. split; [reflexivity|]. split; [|assumption].
    cbn [shows_fields]. eauto.
Qed.
(** texts of lists of fields that part after [n] fields *)
Lemma part n fs gs t : Forall (fun f => val_ok (snd f)) fs -> Forall (fun f => val_ok (snd f)) gs ->
  map (fun f => (fst f, val_kind (snd f))) (firstn n fs) = map (fun f => (fst f, val_kind (snd f))) (firstn n gs) ->
  shows_fields fs t -> shows_fields gs t -> exists r, shows_fields (skipn n fs) r /\ shows_fields (skipn n gs) r.
Proof.
  intros H H' E S S'. rewrite <- (firstn_skipn n fs) in S, H. rewrite <- (firstn_skipn n gs) in S', H'.
  apply Forall_app in H as [H _]. apply Forall_app in H' as [H' _].
  apply fields_split in S as (t1 & t2 & E1 & S1 & S2). apply fields_split in S' as (u1 & u2 & E2 & S1' & S2').
  rewrite E1 in E2. destruct (fields_cut _ _ _ _ _ _ H H' E S1 S1' E2) as [_ ->]. eauto.
Qed.
Lemma first_char a v fs b w gs r : shows_fields ((a, v) :: fs) r -> shows_fields ((b, w) :: gs) r -> hd 0 (ascii (a ++ ": ")) = hd 0 (ascii (b ++ ": ")).
Proof.
  intros (x & rest & -> & _) (x' & rest' & E & _). destruct a, b; cbn in E |- *; injection E; auto.
Qed.
Lemma kinds_differ p q t : shows_fields (fields_of p) t -> shows_fields (fields_of q) t -> payload_ok p -> payload_ok q ->
  map fst (fields_of p) = map fst (fields_of q).
Proof.
  intros S S' Hp Hq. apply fields_ok in Hp. apply fields_ok in Hq.
  destruct p as [p|p|p|p], q as [q|q|q|q]; try reflexivity; exfalso.
  1-4, 7, 10: pose proof (first_char _ _ _ _ _ _ _ S S'); discriminate.
  all: match type of S with shows_fields ?fs _ => match type of S' with shows_fields ?gs _ =>
    first [destruct (part 7 fs gs t Hp Hq eq_refl S S') as (r & R & R')|destruct (part 2 fs gs t Hp Hq eq_refl S S') as (r & R & R')] end end.
  all: cbn [fields_of skipn] in R, R'.
  all: try (pose proof (first_char _ _ _ _ _ _ _ R R'); discriminate).
  - cbn in R. subst. destruct R' as (x & rest & E & _). discriminate.
  - cbn in R'. subst. destruct R as (x & rest & E & _). discriminate.
Qed.
Lemma payload_determined_cut p q t u r r' : map fst (fields_of p) = map fst (fields_of q) -> payload_ok p -> payload_ok q ->
  shows_fields (fields_of p) t -> shows_fields (fields_of q) u -> t ++ r = u ++ r' -> payload_same p q /\ r = r'.
Proof.
  intros K Hp Hq S S' E.
  destruct (fun k => fields_cut (fields_of p) (fields_of q) t u r r' (fields_ok p Hp) (fields_ok q Hq) k S S' E) as [F ->].
  { destruct p, q; try discriminate K; reflexivity. }
  split; [|reflexivity]. apply fields_same; assumption.
Qed.
Lemma same_fields p q : payload_same p q -> fields_of p = fields_of q.
Proof.
  intros H. destruct p as [p|p|p|p], q as [q|q|q|q]; try contradiction; cbn [payload_same fields_of] in *;
    unfold payload_same_legacy, payload_same_but_chain_155, payload_same_2930, payload_same_1559, same_int in H;
    repeat match goal with H : _ /\ _ |- _ => destruct H end; congruence.
Qed.
Theorem payload_determined be be' p q t u : payload_ok p -> payload_ok q -> payload_display be p = Ret t -> payload_display be' q = Ret u ->
  (t = u <-> payload_same p q).
Proof.
  intros Hp Hq E E'. destruct (payload_shows be p Hp) as (t1 & E1 & S). destruct (payload_shows be' q Hq) as (t2 & E2 & S').
  assert (t1 = t) by congruence. assert (t2 = u) by congruence. subst. split.
  - intros ->. apply (payload_determined_cut p q u u [] []); try assumption; [|reflexivity]. eapply kinds_differ; eassumption.
  - intros Q. apply same_fields in Q. rewrite Q in S. eapply fields_unique; eassumption.
Qed.
(** hence what is signed *)
Theorem shown_is_signed be be' p q t u m m' : payload_ok p -> payload_ok q -> payload_display be p = Ret t -> payload_display be' q = Ret u ->
  PREIMAGE p = Some m -> PREIMAGE q = Some m' -> (t = u <-> m = m').
Proof.
  intros Hp Hq E E' M M'. rewrite (payload_determined be be' p q t u Hp Hq E E'). symmetry. apply preimage_iff; assumption.
Qed.

Lemma titles t u r r' : heading "=" (title_of t) ++ r = heading "=" (title_of u) ++ r' -> title_of t = title_of u /\ r = r'.
Proof. destruct t, u; intros E; try discriminate E; (split; [reflexivity|]); apply app_inv_head in E; exact E. Qed.
Theorem transaction_determined be be' t u x y : tx_ok t -> tx_ok u -> transaction_display be t = Ret x -> transaction_display be' u = Ret y ->
  (x = y <-> tx_same t u).
Proof.
  intros Ht Hu E E'. destruct (transaction_shows be t Ht) as (x1 & E1 & pt & st & P & S & X).
  destruct (transaction_shows be' u Hu) as (y1 & E2 & pt' & st' & P' & S' & Y).
  assert (A : x1 = x) by congruence. assert (B : y1 = y) by congruence. rewrite A in X. rewrite B in Y. clear x1 y1 A B E1 E2 E E'.
  assert (Pt : payload_ok (tx_payload t)) by (destruct t; apply Ht). assert (Pu : payload_ok (tx_payload u)) by (destruct u; apply Hu).
  split.
  - intros Q. rewrite X, Y in Q. apply titles in Q as [T Q]. do 2 apply app_inv_head in Q.
    destruct (fun k => payload_determined_cut (tx_payload t) (tx_payload u) pt pt' _ _ k Pt Pu P P' Q) as [Sp Q'].
    { destruct t, u; try discriminate T; reflexivity. }
    do 2 apply app_inv_head in Q'.
    destruct (fun a b k => fields_cut (signature_fields_of t) (signature_fields_of u) st st' [] [] a b k S S') as [F _].
    { destruct t; repeat constructor. } { destruct u; repeat constructor. } { destruct t, u; try discriminate T; reflexivity. } { congruence. }
    split; [exact Sp|]. clear - F T Hu.
    destruct t as [t|t|t|t], u as [u|u|u|u]; try discriminate T; cbn [signature_fields_of tx_r tx_s tx_ok] in *; injection F; intros;
      unfold tx_ok_legacy, tx_ok_155, tx_ok_2930, tx_ok_1559 in Hu; (split; [apply same_big; tauto|]); (split; [apply same_big; tauto|]);
      first [assumption|apply same_big; tauto].
  - intros (Sp & Sr & Ss & Sv). assert (T : title_of t = title_of u) by (destruct t, u; try contradiction; reflexivity).
    assert (F : signature_fields_of t = signature_fields_of u).
    { destruct t, u; try contradiction; cbn [signature_fields_of tx_r tx_s] in *; unfold same_int in *; repeat match goal with H : _ /\ _ |- _ => destruct H end; congruence. }
    rewrite X, Y, T. apply same_fields in Sp. rewrite Sp in P. rewrite F in S.
    rewrite (fields_unique _ _ _ P P'), (fields_unique _ _ _ S S'). reflexivity.
Qed.
End WithCfg.

(** on any machine *)
Theorem payload_text_portable (cfg cfg' : digit_cfg) be be' p q t u : @payload_ok cfg p -> @payload_ok cfg' q ->
  @payload_display cfg be p = Ret t -> @payload_display cfg' be' q = Ret u ->
  @fields_of cfg p = @fields_of cfg' q -> t = u.
Proof.
  intros Hp Hq E E' F. destruct (@payload_shows cfg be p Hp) as (t1 & E1 & S). destruct (@payload_shows cfg' be' q Hq) as (t2 & E2 & S').
  assert (t1 = t) by congruence. assert (t2 = u) by congruence. subst. rewrite F in S. eapply fields_unique; eassumption.
Qed.

(** * A transaction *)
Definition shown_1559 (l : AccessList) : PayloadEip1559 :=
  let n (x : Z) := {| storage := [x]; dlen := 1; sign := Positive |} in
  {| p1559_chain_id := n 5; p1559_nonce := 9; p1559_max_priority_fee_per_gas := n 0; p1559_max_fee_per_gas := n 171; p1559_gas_limit := 21000;
     p1559_destination := repeat 0xab 20; p1559_amount := n 7; p1559_data := [0; 255]; p1559_access_list := l |}.
Definition shown_tx : transaction :=
  T1559 {| t1559_payload := shown_1559 [{| ali_address := repeat 0x11 20; ali_storage_keys := [repeat 0 31 ++ [1]] |}];
           t1559_y_parity := Odd; t1559_r := {| storage := [200]; dlen := 1; sign := Positive |}; t1559_s := {| storage := [16]; dlen := 1; sign := Positive |} |}.
Lemma one_digit (cfg : digit_cfg) x : 0 <= x < 256 ->
  let b := {| storage := [x]; dlen := 1; sign := Positive |} in wf b /\ bi_val b = x.
Proof.
  intros H. cbv zeta. split.
  - destruct cfg; repeat split; cbn; try (constructor; [unfold digit; cbn; lia|constructor]); try lia; try discriminate; try (left; reflexivity); constructor.
  - destruct cfg; cbn; lia.
Qed.
Lemma one_digit_ok (cfg : digit_cfg) x : 0 <= x < 256 -> big_ok {| storage := [x]; dlen := 1; sign := Positive |}.
Proof. intros H. destruct (one_digit cfg x H) as [W E]. split; [exact W|]. rewrite E. lia. Qed.
Lemma shown_1559_ok (cfg : digit_cfg) l : ok TAccessList l -> payload_ok (P1559 (shown_1559 l)).
Proof.
  intros H. cbn [payload_ok]. unfold payload_ok_1559, shown_1559. cbn [p1559_chain_id p1559_nonce p1559_max_priority_fee_per_gas p1559_max_fee_per_gas
    p1559_gas_limit p1559_destination p1559_amount p1559_data p1559_access_list].
  split; [apply one_digit_ok; lia|]. split; [unfold nonce_ok; lia|]. split; [apply one_digit_ok; lia|]. split; [apply one_digit_ok; lia|].
  split; [unfold u64_ok; lia|]. split.
  { split; [|reflexivity]. apply Forall_forall. intros x I. apply repeat_spec in I. subst. unfold byte. lia. }
  split; [apply one_digit_ok; lia|]. split; [|exact H]. constructor; [unfold byte; lia|]. constructor; [unfold byte; lia|constructor].
Qed.
Lemma key_ok b n : 0 <= b < 256 -> bytes (repeat b n).
Proof. intros H. apply Forall_forall. intros x I. apply repeat_spec in I. subst. exact H. Qed.
Lemma shown_case (cfg : digit_cfg) : tx_ok shown_tx /\ transaction_display false shown_tx = Ret (ascii
"====================
Transaction EIP 1559
====================

-------
Payload
-------
chain_id: 0x05
nonce: 0x9
max_priority_fee_per_gas: 0x00
max_fee_per_gas: 0xab
gas_limit: 0x5208
destination: 0xABaBaBaBABabABabAbAbABAbABabababaBaBABaB
amount: 0x07
data: 0x00ff
access_list: [
  0x1111111111111111111111111111111111111111: 
  [
    0x0000000000000000000000000000000000000000000000000000000000000001,
  ]

]

---------
Signature
---------
y_parity: 1 (odd)
r: 0xc8
s: 0x10
").
Proof.
  split.
  - cbn [tx_ok shown_tx]. unfold tx_ok_1559. cbn [t1559_payload t1559_r t1559_s].
    split; [apply (shown_1559_ok cfg)|split; apply one_digit_ok; lia].
    constructor; [|constructor]. split; [split; [apply key_ok; lia|reflexivity]|]. constructor; [|constructor].
    split; [|reflexivity]. apply Forall_app. split; [apply key_ok; lia|]. constructor; [unfold byte; lia|constructor].
  - destruct cfg; vm_compute; reflexivity.
Qed.
Lemma shown_lists (cfg : digit_cfg) be :
  let a := repeat 0x11 20 in let k := repeat 1 32 in let k' := repeat 2 32 in
  let p := P1559 (shown_1559 [{| ali_address := a; ali_storage_keys := [k; k'] |}]) in
  let q := P1559 (shown_1559 [{| ali_address := a; ali_storage_keys := [k] |}; {| ali_address := a; ali_storage_keys := [k'] |}]) in
  payload_ok p /\ payload_ok q /\ payload_display be p <> payload_display be q.
Proof.
  cbv zeta.
  assert (A : forall x ks, Forall (fun k => exists b, 0 <= b < 256 /\ k = repeat b 32) ks -> 0 <= x < 256 -> ali_ok {| ali_address := repeat x 20; ali_storage_keys := ks |}).
  { intros x ks H Hx. split; [split; [apply key_ok; assumption|apply repeat_length]|]. cbn [ali_storage_keys]. revert H. apply Forall_impl.
    intros k (b & Hb & ->). split; [apply key_ok; assumption|apply repeat_length]. }
  match goal with |- payload_ok ?p /\ payload_ok ?q /\ _ => assert (P : payload_ok p); [|assert (Q : payload_ok q); [|split; [exact P|split; [exact Q|]]]] end.
  - apply shown_1559_ok. constructor; [|constructor]. apply A; [|lia].
    constructor; [exists 1; split; [lia|reflexivity]|]. constructor; [exists 2; split; [lia|reflexivity]|constructor].
  - apply shown_1559_ok. constructor; [|constructor; [|constructor]]; (apply A; [|lia]).
    + constructor; [exists 1; split; [lia|reflexivity]|constructor].
    + constructor; [exists 2; split; [lia|reflexivity]|constructor].
  - intros E. destruct (payload_shows be _ P) as (t & E1 & _). pose proof E1 as E2. rewrite E in E2.
    pose proof (proj1 (payload_determined be be _ _ t t P Q E1 E2) eq_refl) as S. cbn [payload_same] in S.
    destruct S as (_ & _ & _ & _ & _ & _ & _ & _ & S). discriminate S.
Qed.
Lemma sign_not_encoded (cfg : digit_cfg) x y it : wf x -> wf y -> bi_val y = - bi_val x -> encode_biguint x it = encode_biguint y it.
Proof.
  intros Wx Wy E. unfold encode_biguint, bu_to_be_bytes.
  destruct (bi_to_be_bytes_spec x Wx) as (l & -> & M). destruct (bi_to_be_bytes_spec y Wy) as (l' & -> & M').
  assert (Z.abs (bi_val y) = Z.abs (bi_val x)) as A by lia. rewrite A in M'. rewrite (minimal_be_unique _ _ _ M M'). reflexivity.
Qed.
Lemma amount_refuted (cfg : digit_cfg) : exists w v, wei_try_from (ascii "-7") = Ret (Ok w) /\ wei_try_from (ascii "7") = Ret (Ok v) /\
  wei_display w = Ret (ascii "0x-07") /\ wei_display v = Ret (ascii "0x07") /\
  let pay amount := {| pl_nonce := 0; pl_gas_price := v; pl_gas_limit := 21000; pl_destination := repeat 0xab 20; pl_amount := amount; pl_data := [] |} in
  payload_ok (PLegacy (pay v)) /\ forall it, encode_payload_legacy (pay w) it = encode_payload_legacy (pay v) it.
Proof.
  destruct (radix_accepts [55] 10 7 ltac:(lia)) as (v & Ev & Wv & Vv).
  { apply (Den_plain 10 [55] [7]); [discriminate|]. constructor; [split; [reflexivity|lia]|constructor]. }
  assert (X : exists w v, wei_try_from (ascii "-7") = Ret (Ok w) /\ bi_from_str_radix [55] 10 = Ret (Ok v) /\
    wei_display w = Ret (ascii "0x-07") /\ wei_display v = Ret (ascii "0x07") /\ bu_to_be_bytes w = bu_to_be_bytes v).
  { destruct cfg; do 2 eexists; (split; [vm_compute; reflexivity|]); (split; [vm_compute; reflexivity|]); repeat split; vm_compute; reflexivity. }
  destruct X as (w & v' & H1 & H2 & H3 & H4 & H5). assert (v' = v) by congruence. subst v'.
  exists w, v. split; [exact H1|]. split; [exact Ev|]. split; [exact H3|]. split; [exact H4|]. cbv zeta.
  assert (B : big_ok v) by (split; [exact Wv|lia]). split.
  - cbn [payload_ok]. unfold payload_ok_legacy. cbn [pl_nonce pl_gas_price pl_gas_limit pl_destination pl_amount pl_data].
    split; [unfold nonce_ok; lia|]. split; [exact B|]. split; [unfold u64_ok; lia|]. split; [split; [apply key_ok; lia|reflexivity]|]. split; [exact B|constructor].
  - intros it. unfold encode_payload_legacy. cbn [pl_nonce pl_gas_price pl_gas_limit pl_destination pl_amount pl_data]. unfold encode_wei, encode_biguint. rewrite H5. reflexivity.
Qed.

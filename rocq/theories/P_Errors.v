(** Proofs for C79: error messages. *)

From Coq Require Import Lia String.
From Verif Require Import Base M_Codec M_BigInt M_BigText M_Modular M_Loop M_Hmac M_Random M_Curve M_Ecdsa M_Rfc6979 M_Encoding M_Rlp M_Ssz M_Tx M_TxSign M_Display M_Examples M_Errors
  S_BigInt S_Codec S_Curve S_EcModel S_Hash S_Sha2 S_Ecdsa S_Rfc6979 S_Sign S_Recover S_Encoding S_Display S_Text S_Examples S_Errors
  P_BigInt1 P_BigInt3 P_BigInt4 P_BigApi P_Codec P_NumTheory P_Modular P_Curve P_EcModel P_Order P_EcLaws P_Hash P_Ecdsa1 P_Ecdsa2 P_Encoding P_Encoding2.
From Verif Require Import P_EcEx.
From Verif Require P_Display P_Text P_ExKey P_EncodingProp P_EcdsaProp2 P_BigText2 P_Codec.
Open Scope Z_scope.
Local Open Scope list_scope.

(** * Messages *)
Ltac plain_text := apply P_Text.plainb_ok; vm_compute; reflexivity.
Lemma numeral_plain d n : numeral 10 d n -> plain d /\ d <> [].
Proof.
  intros (ds & -> & N & H & _). split; [|now destruct ds]. apply P_Text.digits_plain. eapply Forall_impl; [|exact H]. cbv beta. intros; lia.
Qed.
Lemma shows_plain t n : shows_int t n -> plain t.
Proof.
  intros (d & H & _ & ->). apply numeral_plain in H as [H _]. destruct (n <? 0); [|exact H]. apply P_Text.plain_app. split; [plain_text|exact H].
Qed.
Lemma shows_int_fun t n m : shows_int t n -> shows_int t m -> n = m.
Proof.
  intros (d & D & _ & E) (d' & D' & _ & E').
  assert (M : forall d n, numeral 10 d n -> ~ In 45 d) by (intros x k; apply P_Display.numeral_not_in; lia).
  destruct (Z.ltb_spec n 0), (Z.ltb_spec m 0); subst t.
  - apply app_inv_head in E'. subst d'. pose proof (P_Display.numeral_fun 10 d _ _ ltac:(lia) D D'). lia.
  - exfalso. apply (M _ _ D'). rewrite <- E'. now left.
  - exfalso. apply (M _ _ D). rewrite E'. now left.
  - subst d'. pose proof (P_Display.numeral_fun 10 d _ _ ltac:(lia) D D'). lia.
Qed.
Lemma fmt_int_inj n m : - 2 ^ 31 <= n < 2 ^ 32 -> - 2 ^ 31 <= m < 2 ^ 32 -> fmt_int n = fmt_int m -> n = m.
Proof.
  intros Hn Hm E. pose proof (P_ExKey.fmt_int_shows n ltac:(lia)) as A. pose proof (P_ExKey.fmt_int_shows m ltac:(lia)) as B. rewrite <- E in B. exact (shows_int_fun _ _ _ A B).
Qed.
Lemma good_finite {E} (f : E -> list Z) : (forall e, P_Text.plainb (f e) = true /\ f e <> []) -> (forall e e', f e = f e' -> e = e') -> good_messages (fun _ => True) f.
Proof. intros H I. split; [|auto]. intros e _. destruct (H e). split; [now apply P_Text.plainb_ok|assumption]. Qed.
Ltac finite := apply good_finite; [intros e; destruct e; (split; [vm_compute; reflexivity|discriminate])|intros e e'; destruct e, e'; intros H; reflexivity || discriminate H].

Lemma codecs_messages : good_messages (fun _ => True) codecs_error_display. Proof. finite. Qed.
Lemma rlp_messages : good_messages (fun _ => True) decoding_error_display. Proof. finite. Qed.
Lemma ssz_messages : good_messages (fun _ => True) ssz_error_display. Proof. finite. Qed.
Lemma verifying_messages : good_messages (fun _ => True) verifying_error_display. Proof. finite. Qed.
Lemma recovery_messages : good_messages (fun _ => True) recovery_error_display. Proof. finite. Qed.
Lemma point_messages : good_messages (fun _ => True) point_error_display. Proof. finite. Qed.
Lemma signature_messages : good_messages (fun _ => True) signature_error_display. Proof. finite. Qed.
Lemma parse_messages : good_messages (fun _ => True) parse_int_error_display.
Proof.
  apply good_finite; [intros e; destruct e as [e|]; [destruct e|]; (split; [vm_compute; reflexivity|discriminate])|].
  intros e e'; destruct e as [e|], e' as [e'|]; [destruct e, e'|destruct e|destruct e'|]; intros H; reflexivity || discriminate H.
Qed.
Lemma random_messages : good_messages random_error_ok random_error_display.
Proof.
  unfold random_error_ok. split.
  - intros e H. split; [|destruct e; discriminate].
    destruct e as [n|n| |n]; cbn [error_number random_error_display] in *; try (apply P_Text.plain_app; split; [plain_text|]; apply (shows_plain _ n), P_ExKey.fmt_int_shows; lia).
    plain_text.
  - intros e e' H H' E. destruct e as [n|n| |n], e' as [m|m| |m]; cbn [error_number random_error_display] in *; try discriminate E; try reflexivity;
      apply app_inv_head in E; apply fmt_int_inj in E; congruence || assumption.
Qed.
(** a message inside a message *)
Lemma good_prefix {E F} (ok : E -> Prop) (ok' : F -> Prop) (c : E -> F) f (g : F -> list Z) pre :
  P_Text.plainb pre = true -> (forall x, ok' x -> exists e, x = c e /\ ok e) -> (forall e, g (c e) = pre ++ f e) -> good_messages ok f -> good_messages ok' g.
Proof.
  intros P S G [H1 H2]. split.
  - intros x Hx. destruct (S x Hx) as (e & -> & He). rewrite G. destruct (H1 e He) as [A B]. split; [apply P_Text.plain_app; split; [now apply P_Text.plainb_ok|exact A]|].
    intros K. apply app_eq_nil in K as [_ K]. exact (B K).
  - intros x x' Hx Hx' E'. destruct (S x Hx) as (e & -> & He), (S x' Hx') as (e' & -> & He'). rewrite !G in E'. apply app_inv_head in E'. f_equal. now apply H2.
Qed.
Lemma nonce_messages : good_messages nonce_error_ok nonce_error_display.
Proof.
  apply (good_prefix random_error_ok _ FailedToGenerateRandomBytes random_error_display _ (txt "Failed to generate random bytes: ")).
  - reflexivity.
  - intros [e] H. now exists e.
  - reflexivity.
  - exact random_messages.
Qed.
Lemma signing_messages : good_messages signing_error_ok signing_error_display.
Proof.
  destruct nonce_messages as [H1 H2]. split.
  - intros [| | |e] H; cbn [signing_error_display]; try (split; [plain_text|discriminate]). split; [|discriminate]. apply P_Text.plain_app. split; [plain_text|]. apply H1. exact H.
  - intros [| | |e] [| | |e'] H H' E; try reflexivity; try discriminate E. cbn [signing_error_display] in E. apply app_inv_head in E. f_equal. now apply H2.
Qed.
Lemma building_messages : good_messages building_error_ok building_error_display.
Proof.
  destruct signing_messages as [H1 H2]. split.
  - intros [[]|[e]] H; cbn [building_error_display]; [split; [plain_text|discriminate]|]. split; [|discriminate]. apply P_Text.plain_app. split; [plain_text|]. apply H1. exact H.
  - intros [[]|[e]] [[]|[e']] H H' E; try reflexivity; try discriminate E. cbn [building_error_display] in E. apply app_inv_head in E. do 2 f_equal. now apply H2.
Qed.

Section Proofs.
Context {cfg : digit_cfg}.

(** * Hexadecimal numbers *)
Lemma no_denotes_digits s : s <> [] -> s <> [43] -> s <> [45] -> (forall v, ~ denotes 16 s v) -> forall vs, ~ digits_of 16 (snd (split_sign s)) vs.
Proof.
  intros N0 N1 N2 H vs D. destruct s as [|c s]; [congruence|]. unfold split_sign in D. destruct (Z.eqb_spec c 45) as [->|]; [|destruct (Z.eqb_spec c 43) as [->|]]; cbn [snd] in D.
  - eapply H. apply Den_minus; [congruence|exact D].
  - eapply H. apply Den_plus; [congruence|exact D].
  - eapply H. apply Den_plain; [congruence|exact D].
Qed.
Lemma hex_parts s v : s <> [] -> denotes 16 s v -> exists vs, digits_of 16 (snd (split_sign s)) vs /\ snd (split_sign s) <> [].
Proof.
  intros N0 H. destruct H as [|s vs Hne Hd|s vs Hne Hd|s vs Hne Hd]; [congruence| | |]; cbn [split_sign snd Z.eqb Pos.eqb]; try (exists vs; split; assumption).
  destruct s as [|c s]; [congruence|]. destruct (first_digit_not_sign 16 (c :: s) vs c Hd eq_refl) as [A B]. apply Z.eqb_neq in A, B. cbn [split_sign]. rewrite A, B. cbn [snd]. exists vs. split; assumption.
Qed.
Lemma digit_count_split s : digit_count s = length (snd (split_sign s)).
Proof. destruct s as [|c s]; [reflexivity|]. cbn [digit_count split_sign]. destruct (c =? 45), (c =? 43); reflexivity. Qed.
Lemma split_empty s : s <> [] -> snd (split_sign s) = [] -> s = [43] \/ s = [45].
Proof.
  destruct s as [|c s]; [congruence|]. intros _. cbn [split_sign]. destruct (Z.eqb_spec c 45) as [->|]; [|destruct (Z.eqb_spec c 43) as [->|]]; cbn [snd]; [intros ->; now right|intros ->; now left|discriminate].
Qed.
Lemma split_bytes s : bytes s -> bytes (snd (split_sign s)).
Proof. intros H. destruct s as [|c s]; [exact H|]. cbn [split_sign]. assert (bytes s) by (inversion H; assumption). destruct (c =? 45), (c =? 43); assumption || exact H. Qed.
Definition hex_kind (s : list Z) (e : parse_int_error) : Prop :=
  match e with
  | PInvalidInput => s = ascii "+" \/ s = ascii "-"
  | PCodecs NotByteAligned => Nat.even (digit_count s) = false
  | PCodecs InvalidCharFound => Nat.even (digit_count s) = true /\ s <> ascii "+" /\ s <> ascii "-" /\ forall v, ~ denotes 16 s v
  end.
Lemma from_hex_kind s e : bytes s -> (bi_from_hex s = Ret (Err e) <-> hex_kind s e).
Proof.
  intros Hb. destruct (list_eq_dec Z.eq_dec s []) as [->|N0].
  { split; [cbn [bi_from_hex]; destruct (from_int 0); intros K; discriminate K|]. destruct e as [[]|]; cbn [hex_kind]; [intros (_ & _ & _ & H)|intros H; discriminate H|intros [H|H]; discriminate H].
    exfalso. exact (H 0 (Den_empty 16)). }
  assert (E : bi_from_hex s = let '(sg, t) := split_sign s in match t with [] => Ret (Err PInvalidInput) | _ => match hex_to_bytes t with Ok bs => r <- bi_from_be_bytes bs sg ;; Ret (Ok r) | Err e => Ret (Err (PCodecs e)) end end)
    by (destruct s; [congruence|reflexivity]).
  pose proof (digit_count_split s) as DC. pose proof (split_bytes s Hb) as SB. pose proof (split_empty s N0) as SE.
  pose proof (no_denotes_digits s N0) as ND. pose proof (hex_parts s) as HP. unfold hex_kind. change (ascii "+") with [43]. change (ascii "-") with [45].
  destruct (list_eq_dec Z.eq_dec s [43]) as [->|N1]; [rewrite E; cbn; split; [intros [= <-]; auto|destruct e as [[]|]; [intros (_ & K & _); congruence|discriminate|reflexivity]]|].
  destruct (list_eq_dec Z.eq_dec s [45]) as [->|N2]; [rewrite E; cbn; split; [intros [= <-]; auto|destruct e as [[]|]; [intros (_ & _ & K & _); congruence|discriminate|reflexivity]]|].
  destruct (split_sign s) as [sg t]. cbn [snd] in *. rewrite E. destruct t as [|c t]; [exfalso; destruct (SE eq_refl); contradiction|].
  remember (c :: t) as u eqn:Eu. rewrite DC. destruct (hex_to_bytes_spec u SB) as (H1 & H2 & H3).
  destruct (Nat.even (length u)) eqn:EV.
  - destruct (digits_of_dec 16 u) as [[vs Hv]|Hv].
    + destruct (H3 vs eq_refl Hv) as (bs & -> & _). assert (Ret (Err e) <> (r <- bi_from_be_bytes bs sg ;; Ret (Ok r))) by (destruct (bi_from_be_bytes bs sg); discriminate).
      split; [intros K; congruence|]. destruct e as [[]|]; [intros (_ & _ & _ & K)|discriminate|tauto]. exfalso. exact (ND N1 N2 K vs Hv).
    + rewrite H2 by auto. split; [|destruct e as [[]|]; [reflexivity|discriminate|tauto]]. intros [= <-]. split; [reflexivity|]. split; [exact N1|]. split; [exact N2|].
      intros v K. destruct (HP v N0 K) as (vs & K1 & _). exact (Hv vs K1).
  - rewrite H1 by reflexivity. split; [intros [= <-]; reflexivity|]. destruct e as [[]|]; [intros [K _]; discriminate|reflexivity|tauto].
Qed.

Theorem from_hex_error s m : bytes s -> (fails_with parse_int_error_display (bi_from_hex s) m <-> hex_error s m).
Proof.
  intros Hb. unfold fails_with, hex_error. split.
  - intros (e & K & <-). apply (from_hex_kind s e Hb) in K. destruct e as [[]|]; cbn [hex_kind] in K; [right; right|right; left|left]; (split; [reflexivity|exact K]).
  - intros [[-> K]|[[-> K]|[-> K]]]; [exists PInvalidInput|exists (PCodecs NotByteAligned)|exists (PCodecs InvalidCharFound)]; (split; [apply from_hex_kind; [exact Hb|exact K]|reflexivity]).
Qed.

Theorem bu_hex_error s m : bytes s -> (fails_with parse_int_error_display (bu_from_hex s) m <-> unsigned_hex_error s m).
Proof.
  intros Hb. unfold unsigned_hex_error. change (ascii "-") with [45]. rewrite <- (from_hex_error s m Hb). unfold fails_with.
  destruct (P_BigText2.bu_hex_cases s Hb) as [(v & r & H1 & H2 & H3 & E' & E & _)|[(v & r & u & H1 & H2 & -> & E' & E)|(e & H & E' & E)]]; rewrite E, E'.
  - split; [intros (e & K & _); discriminate K|]. intros [(e & K & _)|(_ & _ & _ & u & K)]; [discriminate K|destruct (H3 u K)].
  - split; [intros (e & [= <-] & <-); right; split; [reflexivity|]; split; [exists v; exact H1|]; split; [exact H2|exists u; reflexivity]|].
    intros [(e & K & _)|(-> & _)]; [discriminate K|]. exists PInvalidInput. split; reflexivity.
  - split; [intros K; left; exact K|]. intros [K|(_ & (v & D) & EV & _)]; [exact K|]. rewrite (H v D) in EV. discriminate.
Qed.
Theorem radix_error s radix m : 0 <= radix < 256 -> 2 <= radix <= 36 \/ debug_checks cfg = false ->
  (fails_with parse_int_error_display (bi_from_str_radix s radix) m <-> m = ascii "Invalid input" /\ forall v, ~ reads_as radix s v).
Proof.
  intros Hr Hd. pose proof (fun v => P_Codec.from_str_radix_exact s radix v Hr Hd) as FX. unfold fails_with. split.
  - intros (e & E & <-). assert (N : forall v, ~ reads_as radix s v) by (intros v K; destruct (proj2 (proj1 (FX v)) K) as (r & E2 & _); congruence).
    split; [|exact N]. rewrite (proj2 (FX 0) N) in E. injection E as <-. reflexivity.
  - intros [-> N]. exists PInvalidInput. split; [exact (proj2 (FX 0) N)|reflexivity].
Qed.

(** * Points and signatures *)
Section Params.
Context (D : params) (HD : code_params D).
Local Notation E := (curve_val (d_curve D)).
Local Notation n := (order D).
Local Notation p := (ep E).
Local Notation L := (nbytes n).
Let OKD : params_ok (params_val D). Proof. apply HD. Qed.
Let P3 : 3 < p. Proof. apply OKD. Qed.
Let Lp : (0 < L)%nat. Proof. exact (L_pos D). Qed.

Lemma checked_error P e : wf_point P -> checked_point D P = Ret (Err e) -> e = PDInvalidPoint /\ ~ valid_public (params_val D) (bi_val (px P)) (bi_val (py P)).
Proof.
  intros WP K. destruct (checked_cases D HD P WP) as [(_ & _ & _ & K')|(_ & r & K' & [[-> _]|[-> V]])]; rewrite K' in K; [discriminate|discriminate|]. injection K as <-. auto.
Qed.
Lemma shape_u data xs ys : shape_uncompressed (params_val D) data xs ys -> data = 48 :: 52 :: xs ++ ys /\ length xs = (2 * L)%nat /\ length ys = (2 * L)%nat.
Proof. intros H; exact H. Qed.
Lemma shape_c data (odd : bool) s : shape_compressed (params_val D) data odd s -> data = 48 :: (if odd then 51 else 50) :: s /\ (2 * L <= length s)%nat.
Proof. destruct odd; intros H; exact H. Qed.
Lemma make_c data (odd : bool) s : data = 48 :: (if odd then 51 else 50) :: s /\ (2 * L <= length s)%nat -> shape_compressed (params_val D) data odd s.
Proof. destruct odd; intros H; exact H. Qed.
Lemma sec1_errors data e : bytes data -> decode_point data D = Ret (Err e) -> sec1_error (params_val D) data (point_error_display e).
Proof.
  intros Hb.
  assert (SH : (length data < 2 * L + 2)%nat -> sec1_error (params_val D) data (point_error_display PDInvalidFormat)).
  { intros H. apply bad_format.
    - intros xs ys K. apply shape_u in K as (-> & A & B). cbn [length] in H. rewrite app_length in H. pose proof Lp. lia.
    - intros odd s K. apply shape_c in K as (-> & A). cbn [length] in H. lia. }
  assert (SHORT : (length data < 2 * L + 2)%nat -> decode_point data D = Ret (Err PDInvalidFormat)).
  { intros H. unfold decode_point. rewrite (byte_len_n D HD). cbn [obind]. cbv zeta. rewrite (hex_len D). apply Nat.ltb_lt in H. now rewrite H. }
  destruct data as [|c0 [|c1 s]]; [intros K; rewrite SHORT in K by (cbn; lia); injection K as <-; apply SH; cbn; lia|intros K; rewrite SHORT in K by (cbn; lia); injection K as <-; apply SH; cbn; lia|].
  destruct (Nat.lt_ge_cases (length (c0 :: c1 :: s)) (2 * L + 2)) as [LG|LG]; [intros K; rewrite (SHORT LG) in K; injection K as <-; exact (SH LG)|].
  clear SH SHORT. assert (Hb' : bytes s) by (inversion Hb as [|? ? _ Hc]; inversion Hc; assumption).
  rewrite (decode_cases D HD) by (cbn [length] in LG; lia).
  destruct ((c0 =? 48) && (c1 =? 52))%bool eqn:E4.
  - apply andb_true_iff in E4 as [E0 E1]. apply Z.eqb_eq in E0, E1. subst c0 c1.
    assert (NC : forall odd s0, ~ shape_compressed (params_val D) (48 :: 52 :: s) odd s0) by (intros odd s0 K; apply shape_c in K as (K & _); destruct odd; discriminate K).
    destruct (Nat.eqb_spec (length s) (2 * L * 2)) as [EL|NE].
    + pose proof (firstn_bytes (2 * L) s Hb') as B1. pose proof (skipn_bytes (2 * L) s Hb') as B2.
      assert (F1 : length (firstn (2 * L) s) = (2 * L)%nat) by (rewrite firstn_length; lia). assert (F2 : length (skipn (2 * L) s) = (2 * L)%nat) by (rewrite skipn_length; lia).
      assert (SU : shape_uncompressed (params_val D) (48 :: 52 :: s) (firstn (2 * L) s) (skipn (2 * L) s)) by (split; [now rewrite firstn_skipn|auto]).
      destruct (hex_or_fixed PDInvalidX L _ B1 F1 Lp) as [(x & xb & Hx & -> & Wx & Vx)|[NX ->]]; cbn [rbind].
      2:{ intros [= <-]. eapply bad_x; [exact SU|exact NX]. }
      destruct (hex_or_fixed PDInvalidY L _ B2 F2 Lp) as [(y & yb & Hy & -> & Wy & Vy)|[NY ->]]; cbn [rbind].
      2:{ intros [= <-]. eapply bad_y; [exact SU|exact Hx|exact NY]. }
      intros K. apply checked_error in K as [-> K]; [|split; assumption]. cbn [px py] in K. rewrite Vx, Vy in K. eapply bad_point; [exact SU|exact Hx|exact Hy|exact K].
    + intros [= <-]. apply bad_format; [|exact NC]. intros xs ys K. apply shape_u in K as (K & A & B). injection K as ->. apply NE. rewrite app_length. lia.
  - assert (NU : forall xs ys, ~ shape_uncompressed (params_val D) (c0 :: c1 :: s) xs ys). { intros xs ys K. apply shape_u in K as (K & _). injection K as -> -> _. discriminate E4. }
    destruct ((c0 =? 48) && ((c1 =? 50) || (c1 =? 51)))%bool eqn:E2.
    + apply andb_true_iff in E2 as [E0 E1]. apply Z.eqb_eq in E0. subst c0.
      assert (SC : shape_compressed (params_val D) (48 :: c1 :: s) (c1 =? 51) s).
      { apply make_c. split; [|cbn [length] in *; lia]. apply orb_true_iff in E1 as [E1|E1]; apply Z.eqb_eq in E1; subst c1; reflexivity. }
      destruct (hex_or_loose PDInvalidX L s Hb') as [(x & xb & Hx & -> & Wx & Vx)|[NX ->]]; [cbn [length] in LG; lia|exact Lp| |]; cbn [rbind].
      2:{ intros [= <-]. eapply bad_x'; [exact SC|exact NX]. }
      destruct (Z.eq_dec (rhs D (bi_val xb)) 0) as [R0|RN]; [rewrite (decompress_zero D HD _ xb Wx R0); discriminate|].
      destruct (decompress_spec D HD (c1 =? 51) xb Wx RN) as [(yb & Wy & Ry & EY & OY & ->)|[-> NY]]; rewrite Vx in *.
      * intros K. apply checked_error in K as [-> K]; [|split; assumption]. cbn [px py] in K. rewrite Vx in K. eapply bad_point'; [exact SC|exact Hx| |exact EY|exact OY|exact K].
        cbn [params_val e_curve]. lia.
      * intros [= <-]. eapply no_y; [exact SC|exact Hx|exact NY].
    + intros [= <-]. apply bad_format; [exact NU|]. intros odd s0 K. apply shape_c in K as (K & _). injection K as -> -> _. destruct odd; discriminate E2.
Qed.
Lemma shapes_exclusive data xs ys odd s : shape_uncompressed (params_val D) data xs ys -> shape_compressed (params_val D) data odd s -> False.
Proof. intros A B. apply shape_u in A as (-> & _). apply shape_c in B as (B & _). destruct odd; discriminate B. Qed.
Lemma uncompressed_same data xs ys xs' ys' : shape_uncompressed (params_val D) data xs ys -> shape_uncompressed (params_val D) data xs' ys' -> xs = xs' /\ ys = ys'.
Proof.
  intros A B. apply shape_u in A as (-> & A & _). apply shape_u in B as (K & A' & _). injection K as K. destruct (app_cut xs ys (xs ++ ys) _ eq_refl A) as [H1 H2]. destruct (app_cut xs' ys' (xs ++ ys) _ K A') as [H3 H4]. split; congruence.
Qed.
Lemma compressed_same data odd s odd' s' : shape_compressed (params_val D) data odd s -> shape_compressed (params_val D) data odd' s' -> odd = odd' /\ s = s'.
Proof. intros A B. apply shape_c in A as (-> & _). apply shape_c in B as (K & _). injection K as K1 K2. split; [destruct odd, odd'; congruence|exact K2]. Qed.
Lemma signed_fun x x' s : signed_hex (nbytes (e_order (params_val D))) x s -> signed_hex (nbytes (e_order (params_val D))) x' s -> x = x'.
Proof. exact (loose_fun D x x' s). Qed.
Lemma sec1_error_fun data e e' : sec1_error (params_val D) data e -> sec1_error (params_val D) data e' -> e = e'.
Proof.
  intros H H'. destruct H, H'; try reflexivity;
  repeat match goal with
  | A : shape_uncompressed _ _ _ _, B : shape_compressed _ _ _ _ |- _ => destruct (shapes_exclusive _ _ _ _ _ A B)
  | A : forall xs ys, ~ shape_uncompressed _ _ xs ys, B : shape_uncompressed _ _ _ _ |- _ => destruct (A _ _ B)
  | A : forall odd s, ~ shape_compressed _ _ odd s, B : shape_compressed _ _ _ _ |- _ => destruct (A _ _ B)
  | A : shape_uncompressed _ _ ?xs ?ys, B : shape_uncompressed _ _ ?xs' ?ys' |- _ => destruct (uncompressed_same _ _ _ _ _ A B); subst xs' ys'; clear B
  | A : shape_compressed _ _ ?o ?s, B : shape_compressed _ _ ?o' ?s' |- _ => destruct (compressed_same _ _ _ _ _ A B); subst o' s'; clear B
  | A : signed_hex _ ?x ?s, B : signed_hex _ ?x' ?s |- _ => pose proof (signed_fun _ _ _ A B); subst x'; clear B
  end;
  exfalso; match goal with
  | A : forall x, ~ hex_number _ ?s x, B : hex_number _ ?s _ |- _ => exact (A _ B)
  | A : forall x, ~ signed_hex _ x ?s, B : signed_hex _ _ ?s |- _ => exact (A _ B)
  | A : forall y, (y * y) mod _ <> _, B : (?y * ?y) mod _ = _ |- _ => exact (A y B)
  end.
Qed.
Theorem sec1_error_iff data m : bytes data -> (fails_with point_error_display (from_sec1_hex data D) m <-> sec1_error (params_val D) data m /\ ~ sec1_panics (params_val D) data).
Proof.
  intros Hb. unfold fails_with. split.
  - intros (e & K & <-). split.
    + apply sec1_errors; [exact Hb|]. unfold from_sec1_hex, rbind in K. destruct (decode_point data D) as [[]| |]; congruence.
    + intros P. apply (P_EncodingProp.sec1_panic_iff D data HD Hb) in P. congruence.
  - intros [H NP]. destruct (P_EncodingProp.sec1_decode_all D data HD Hb) as [_ K]. specialize (K NP). cbv zeta in K. destruct K as ([pk|e'] & EQ & K).
    + exfalso. destruct K as ((_ & _ & V) & ED & x & y & Vx & Vy & T). rewrite ED, Vx, Vy in V. clear EQ Vx Vy ED pk.
      pose proof (valid_range D _ _ V) as (Rx & Ry & HE).
      assert (U : forall xs ys, shape_uncompressed (params_val D) data xs ys -> hex_number L xs x /\ hex_number L ys y).
      { intros xs ys S. destruct T as [T|T].
        - inversion T as [xs' ys' X Y EQ|]; subst. assert (S' : shape_uncompressed (params_val D) (48 :: 52 :: xs' ++ ys') xs' ys') by (split; [reflexivity|split; [apply X|apply Y]]).
          destruct (uncompressed_same _ _ _ _ _ S S') as [-> ->]. auto.
        - exfalso. apply shape_u in S as (-> & _). inversion T; destruct (Z.odd y); discriminate. }
      assert (C : forall odd s, shape_compressed (params_val D) data odd s -> signed_hex L x s /\ Z.odd y = odd).
      { intros odd s S. apply shape_c in S as (-> & _). destruct T as [T|T]; [inversion T; destruct odd; discriminate|].
        apply (loose_signed D) in T as (_ & T1 & T2). split; [exact T2|]. destruct odd, (Z.odd y); congruence. }
      destruct H as [N1 N2|xs ys S N|odd s S N|xs ys x' S X N|odd s x' S X N|xs ys x' y' S X Y N|odd s x' y' S X Ry' EY OY N].
      * destruct T as [T|T].
        -- inversion T as [xs ys X Y|]; subst. apply (N1 xs ys). split; [reflexivity|]. split; [apply X|apply Y].
        -- assert (exists s, data = 48 :: (if Z.odd y then 51 else 50) :: s) as (s & ED) by (inversion T; eauto). subst data. apply (loose_signed D) in T as (_ & _ & T).
           apply (N2 (Z.odd y) s), make_c. split; [reflexivity|]. destruct T as [k xs Hk [A _]|k xs Hk [A _]|k xs Hk [A _]]; cbn [length]; lia.
      * destruct (U _ _ S) as [A _]. exact (N _ A).
      * destruct (C _ _ S) as [A _]. exact (N _ A).
      * destruct (U _ _ S) as [_ A]. exact (N _ A).
      * destruct (C _ _ S) as [A _]. rewrite (signed_fun x' x s X A) in N. exact (N y HE).
      * destruct (U _ _ S) as [A B]. rewrite (hex_number_fun _ _ x' x X A), (hex_number_fun _ _ y' y Y B) in N. exact (N V).
      * destruct (C _ _ S) as [A B]. rewrite (signed_fun x' x s X A) in N, EY. apply N. replace y' with y; [exact V|].
        apply (parity_point (params_val D) OKD x); [split; [exact Rx|split; [exact Ry|exact HE]]|split; [exact Rx|split; [exact Ry'|exact EY]]|congruence].
    + rewrite EQ. exists e'. split; [reflexivity|]. apply (sec1_error_fun data); [|exact H]. apply sec1_errors; [exact Hb|]. unfold from_sec1_hex, rbind in EQ. destruct (decode_point data D) as [[]| |]; congruence.
Qed.

Theorem p1363_errors data : bytes data ->
  (from_p1363_hex data D = Ret (Err SDInvalidFormat) <-> forall r s, ~ p1363 L r s data) /\
  (from_p1363_hex data D = Ret (Err SDInvalidSignature) <-> exists r s, p1363 L r s data /\ ~ (1 <= r < n /\ 1 <= s < n)).
Proof.
  intros Hb.
  assert (FN : forall r s r' s', p1363 L r s data -> p1363 L r' s' data -> r = r' /\ s = s').
  { intros r s r' s' (rs & ss & A1 & A2 & K) (rs' & ss' & B1 & B2 & K'). destruct (app_cut _ _ _ _ K (proj1 A1)) as [<- <-], (app_cut _ _ _ _ K' (proj1 B1)) as [<- <-].
    split; eapply hex_number_fun; eassumption. }
  destruct (p1363_decode D HD data Hb) as (res & EQ & HR).
  assert (FM : (from_p1363_hex data D = Ret (Err SDInvalidFormat) /\ forall r s, ~ p1363 L r s data) \/ (from_p1363_hex data D <> Ret (Err SDInvalidFormat) /\ exists r s, p1363 L r s data)).
  { clear EQ HR. unfold from_p1363_hex. rewrite (byte_len_n D HD). cbn [obind]. cbv zeta. rewrite (hex_len D).
    destruct (Nat.eqb_spec (length data) (2 * L * 2)) as [EL|NE]; cbn [negb].
    2:{ left. split; [reflexivity|]. intros r s (rs & ss & (H1 & _) & (H2 & _) & ->). apply NE. rewrite app_length. lia. }
    unfold slice_to, slice_from. rewrite !slice_ret by lia. cbn [obind]. rewrite Nat.sub_0_r. cbn [skipn].
    replace (length data - 2 * L)%nat with (length (skipn (2 * L) data)) by (rewrite skipn_length; lia). rewrite firstn_all.
    pose proof (firstn_bytes (2 * L) data Hb) as B1. pose proof (skipn_bytes (2 * L) data Hb) as B2.
    assert (F1 : length (firstn (2 * L) data) = (2 * L)%nat) by (rewrite firstn_length; lia). assert (F2 : length (skipn (2 * L) data) = (2 * L)%nat) by (rewrite skipn_length; lia).
    assert (GD : forall r s, p1363 L r s data -> hex_number L (firstn (2 * L) data) r /\ hex_number L (skipn (2 * L) data) s).
    { intros r s (rs & ss & H1 & H2 & ED). destruct (app_cut rs ss data (2 * L) ED (proj1 H1)) as [-> ->]. auto. }
    destruct (hex_or_fixed SDInvalidFormat L _ B1 F1 Lp) as [(r & rb & Hr & -> & Wr & Vr)|[NX ->]]; cbn [rbind].
    2:{ left. split; [reflexivity|]. intros r s H. apply GD in H as [H _]. eapply NX; eauto. }
    destruct (hex_or_fixed SDInvalidFormat L _ B2 F2 Lp) as [(s & sb & Hs & -> & Ws & Vs)|[NY ->]]; cbn [rbind].
    2:{ left. split; [reflexivity|]. intros r' s' H. apply GD in H as [_ H]. eapply NY; eauto. }
    right. split.
    - rewrite signature_new_spec by (assumption || apply HD). cbn [obind]. match goal with |- context [if ?b then _ else _] => destruct b end; discriminate.
    - exists r, s, (firstn (2 * L) data), (skipn (2 * L) data). split; [assumption|]. split; [assumption|]. symmetry. apply firstn_skipn. }
  split; (split; [intros K|intros K]).
  - destruct FM as [[_ FM]|[FM _]]; [exact FM|contradiction].
  - destruct FM as [[FM _]|[_ (r & s & FM)]]; [exact FM|]. destruct (K r s FM).
  - destruct FM as [[FM _]|[_ (r & s & FM)]]; [congruence|]. exists r, s. split; [exact FM|]. assert (res = Err SDInvalidSignature) by congruence. subst res. exact (HR r s FM).
  - destruct K as (r & s & K & R). destruct FM as [[_ FM]|[FM _]]; [destruct (FM r s K)|]. destruct res as [sg|[]]; [|contradiction|exact EQ].
    exfalso. destruct HR as ((_ & _ & _ & Rr & Rs) & ED & T). destruct (FN _ _ _ _ T K) as [Er Es]. rewrite Er, ED in Rr. rewrite Es, ED in Rs. exact (R (conj Rr Rs)).
Qed.
Theorem p1363_error_iff data m : bytes data -> (fails_with signature_error_display (from_p1363_hex data D) m <-> p1363_error n data m).
Proof.
  intros Hb. destruct (p1363_errors data Hb) as [A B]. unfold fails_with, p1363_error. split.
  - intros (e & K & <-). destruct e; [left|right]; (split; [reflexivity|]); [now apply A|now apply B].
  - intros [[-> K]|[-> K]]; [exists SDInvalidFormat|exists SDInvalidSignature]; (split; [|reflexivity]); [now apply A|now apply B].
Qed.
End Params.

(** * Hashes *)
Lemma message_inv {F A} (message : F -> list Z) (o : outcome (result F A)) e m : message e = m -> (forall e', message e' = m -> e' = e) ->
  (fails_with message o m <-> o = Ret (Err e)).
Proof. intros M I. split; [intros (e' & -> & K); do 2 f_equal; auto|intros ->; now exists e]. Qed.
Ltac one_error := intros e'; destruct e'; intros K; reflexivity || discriminate K.
Theorem sign_messages be nm sk fuel hash o rng (st : h_state (hasher_of be nm)) :
  code_sk sk -> nbits (order (sk_params sk)) < 2 ^ 60 -> bytes hash -> rng_ok rng -> obj nm be st ->
  (so_strict o = true -> strict_usable cfg (order (sk_params sk))) ->
  let fails := fails_with signing_error_display (sign_with_hasher (hasher_of be nm) fuel hash sk o rng st) in
  let n := order (sk_params sk) in let right_length := 8 * Z.of_nat (length hash) = nbits n in
  (fails (ascii "Empty hash is not allowed") <-> hash = []) /\
  (fails (ascii "Hash length in bits doesn't equal to the order of the base point in bits") <-> hash <> [] /\ so_strict o = true /\ ~ right_length) /\
  (fails (ascii "Zero hash is not allowed") <-> hash <> [] /\ (so_strict o = true -> right_length) /\ so_zero o = false /\ hash_int n hash = 0).
Proof.
  intros H1 H2 H3 H4 H5 H6. cbv zeta. destruct (P_EcdsaProp2.sign_gates be nm sk fuel hash o rng st H1 H2 H3 H4 H5 H6) as (A & B & C). cbv zeta in *.
  rewrite (message_inv _ _ SEmptyHash); [|reflexivity|one_error]. rewrite (message_inv _ _ SHashBitLength); [|reflexivity|one_error]. rewrite (message_inv _ _ SZeroHash); [|reflexivity|one_error].
  split; [exact A|]. split; [exact B|exact C].
Qed.
Theorem verify_messages pk sg hash o : code_pk pk -> code_sig sg -> sig_params sg = pk_params pk -> bytes hash ->
  (vo_strict o = true -> strict_usable cfg (order (pk_params pk))) ->
  let fails := fails_with verifying_error_display (verify_with_options hash sg pk o) in
  let n := order (pk_params pk) in let right_length := 8 * Z.of_nat (length hash) = nbits n in let low := bi_val (sig_s sg) <= n / 2 in
  (fails (ascii "Empty hash is not allowed") <-> hash = []) /\
  (fails (ascii "A ""high s"" is found when ""low s"" is enforced") <-> hash <> [] /\ vo_low_s o = true /\ ~ low) /\
  (fails (ascii "Hash length in bits doesn't equal to the order of the base point in bits") <-> hash <> [] /\ (vo_low_s o = true -> low) /\ vo_strict o = true /\ ~ right_length) /\
  (fails (ascii "Zero hash is not allowed") <-> hash <> [] /\ (vo_low_s o = true -> low) /\ (vo_strict o = true -> right_length) /\ hash_int n hash = 0).
Proof.
  intros H1 H2 H3 H4 H5. cbv zeta. destruct (P_EcdsaProp2.verify_gates pk sg hash o H1 H2 H3 H4 H5) as (A & B & C & D & _). cbv zeta in *.
  rewrite (message_inv _ _ VEmptyHash); [|reflexivity|one_error]. rewrite (message_inv _ _ VStrictHighS); [|reflexivity|one_error].
  rewrite (message_inv _ _ VHashBitLength); [|reflexivity|one_error]. rewrite (message_inv _ _ VZeroHash); [|reflexivity|one_error].
  split; [exact A|]. split; [rewrite Z.nle_gt; exact B|]. split; [exact C|exact D].
Qed.
Theorem recover_messages sg hash id o : code_sig sg -> 0 <= d_cofactor (sig_params sg) < 2 ^ 32 -> bytes hash ->
  (ro_strict o = true -> strict_usable cfg (order (sig_params sg))) ->
  let fails := fails_with recovery_error_display (recover_with_options sg hash id o) in
  let n := order (sig_params sg) in let right_length := 8 * Z.of_nat (length hash) = nbits n in
  (fails (ascii "Empty hash is not allowed") <-> hash = []) /\
  (fails (ascii "Hash length in bits doesn't equal to the order of the base point in bits") <-> hash <> [] /\ ro_strict o = true /\ ~ right_length) /\
  (fails (ascii "Zero hash is not allowed") <-> hash <> [] /\ (ro_strict o = true -> right_length) /\ hash_int n hash = 0) /\
  ~ fails (ascii "Invalid Signature").
Proof.
  intros H1 H2 H3 H4. cbv zeta. destruct (P_EcdsaProp2.recover_gates sg hash id o H1 H2 H3 H4) as (A & B & C & _ & D & _). cbv zeta in *.
  rewrite (message_inv _ _ REmptyHash); [|reflexivity|one_error]. rewrite (message_inv _ _ RHashBitLength); [|reflexivity|one_error].
  rewrite (message_inv _ _ RZeroHash); [|reflexivity|one_error]. rewrite (message_inv _ _ RInvalidSignature); [|reflexivity|one_error].
  split; [exact A|]. split; [exact B|]. split; [exact C|exact D].
Qed.
End Proofs.

Lemma wrapped :
  (forall e, nonce_error_display (FailedToGenerateRandomBytes e) = ascii "Failed to generate random bytes: " ++ random_error_display e) /\
  (forall e, signing_error_display (SFailedToGenerateNonce e) = ascii "Failed to generate deterministic nonce: " ++ nonce_error_display e) /\
  (forall e, building_error_display (inr (SigningError e)) = ascii "Signing error: " ++ signing_error_display e) /\
  building_error_display (inl MissingFields) = ascii "Some fields are missing" /\
  ssz_error_display SszInvalidFormat = ascii "Invalid format".
Proof. repeat split; reflexivity. Qed.

(** * Examples *)
Definition says {E A} (message : E -> list Z) (o : outcome (result E A)) : list Z := match o with Ret (Err e) => message e | _ => [] end.
Lemma says_fails {E A} (message : E -> list Z) (o : outcome (result E A)) m : m <> [] -> says message o = m -> fails_with message o m.
Proof. intros N H. unfold says in H. destruct o as [[a|e]| |]; try congruence. exists e. auto. Qed.
Lemma example_errors : forall cfg : digit_cfg, exists D, code_params D /\ nbytes (order D) = 1%nat /\
  let key t := fails_with point_error_display (from_sec1_hex (ascii t) D) in
  let sig t := fails_with signature_error_display (from_p1363_hex (ascii t) D) in
  let num t := fails_with parse_int_error_display (bi_from_hex (ascii t)) in
  key "0405"%string (ascii "Invalid format") /\ key "04+501"%string (ascii "Invalid x") /\ key "0405-1"%string (ascii "Invalid y") /\ key "0201"%string (ascii "Y not found") /\
  key "040502"%string (ascii "Invalid point") /\ key "0316"%string (ascii "Invalid point") /\ sig "05"%string (ascii "Invalid format") /\ sig "0500"%string (ascii "Invalid signature") /\
  num "-"%string (ascii "Invalid input") /\ num "-123"%string (ascii "Codecs error: Not 1-byte aligned") /\ num "0x"%string (ascii "Codecs error: Invalid char found").
Proof.
  intros cfg. destruct (P_EcEx.toy_code cfg) as (D & ED & HD & VD). exists D. split; [exact HD|].
  split; [change (order D) with (e_order (params_val D)); rewrite VD; reflexivity|]. cbv zeta.
  assert (R : forall {E A} (message : E -> list Z) (f : params -> outcome (result E A)) m, m <> [] ->
    match small_params 2 2 17 5 1 19 1 with Ret D => says message (f D) | _ => [] end = m -> fails_with message (f D) m).
  { intros E A message f m N K. rewrite ED in K. now apply says_fails. }
  clear VD HD.
  split; [apply (R _ _ _ (from_sec1_hex _)); [discriminate|clear; destruct cfg; vm_compute; reflexivity]|].
  split; [apply (R _ _ _ (from_sec1_hex _)); [discriminate|clear; destruct cfg; vm_compute; reflexivity]|].
  split; [apply (R _ _ _ (from_sec1_hex _)); [discriminate|clear; destruct cfg; vm_compute; reflexivity]|].
  split; [apply (R _ _ _ (from_sec1_hex _)); [discriminate|clear; destruct cfg; vm_compute; reflexivity]|].
  split; [apply (R _ _ _ (from_sec1_hex _)); [discriminate|clear; destruct cfg; vm_compute; reflexivity]|].
  split; [apply (R _ _ _ (from_sec1_hex _)); [discriminate|clear; destruct cfg; vm_compute; reflexivity]|].
  split; [apply (R _ _ _ (from_p1363_hex _)); [discriminate|clear; destruct cfg; vm_compute; reflexivity]|].
  split; [apply (R _ _ _ (from_p1363_hex _)); [discriminate|clear; destruct cfg; vm_compute; reflexivity]|].
  split; [apply says_fails; [discriminate|clear; destruct cfg; vm_compute; reflexivity]|].
  split; [apply says_fails; [discriminate|clear; destruct cfg; vm_compute; reflexivity]|].
  apply says_fails; [discriminate|clear; destruct cfg; vm_compute; reflexivity].
Qed.
Lemma example_os_errors : signing_error_display (SFailedToGenerateNonce (FailedToGenerateRandomBytes (LinuxGetRandom 38))) =
    ascii "Failed to generate deterministic nonce: Failed to generate random bytes: getrandom failed with errno 38" /\
  signing_error_ok (SFailedToGenerateNonce (FailedToGenerateRandomBytes (LinuxGetRandom 38))).
Proof. split; [vm_compute; reflexivity|]. cbn. unfold random_error_ok. cbn [error_number]. lia. Qed.

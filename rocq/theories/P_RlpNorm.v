(** Proofs that decoding and encoding again gives the canonical form. *)

From Verif Require Import Base M_Parity M_Codec M_BigInt M_BigText M_Hmac M_Rlp M_EthTypes M_Tx S_BigInt S_Hash S_Rlp S_EthTypes S_Tx S_RlpRead.
From Verif Require Import P_BigInt3 P_BigInt4 P_BigApi P_Rlp P_Rlp2 P_Utf8 P_EthTypes P_Rlp3 P_Tx P_RlpRead P_RlpRead2.
Open Scope Z_scope.

(** [j] has the strings of [i], some of them shorter *)
Inductive thin : item -> item -> Prop :=
| thin_str c b : c = b \/ (length c < length b)%nat -> thin (Str c) (Str b)
| thin_lst l m : Forall2 thin l m -> thin (Lst l) (Lst m).
Lemma thin_refl i : thin i i.
Proof.
  induction i as [b|l IH] using item_rect'; constructor; [now left|]. induction IH; constructor; assumption.
Qed.
Lemma BE_thin b : bytes b -> BE (be_val b) = b \/ (length (BE (be_val b)) < length b)%nat.
Proof.
  intros Hb. destruct b as [|x t]; [left; reflexivity|]. destruct (Z.eq_dec x 0) as [->|N].
  - right. rewrite be_val_cons. inversion Hb as [|? ? _ Ht]; subst. pose proof (be_val_bound t Ht).
    replace (0 * 256 ^ Z.of_nat (length t) + be_val t) with (be_val t) by lia. pose proof (BE_length (length t) (be_val t) ltac:(lia)). cbn [length]. lia.
  - left. symmetry. apply minimal_BE; [apply be_val_bound, Hb|]. split; [exact Hb|]. split; [reflexivity|]. right. exact N.
Qed.
Lemma header_thin o t h m x : header t h (Z.of_nat m) -> (length x <= m)%nat ->
  exists e, with_length o x = Some e /\ (length e <= length h + m)%nat.
Proof.
  intros H L. unfold with_length. destruct (Z.ltb_spec (Z.of_nat (length x)) 56).
  - eexists. split; [reflexivity|]. destruct (header_length _ _ _ H). cbn [length]. lia.
  - assert (G : exists l, bytes l /\ (1 <= length l <= 8)%nat /\ be_val l = Z.of_nat m /\ length h = S (length l)).
    { remember (Z.of_nat m) as k eqn:Ek. destruct H; try lia; exists l; auto. }
    destruct G as (l & Hl & Ll & Vl & Lh). pose proof (be_val_bound l Hl) as [_ B].
    assert (B2 : 256 ^ Z.of_nat (length l) <= 256 ^ 8) by (apply Z.pow_le_mono_r; lia). change (256 ^ 8) with (2 ^ 64) in B2.
    destruct (Z.ltb_spec (Z.of_nat (length x)) (2 ^ 64)); [|lia]. eexists. split; [reflexivity|].
    pose proof (BE_length (length l) (Z.of_nat (length x)) ltac:(lia)). cbn [length]. rewrite app_length. lia.
Qed.
Lemma lax_str_inv b data : lax_rlp (Str b) data -> (exists y, b = [y] /\ data = [y] /\ 0 <= y < 128) \/
  exists h, data = h ++ b /\ header SingleValue h (Z.of_nat (length b)).
Proof. intros H. inversion H; subst; [left; eauto|right; eauto]. Qed.
Lemma lax_list_inv l data : lax_rlp (Lst l) data -> exists h x, data = h ++ x /\ header List h (Z.of_nat (length x)) /\ lax_items l x.
Proof. intros H. inversion H; subst; eauto. Qed.
Lemma thin_len i : forall j data, thin j i -> lax_rlp i data -> exists s, RLP j = Some s /\ (length s <= length data)%nat.
Proof.
  induction i as [b|l IH] using item_rect'; intros j data T X.
  - inversion T as [c b' D|]; subst. cbn [RLP]. destruct (lax_str_inv _ _ X) as [(y & -> & -> & Hy)|(h & -> & H)].
    + destruct D as [->|D].
      * cbn [R_b]. rewrite (proj2 (Z.ltb_lt y 128)) by lia. eauto.
      * destruct c; [|cbn [length] in D; lia]. eexists. split; [reflexivity|]. cbn. lia.
    + rewrite app_length. destruct (header_thin 128 _ _ _ c H) as (e & E & L); [destruct D as [->|D]; lia|].
      unfold R_b. destruct c as [|y [|z c]]; [eauto| |eauto]. destruct (y <? 128); [|eauto]. eexists. split; [reflexivity|].
      destruct (header_length _ _ _ H). cbn [length]. lia.
  - inversion T as [|l' m F]; subst. destruct (lax_list_inv _ _ X) as (h & x & -> & H & LI). rewrite RLP_Lst, app_length.
    assert (G : exists y, RLPs l' = Some y /\ (length y <= length x)%nat).
    { clear H T X. revert x LI. induction F as [|j i l' l Ti F IHF]; intros x LI; cbn [RLPs].
      - inversion LI; subst. exists []. auto.
      - inversion LI as [|? u ? v Hu Hv]; subst. inversion IH as [|? ? IHi IHl]; subst.
        destruct (IHi _ _ Ti Hu) as (s & -> & Ls). destruct (IHF IHl _ Hv) as (y & -> & Ly). eexists. split; [reflexivity|]. rewrite !app_length. lia. }
    destruct G as (y & -> & Ly). eapply header_thin; eassumption.
Qed.
Lemma lax_item_bytes i : forall data, lax_rlp i data -> bytes data -> item_bytes i.
Proof.
  induction i as [b|l IH] using item_rect'; intros data X B.
  - cbn [item_bytes]. destruct (lax_str_inv _ _ X) as [(y & -> & -> & Hy)|(h & -> & _)]; [exact B|]. apply Forall_app in B. apply B.
  - destruct (lax_list_inv _ _ X) as (h & x & -> & _ & LI). apply Forall_app in B. destruct B as [_ B]. apply item_bytes_Lst.
    clear X. revert x LI B. induction IH as [|i l IHi IHl IH2]; intros x LI B; constructor.
    + inversion LI; subst. apply Forall_app in B. eapply IHi; [eassumption|apply B].
    + inversion LI; subst. apply Forall_app in B. eapply IH2; [eassumption|apply B].
Qed.

(** decoded, then encoded *)
Definition normal {A} (e : A -> encoding_item -> outcome encoding_item) (d : decoding_item -> outcome (result RlpDataDecodingError A))
  (to : A -> item) (P : A -> Prop) (eqv : A -> A -> Prop) (dbg : bool) (data : list Z) (a : A) : Prop :=
  P a /\ exists s, encode e a = Ret s /\ RLP (to a) = Some s /\ (length s <= length data)%nat /\
    (exists a', decode dbg d s = Ret (Ok a') /\ eqv a a') /\
    (s = data <-> exists b, P b /\ RLP (to b) = Some data).
Lemma normalises {A} (e : A -> encoding_item -> outcome encoding_item) (d : decoding_item -> outcome (result RlpDataDecodingError A))
  (to : A -> item) (P : A -> Prop) (eqv : A -> A -> Prop) (M : item -> A -> Prop) (dbg : bool) :
  (forall (a : A) s, P a -> RLP (to a) = Some s -> Z.of_nat (length s) < 2 ^ 63 ->
    encode e a = Ret s /\ ((exists a', decode dbg d s = Ret (Ok a') /\ eqv a a') \/ exists er, decode dbg d s = Ret (Err er))) ->
  (forall a b, eqv a b -> to a = to b) ->
  (forall i a, item_bytes i -> M i a -> P a /\ thin (to a) i /\ forall s, RLP (to a) = Some s -> Z.of_nat (length s) < 2 ^ 63 -> forall er, decode dbg d s <> Ret (Err er)) ->
  forall data (a : A), bytes data -> Z.of_nat (length data) < 2 ^ 63 -> (exists i, lax_rlp i data /\ M i a) ->
  decode dbg d data = Ret (Ok a) -> normal e d to P eqv dbg data a.
Proof.
  intros R Q MP data a Hb Hl (i & X & Mi) D. pose proof (lax_item_bytes i data X Hb) as Bi.
  destruct (MP i a Bi Mi) as (Pa & T & NE). split; [exact Pa|].
  destruct (thin_len i _ _ T X) as (s & Es & Ls). exists s. destruct (R a s Pa Es ltac:(lia)) as [En De].
  split; [exact En|]. split; [exact Es|]. split; [exact Ls|]. split.
  - destruct De as [De|(er & De)]; [exact De|]. destruct (NE s Es ltac:(lia) er De).
  - split; [intros ->; eauto|]. intros (b & Pb & Eb). destruct (R b data Pb Eb Hl) as [_ [(a' & Da & E)|(er & Da)]]; [|congruence].
    assert (a' = a) by congruence. subst a'. rewrite (Q _ _ E) in Eb. congruence.
Qed.

Section WithCfg.
Context {cfg : digit_cfg}.
Local Notation bi_val := (S_BigInt.bi_val (cfg:=cfg)).

Lemma str_thin i b : item_bytes i -> i = Str b -> bytes b /\ thin (Str b) i.
Proof. intros B ->. split; [exact B|apply thin_refl]. Qed.
Lemma u64_means i n : item_bytes i -> means Tu64 i n -> u64_ok n /\ thin (num n) i.
Proof.
  intros B (b & -> & L & ->). cbn [item_bytes] in B. pose proof (be_val_bound b B) as [H1 H2].
  assert (B2 : 256 ^ Z.of_nat (length b) <= 256 ^ 8) by (apply Z.pow_le_mono_r; lia). change (256 ^ 8) with (2 ^ 64) in B2.
  split; [split; lia|]. constructor. now apply BE_thin.
Qed.
Lemma nonce_means i n : item_bytes i -> means TNonce i n -> nonce_ok n /\ thin (num n) i.
Proof.
  intros B (b & -> & L & -> & N). destruct (u64_means (Str b) (be_val b) B) as [[H1 H2] T]; [exists b; auto|].
  split; [split; lia|exact T].
Qed.
Lemma big_means i x : item_bytes i -> means TBigUint i x -> big_ok x /\ thin (big x) i.
Proof.
  intros B (b & -> & W & V). cbn [item_bytes] in B. pose proof (be_val_bound b B) as [H1 H2].
  split; [split; [exact W|lia]|]. constructor. rewrite V. now apply BE_thin.
Qed.
Lemma address_means i a : item_bytes i -> means TAddress i a -> address_ok a /\ thin (Str a) i.
Proof. intros B [-> L]. split; [split; [exact B|exact L]|apply thin_refl]. Qed.
Lemma ali_means_ok i v : item_bytes i -> ali_means i v -> ok TAccessListItem v /\ thin (ali_item v) i.
Proof.
  intros B (-> & L & F). split; [|apply thin_refl]. unfold ali_item in B. apply item_bytes_Lst in B.
  inversion B as [|? ? B1 B']; subst. inversion B' as [|? ? B2 _]; subst. cbn [item_bytes] in B1. apply item_bytes_Lst in B2.
  split; [split; assumption|]. clear B B' B1 L. induction F as [|k ks Lk F IH]; constructor.
  - inversion B2; subst. split; assumption.
  - apply IH. now inversion B2.
Qed.
Lemma vec_means {A} (M : item -> A -> Prop) (P : A -> Prop) to l v :
  (forall i a, item_bytes i -> M i a -> P a /\ thin (to a) i) ->
  item_bytes (Lst l) -> Forall2 M l v -> Forall P v /\ thin (Lst (map to v)) (Lst l).
Proof.
  intros H B F. apply item_bytes_Lst in B. assert (G : Forall P v /\ Forall2 thin (map to v) l).
  { induction F as [|i a l v Ma F IH]; [split; constructor|]. inversion B as [|? ? B1 B2]; subst.
    destruct (IH B2) as [G1 G2]. destruct (H i a B1 Ma) as [H1 H2]. split; constructor; assumption. }
  destruct G. split; [assumption|now constructor].
Qed.
Lemma access_means i v : item_bytes i -> means TAccessList i v -> ok TAccessList v /\ thin (access v) i.
Proof. intros B (l & -> & F). exact (vec_means ali_means (ok TAccessListItem) ali_item l v ali_means_ok B F). Qed.
Lemma means_ok t : forall i v, item_bytes i -> means t i v -> ok t v /\ thin (item_of t v) i.
Proof.
  induction t as [| | | | | | | | | | |t IH]; intros i v B H;
  first [exact (u64_means i v B H)|exact (nonce_means i v B H)|exact (big_means i v B H)|exact (address_means i v B H)|exact (ali_means_ok i v B H)|exact (access_means i v B H)|idtac].
  all: cbn [means ok item_of] in *.
  all: try (destruct H as (l & -> & F); exact (vec_means (means t) (ok t) (item_of t) l v IH B F)).
  all: try (destruct H as [-> U]; split; [split; [exact B|exact U]|apply thin_refl]).
  subst i. split; [exact B|apply thin_refl].
Qed.
Lemma same_item_int x y : same_int x y -> big x = big y.
Proof. intros [_ V]. unfold big. now rewrite V. Qed.
Lemma same_item t : forall v w, same t v w -> item_of t v = item_of t w.
Proof.
  induction t as [| | | | | | | | | | |t IH]; intros v w H; try exact (f_equal _ H); try exact (same_item_int _ _ H).
  cbn [item_of same] in *. f_equal. induction H; cbn [map]; [reflexivity|]. f_equal; [now apply IH|assumption].
Qed.

Lemma typed_normal dbg t data v : bytes data -> Z.of_nat (length data) < 2 ^ 63 -> decode dbg (dec dbg t) data = Ret (Ok v) ->
  normal (enc t) (dec dbg t) (item_of t) (ok t) (same t) dbg data v.
Proof.
  intros Hb Hl D. apply (normalises _ _ _ _ _ (means t)); auto.
  - intros a s Ha R L. destruct (typed_roundtrip dbg t a s Ha R L). auto.
  - apply same_item.
  - intros i a B H. destruct (means_ok t i a B H) as [K T]. split; [exact K|]. split; [exact T|]. intros s R L er.
    destruct (typed_roundtrip dbg t a s K R L) as (_ & a' & E & _). congruence.
  - destruct (typed_decode_exact dbg t data Hb Hl) as (H & _). now apply H.
Qed.

Ltac parts B := apply item_bytes_Lst in B; repeat match type of B with Forall item_bytes (_ :: _) =>
  let B1 := fresh "B" in let B' := fresh "B" in inversion B as [|? ? B1 B']; subst; clear B; rename B' into B end; clear B.
Ltac use lem := match goal with H : means _ ?i _, B : item_bytes ?i |- _ =>
  let K := fresh "K" in let T := fresh "T" in destruct (lem i _ B H) as [K T]; clear H B end.
Lemma bytes_means i b : item_bytes i -> means TBytes i b -> bytes b /\ thin (Str b) i.
Proof. intros B H. cbn in H. subst i. split; [exact B|apply thin_refl]. Qed.

Lemma legacy_means i t : item_bytes i -> means_legacy i t -> tx_ok_legacy t /\ thin (tx_item_legacy t) i.
Proof.
  intros B (i0 & i1 & i2 & i3 & i4 & i5 & i6 & i7 & i8 & -> & M0 & M1 & M2 & M3 & M4 & M5 & [M6 Hv] & M7 & M8). parts B.
  destruct (nonce_means i0 _ ltac:(assumption) M0) as [K0 T0]. destruct (big_means i1 _ ltac:(assumption) M1) as [K1 T1].
  destruct (u64_means i2 _ ltac:(assumption) M2) as [K2 T2]. destruct (address_means i3 _ ltac:(assumption) M3) as [K3 T3].
  destruct (big_means i4 _ ltac:(assumption) M4) as [K4 T4]. destruct (bytes_means i5 _ ltac:(assumption) M5) as [K5 T5].
  destruct (u64_means i6 _ ltac:(assumption) M6) as [K6 T6]. destruct (big_means i7 _ ltac:(assumption) M7) as [K7 T7].
  destruct (big_means i8 _ ltac:(assumption) M8) as [K8 T8].
  split; [|constructor; unfold items_legacy; cbn [app]; repeat (constructor; [assumption|]); constructor].
  unfold tx_ok_legacy, payload_ok_legacy, u64_ok in *. repeat (split; try assumption); lia.
Qed.
Lemma legacy_item t u : tx_same_legacy t u -> tx_item_legacy t = tx_item_legacy u.
Proof.
  intros ((H0 & H1 & H2 & H3 & H4 & H5) & H6 & H7 & H8). unfold tx_item_legacy, items_legacy.
  now rewrite H0, (same_item_int _ _ H1), H2, H3, (same_item_int _ _ H4), H5, H6, (same_item_int _ _ H7), (same_item_int _ _ H8).
Qed.
Lemma legacy_normal dbg data t : bytes data -> Z.of_nat (length data) < 2 ^ 63 -> decode dbg (decode_transaction_legacy dbg) data = Ret (Ok t) ->
  normal encode_transaction_legacy (decode_transaction_legacy dbg) tx_item_legacy tx_ok_legacy tx_same_legacy dbg data t.
Proof.
  intros Hb Hl D. apply (normalises _ _ _ _ _ means_legacy); auto.
  - intros a s Ha R L. destruct (tx_legacy_roundtrip dbg a s Ha R L). auto.
  - apply legacy_item.
  - intros i a B H. destruct (legacy_means i a B H) as [K T]. split; [exact K|]. split; [exact T|]. intros s R L er.
    destruct (tx_legacy_roundtrip dbg a s K R L) as (_ & a' & E & _). congruence.
  - destruct (decode_exact dbg _ _ _ _ data (legacy_exact dbg) Hb Hl) as (H & _). now apply H.
Qed.

Lemma e2930_means i t : item_bytes i -> means_2930 i t -> tx_ok_2930 t /\ thin (tx_item_2930 t) i.
Proof.
  intros B (i0 & i1 & i2 & i3 & i4 & i5 & i6 & i7 & i8 & i9 & i10 & -> & M0 & M1 & M2 & M3 & M4 & M5 & M6 & M7 & M8 & M9 & M10). parts B.
  destruct (big_means i0 _ ltac:(assumption) M0) as [K0 T0]. destruct (nonce_means i1 _ ltac:(assumption) M1) as [K1 T1].
  destruct (big_means i2 _ ltac:(assumption) M2) as [K2 T2]. destruct (u64_means i3 _ ltac:(assumption) M3) as [K3 T3].
  destruct (address_means i4 _ ltac:(assumption) M4) as [K4 T4]. destruct (big_means i5 _ ltac:(assumption) M5) as [K5 T5].
  destruct (bytes_means i6 _ ltac:(assumption) M6) as [K6 T6]. destruct (access_means i7 _ ltac:(assumption) M7) as [K7 T7].
  destruct (u64_means i8 _ ltac:(assumption) M8) as [K8 T8]. destruct (big_means i9 _ ltac:(assumption) M9) as [K9 T9].
  destruct (big_means i10 _ ltac:(assumption) M10) as [K10 T10].
  split; [|constructor; unfold items_2930; cbn [app]; repeat (constructor; [assumption|]); constructor].
  unfold tx_ok_2930, payload_ok_2930. repeat (split; try assumption).
Qed.
Lemma e2930_item t u : tx_same_2930 t u -> tx_item_2930 t = tx_item_2930 u.
Proof.
  intros ((H0 & H1 & H2 & H3 & H4 & H5 & H6 & H7) & H8 & H9 & H10). unfold tx_item_2930, items_2930.
  now rewrite (same_item_int _ _ H0), H1, (same_item_int _ _ H2), H3, H4, (same_item_int _ _ H5), H6, H7, H8, (same_item_int _ _ H9), (same_item_int _ _ H10).
Qed.
Lemma e2930_normal dbg data t : bytes data -> Z.of_nat (length data) < 2 ^ 63 -> decode dbg (decode_transaction_eip_2930 dbg) data = Ret (Ok t) ->
  normal encode_transaction_eip_2930 (decode_transaction_eip_2930 dbg) tx_item_2930 tx_ok_2930 tx_same_2930 dbg data t.
Proof.
  intros Hb Hl D. apply (normalises _ _ _ _ _ means_2930); auto.
  - intros a s Ha R L. destruct (tx_2930_roundtrip dbg a s Ha R L) as (_ & ? & ?). auto.
  - apply e2930_item.
  - intros i a B H. destruct (e2930_means i a B H) as [K T]. split; [exact K|]. split; [exact T|]. intros s R L er.
    destruct (tx_2930_roundtrip dbg a s K R L) as (_ & _ & a' & E & _). congruence.
  - destruct (decode_exact dbg _ _ _ _ data (e2930_exact dbg) Hb Hl) as (H & _). now apply H.
Qed.

Lemma e1559_means i t : item_bytes i -> means_1559 i t -> tx_ok_1559 t /\ thin (tx_item_1559 t) i.
Proof.
  intros B (i0 & i1 & i2 & i3 & i4 & i5 & i6 & i7 & i8 & i9 & i10 & i11 & -> & M0 & M1 & M2 & M3 & M4 & M5 & M6 & M7 & M8 & M9 & M10 & M11). parts B.
  destruct (big_means i0 _ ltac:(assumption) M0) as [K0 T0]. destruct (nonce_means i1 _ ltac:(assumption) M1) as [K1 T1].
  destruct (big_means i2 _ ltac:(assumption) M2) as [K2 T2]. destruct (big_means i3 _ ltac:(assumption) M3) as [K3 T3].
  destruct (u64_means i4 _ ltac:(assumption) M4) as [K4 T4].
  destruct (address_means i5 _ ltac:(assumption) M5) as [K5 T5]. destruct (big_means i6 _ ltac:(assumption) M6) as [K6 T6].
  destruct (bytes_means i7 _ ltac:(assumption) M7) as [K7 T7]. destruct (access_means i8 _ ltac:(assumption) M8) as [K8 T8].
  destruct (u64_means i9 _ ltac:(assumption) M9) as [K9 T9]. destruct (big_means i10 _ ltac:(assumption) M10) as [K10 T10].
  destruct (big_means i11 _ ltac:(assumption) M11) as [K11 T11].
  split; [|constructor; unfold items_1559; cbn [app]; repeat (constructor; [assumption|]); constructor].
  unfold tx_ok_1559, payload_ok_1559. repeat (split; try assumption).
Qed.
Lemma e1559_item t u : tx_same_1559 t u -> tx_item_1559 t = tx_item_1559 u.
Proof.
  intros ((H0 & H1 & H2 & H3 & H4 & H5 & H6 & H7 & H8) & H9 & H10 & H11). unfold tx_item_1559, items_1559.
  now rewrite (same_item_int _ _ H0), H1, (same_item_int _ _ H2), (same_item_int _ _ H3), H4, H5, (same_item_int _ _ H6), H7, H8, H9, (same_item_int _ _ H10), (same_item_int _ _ H11).
Qed.
Lemma e1559_normal dbg data t : bytes data -> Z.of_nat (length data) < 2 ^ 63 -> decode dbg (decode_transaction_eip_1559 dbg) data = Ret (Ok t) ->
  normal encode_transaction_eip_1559 (decode_transaction_eip_1559 dbg) tx_item_1559 tx_ok_1559 tx_same_1559 dbg data t.
Proof.
  intros Hb Hl D. apply (normalises _ _ _ _ _ means_1559); auto.
  - intros a s Ha R L. destruct (tx_1559_roundtrip dbg a s Ha R L) as (_ & ? & ?). auto.
  - apply e1559_item.
  - intros i a B H. destruct (e1559_means i a B H) as [K T]. split; [exact K|]. split; [exact T|]. intros s R L er.
    destruct (tx_1559_roundtrip dbg a s K R L) as (_ & _ & a' & E & _). congruence.
  - destruct (decode_exact dbg _ _ _ _ data (e1559_exact dbg) Hb Hl) as (H & _). now apply H.
Qed.

(** EIP-155 *)
Lemma tx155_decode dbg data : bytes data -> Z.of_nat (length data) < 2 ^ 63 ->
  (forall t, decode dbg (decode_transaction_eip_155 dbg) data = Ret (Ok t) -> exists i, lax_rlp i data /\ means_155 i t) /\
  (forall i t, lax_rlp i data -> means_155 i t -> exists t', decode dbg (decode_transaction_eip_155 dbg) data = Ret (Ok t') /\ tx_same_155 t t') /\
  (decode dbg (decode_transaction_eip_155 dbg) data = Ret (Err TransactionTypeMismatch) <->
    exists i t, lax_rlp i data /\ means_155_fields i t /\ bi_val (t155_v t) < 35) /\
  (decode dbg (decode_transaction_eip_155 dbg) data = Panic <-> data_breaks dbg flat_breaks data) /\
  ((exists t, decode dbg (decode_transaction_eip_155 dbg) data = Ret (Ok t)) \/
   (exists er, decode dbg (decode_transaction_eip_155 dbg) data = Ret (Err er) /\ (er = InvalidFormat \/ er = TransactionTypeMismatch)) \/
   decode dbg (decode_transaction_eip_155 dbg) data = Panic).
Proof.
  intros Hb Hl. unfold decode. pose proof (data_exact dbg data Hb Hl) as D. remember (new_from_data dbg data) as o eqn:EO.
  assert (LX : forall i, lax_rlp i data -> exists d, chunk_bytes d data /\ node i d) by (intros i X; now apply lax_chunk).
  destruct D as [x C S|NC NO|DB O NC]; cbn [rbind].
  - assert (N : forall i, lax_rlp i data -> node i x).
    { intros i X. destruct (LX i X) as (d & Cd & N). assert (d = x) by (eapply chunk_fun; eassumption). now subst d. }
    assert (X : forall i, node i x -> lax_rlp i data) by (intros i Nx; apply lax_chunk; eauto).
    pose proof (tx155_sound dbg x S) as H. split; [|split; [|split; [|split]]].
    + intros t E. rewrite E in H. destruct H as [(a & i & Ea & Ni & Mi)|[(a & i & Ea & _)|[Ea|[Ea _]]]]; try discriminate.
      assert (a = t) by congruence. subst a. eauto.
    + intros i t Xi [Mf (G & Wc & Vc)]. pose proof (tx155_complete dbg x i t S (N i Xi) Mf) as K. rewrite (proj2 (Z.ltb_ge _ _) G) in K.
      destruct K as (t' & E & Q & W' & V'). exists t'. split; [exact E|]. split; [exact Q|]. split; [exact W'|]. congruence.
    + split.
      * intros E. rewrite E in H. destruct H as [(a & i & Ea & _)|[(a & i & Ea & Ni & Mi & Lt)|[Ea|[Ea _]]]]; try discriminate. eauto 6.
      * intros (i & t & Xi & Mf & Lt). pose proof (tx155_complete dbg x i t S (N i Xi) Mf) as K. now rewrite (proj2 (Z.ltb_lt _ _) Lt) in K.
    + split.
      * intros E. rewrite E in H. destruct H as [(a & i & Ea & _)|[(a & i & Ea & _)|[Ea|[_ B]]]]; try discriminate. right. eauto.
      * intros [Y|(d & Cd & [T J])].
        -- exfalso. apply (decode_data_panic_iff dbg data Hb Hl) in Y. unfold new_from_data in EO. congruence.
        -- assert (d = x) by (eapply chunk_fun; eassumption). subst d. unfold decode_transaction_eip_155. rewrite T, (jams_items dbg x S T J). reflexivity.
    + destruct H as [(a & i & Ea & _)|[(a & i & Ea & _)|[Ea|[Ea _]]]]; eauto 8.
  - split; [discriminate|]. split; [intros i t X; destruct (LX i X) as (d & Cd & _); destruct (NC _ Cd)|].
    split; [split; [discriminate|intros (i & t & X & _); destruct (LX i X) as (d & Cd & _); destruct (NC _ Cd)]|].
    split; [split; [discriminate|intros [Y|(d & Cd & _)]; [contradiction|destruct (NC _ Cd)]]|eauto 8].
  - split; [discriminate|]. split; [intros i t X; destruct (LX i X) as (d & Cd & _); destruct (NC _ Cd)|].
    split; [split; [discriminate|intros (i & t & X & _); destruct (LX i X) as (d & Cd & _); destruct (NC _ Cd)]|].
    split; [split; [intros _; left; auto|reflexivity]|auto].
Qed.
Lemma tx155_means i t : item_bytes i -> means_155 i t -> tx_ok_155 t /\ thin (tx_item_155 t) i.
Proof.
  intros B ((i0 & i1 & i2 & i3 & i4 & i5 & i6 & i7 & i8 & -> & M0 & M1 & M2 & M3 & M4 & M5 & M6 & M7 & M8) & G & Wc & Vc). parts B.
  destruct (nonce_means i0 _ ltac:(assumption) M0) as [K0 T0]. destruct (big_means i1 _ ltac:(assumption) M1) as [K1 T1].
  destruct (u64_means i2 _ ltac:(assumption) M2) as [K2 T2]. destruct (address_means i3 _ ltac:(assumption) M3) as [K3 T3].
  destruct (big_means i4 _ ltac:(assumption) M4) as [K4 T4]. destruct (bytes_means i5 _ ltac:(assumption) M5) as [K5 T5].
  destruct (big_means i6 _ ltac:(assumption) M6) as [K6 T6]. destruct (big_means i7 _ ltac:(assumption) M7) as [K7 T7].
  destruct (big_means i8 _ ltac:(assumption) M8) as [K8 T8].
  split; [|constructor; unfold items_155; cbn [app]; repeat (constructor; [assumption|]); constructor].
  assert (0 <= (bi_val (t155_v t) - 35) / 4) by (apply Z.div_pos; lia).
  unfold tx_ok_155, payload_ok_155. split; [|auto]. split; [split; [exact Wc|rewrite Vc; assumption]|]. repeat (split; try assumption).
Qed.
Lemma tx155_item t u : tx_same_but_chain_155 t u -> tx_item_155 t = tx_item_155 u.
Proof.
  intros ((H0 & H1 & H2 & H3 & H4 & H5) & H6 & H7 & H8). unfold tx_item_155, items_155.
  now rewrite H0, (same_item_int _ _ H1), H2, H3, (same_item_int _ _ H4), H5, (same_item_int _ _ H6), (same_item_int _ _ H7), (same_item_int _ _ H8).
Qed.
(** the chain id of a decoded transaction is in v *)
Lemma tx155_normal dbg data t : bytes data -> Z.of_nat (length data) < 2 ^ 63 -> decode dbg (decode_transaction_eip_155 dbg) data = Ret (Ok t) ->
  tx_ok_155 t /\ exists s, encode encode_transaction_eip_155 t = Ret s /\ RLP (tx_item_155 t) = Some s /\ (length s <= length data)%nat /\
    (exists t', decode dbg (decode_transaction_eip_155 dbg) s = Ret (Ok t') /\ tx_same_155 t t') /\
    (s = data <-> exists b, tx_ok_155 b /\ RLP (tx_item_155 b) = Some data).
Proof.
  intros Hb Hl D. destruct (tx155_decode dbg data Hb Hl) as (H & _). destruct (H t D) as (i & X & M).
  assert (NO : normal encode_transaction_eip_155 (decode_transaction_eip_155 dbg) tx_item_155 tx_ok_155 tx_same_but_chain_155 dbg data t).
  { apply (normalises _ _ _ _ _ means_155); auto.
    - intros a s Ha R L. destruct (tx_155_decode dbg a s Ha R L) as [E K]. split; [exact E|].
      destruct (_ <? 35); [right; eauto|]. destruct K as (t' & Et & Q & _). left. eauto.
    - apply tx155_item.
    - intros j a B Ma. destruct (tx155_means j a B Ma) as [K T]. split; [exact K|]. split; [exact T|]. intros s R L er.
      destruct (tx_155_decode dbg a s K R L) as [E K']. destruct Ma as (_ & G & _). rewrite (proj2 (Z.ltb_ge _ _) G) in K'.
      destruct K' as (t' & Et & _). congruence. }
  destruct NO as (Ok1 & s & E & R & L & (t' & D' & Q) & Cn). split; [exact Ok1|]. exists s. repeat (split; [assumption|]). split; [|exact Cn].
  exists t'. split; [exact D'|]. split; [exact Q|].
  destruct (tx_155_decode dbg t s Ok1 R ltac:(lia)) as [_ K]. destruct M as (_ & G & Wc & Vc). rewrite (proj2 (Z.ltb_ge _ _) G) in K.
  destruct K as (t'' & D'' & _ & W' & V'). assert (t'' = t') by congruence. subst t''. split; [exact W'|]. congruence.
Qed.
End WithCfg.

(** Proofs about RLP decoding: absence of panics, rejection, instances. *)

From Verif Require Import Base M_Codec M_BigInt M_BigText M_Hmac M_Rlp M_EthTypes S_BigInt S_Hash S_Rlp S_EthTypes.
From Verif Require Import P_BigInt3 P_BigInt4 P_Rlp P_Rlp2 P_EthTypes.
Open Scope Z_scope.

Lemma overflow_free_over data : overflow_free data <-> ~ over data.
Proof.
  unfold overflow_free, over. split.
  - intros H (p & s & E & O). exact (H p s E O).
  - intros H p s E O. apply H. eauto.
Qed.

Lemma tree_no_panic dbg data : bytes data -> Z.of_nat (length data) < 2 ^ 63 -> overflow_free data ->
  (exists i, decode dbg (decode_tree dbg (S (length data))) data = Ret (Ok i)) \/
  decode dbg (decode_tree dbg (S (length data))) data = Ret (Err InvalidFormat).
Proof.
  intros Hb Hl Ho. apply overflow_free_over in Ho.
  destruct (decode_sound dbg data Hb Hl) as [(i & E & _)|[E|[_ O]]]; eauto. contradiction.
Qed.
Lemma header_over_panic data : overflowing_header data -> decode_data true data = Panic.
Proof.
  intros (b & l & rest & Hb & L8 & Hv & ->). unfold decode_data.
  assert (D : forall t, decode_long_header true t 8 (b :: l ++ rest) = Panic).
  { intros t. unfold decode_long_header. unfold usize_add at 1. change (1 + 8 <? 2 ^ 64) with true. cbn [obind].
    destruct (Z.ltb_spec (Z.of_nat (length (b :: l ++ rest))) (1 + 8)) as [H|_]; [cbn [length] in H; rewrite app_length in H; lia|].
    change (8 <=? 8) with true. cbn [oassert]. change (Z.to_nat 8 + 1)%nat with 9%nat.
    unfold slice. assert ((Nat.leb 1 9 && Nat.leb 9 (length (b :: l ++ rest)))%bool = true) as ->.
    { apply andb_true_iff. split; apply Nat.leb_le; cbn [length]; rewrite ?app_length; lia. }
    cbn [obind skipn Nat.sub]. rewrite firstn_app, L8. change (8 - 8)%nat with 0%nat. rewrite firstn_O, app_nil_r, firstn_all2 by lia.
    change (Z.to_nat 8) with 8%nat. cbn [Nat.sub repeat app]. unfold usize_add at 1. change (1 + 8 <? 2 ^ 64) with true. cbn [obind].
    unfold usize_add at 1. change (1 + 8) with 9. destruct (Z.ltb_spec (9 + be_val l) (2 ^ 64)); [lia|]. reflexivity. }
  unfold decode_data_header. destruct Hb as [-> | ->].
  - change (0xbf <=? 0x7f) with false. change (0xbf <=? 0xb7) with false. change (0xbf <=? 0xbf) with true. cbv iota.
    change (0xbf - 0xb7) with 8. now rewrite D.
  - change (0xff <=? 0x7f) with false. change (0xff <=? 0xb7) with false. change (0xff <=? 0xbf) with false. change (0xff <=? 0xf7) with false. cbv iota.
    change (0xff - 0xf7) with 8. now rewrite D.
Qed.
Lemma decode_data_panic_iff dbg data : bytes data -> Z.of_nat (length data) < 2 ^ 63 ->
  decode_data dbg data = Panic <-> dbg = true /\ overflowing_header data.
Proof.
  intros Hb Hl. destruct (decode_data_inv dbg data Hb Hl) as [(t & p & E & R)|[E|(E & D & O)]]; rewrite E.
  - split; [discriminate|]. intros [_ O]. exfalso.
    apply (reads_not_over data t p [] R); rewrite ?app_nil_r; auto.
  - split; [discriminate|]. intros [-> O].
    rewrite (header_over_panic data O) in E. discriminate.
  - split; auto.
Qed.

(** ** Typed decoding *)
Lemma items_no_panic dbg d : small d -> ~ over (snd d) ->
  (exists ds, decode_as_items dbg d = Ret (Ok ds) /\ Forall (fun x => small x /\ ~ over (snd x)) ds) \/
  decode_as_items dbg d = Ret (Err InvalidFormat).
Proof.
  intros [Hb Hl] Ho. unfold decode_as_items. destruct (negb _); [auto|].
  destruct (decode_list_inv dbg (snd d) Hb Hl) as [(ds & E & RA)|[E|[_ O]]]; [|auto|contradiction].
  left. exists ds. split; [exact E|]. pose proof (reads_all_shape _ _ RA Hb (length (snd d)) ltac:(lia)) as S.
  eapply Forall_impl; [|exact S]. intros x (B & L & _ & O). split; [split; [exact B|lia]|]. intros X. apply Ho, O, X.
Qed.
Definition total {A} (dbg : bool) (dec : decoding_item -> outcome (result RlpDataDecodingError A)) : Prop :=
  forall d, small d -> ~ over (snd d) -> exists r, dec d = Ret r.
Lemma decode_all_total {A} dbg (dec : decoding_item -> outcome (result RlpDataDecodingError A)) ds :
  total dbg dec -> Forall (fun x => small x /\ ~ over (snd x)) ds -> exists r, decode_all dec ds = Ret r.
Proof.
  intros T. induction 1 as [|d ds [S O] _ [r IH]]; [eexists; reflexivity|]. cbn [decode_all].
  destruct (T d S O) as ([v|e] & ->); cbn [rbind]; [|eauto]. rewrite IH. destruct r; cbn [rbind]; eauto.
Qed.
Lemma decode_vec_total {A} (dec : decoding_item -> outcome (result RlpDataDecodingError A)) :
  total false dec -> total false (decode_vec false dec).
Proof.
  intros T d S O. unfold decode_vec. cbn [negb orb oassert].
  destruct (items_no_panic false d S O) as [(ds & -> & F)| ->]; cbn [rbind]; [|eauto].
  now apply (decode_all_total false).
Qed.
Lemma u64_total dbg : total dbg decode_u64.
Proof. intros d _ _. unfold decode_u64. destruct (negb _); [eauto|]. destruct (Nat.ltb _ _); eauto. Qed.
Lemma big_total {cfg : digit_cfg} dbg : total dbg decode_biguint.
Proof.
  intros [t p] [Hb _] _. unfold decode_biguint. cbn [fst snd] in *. destruct (negb _); [eauto|].
  assert (R : exists r, match p with [] => bu_from_be_bytes [0] | _ => bu_from_be_bytes p end = Ret r).
  { unfold bu_from_be_bytes. destruct p as [|b p].
    - destruct (bi_from_be_bytes_spec [0] Positive) as (r & -> & _); [discriminate|repeat constructor; unfold byte; lia|eauto].
    - destruct (bi_from_be_bytes_spec (b :: p) Positive) as (r & -> & _); [discriminate|exact Hb|eauto]. }
  destruct R as (r & ->). cbn [obind]. eauto.
Qed.
Lemma storage_key_total dbg : total dbg decode_storage_key.
Proof.
  intros d _ _. unfold decode_storage_key, decode_as_bytes. destruct (negb _); cbn [rbind]; [eauto|]. destruct (storage_key_from_bytes _); eauto.
Qed.
Lemma address_total dbg : total dbg decode_address.
Proof.
  intros d _ _. unfold decode_address, decode_as_bytes. destruct (fst d); cbn [item_type_eqb negb rbind]; [|eauto].
  destruct (address_from_bytes _); eauto.
Qed.
Lemma nonce_total dbg : total dbg decode_nonce.
Proof.
  intros d S O. unfold decode_nonce. destruct (u64_total dbg d S O) as ([n|e] & ->); cbn [rbind]; [|eauto].
  destruct (nonce_try_from n); cbn [map_err rbind]; eauto.
Qed.
Lemma wei_total {cfg : digit_cfg} dbg : total dbg decode_wei.
Proof. intros d S O. unfold decode_wei. destruct (big_total dbg d S O) as ([n|e] & ->); cbn [rbind]; eauto. Qed.
Lemma ali_total : total false (decode_access_list_item false).
Proof.
  intros d S O. unfold decode_access_list_item. destruct (fst d); [eauto|].
  destruct (items_no_panic false d S O) as [(ds & -> & F)| ->]; cbn [rbind]; [|eauto].
  destruct ds as [|d0 [|d1 [|d2 ds]]]; try (eexists; reflexivity).
  inversion F as [|? ? [S0 O0] F1]; subst. inversion F1 as [|? ? [S1 O1] _]; subst.
  destruct (address_total false d0 S0 O0) as ([a|e] & ->); cbn [rbind]; [|eauto].
  destruct (decode_vec_total _ (storage_key_total false) d1 S1 O1) as ([k|e] & ->); cbn [rbind]; eauto.
Qed.
Lemma dec_total {cfg : digit_cfg} dbg t : dbg = false \/ no_vec t = true -> total dbg (dec dbg t).
Proof.
  induction t as [| | | | | | | | | | |t IH]; intros Hd; cbn [dec].
  - apply u64_total. - apply big_total.
  - intros d _ _. unfold decode_vec_u8. destruct (negb _); eauto.
  - intros d _ _. unfold decode_string. destruct (negb _); [eauto|]. destruct (utf8_valid _); eauto.
  - apply address_total. - apply storage_key_total. - apply nonce_total. - apply wei_total. - apply wei_total.
  - destruct Hd as [->|]; [apply ali_total|discriminate].
  - destruct Hd as [->|]; [|discriminate]. intros d S O. unfold decode_access_list. destruct (fst d); [eauto|].
    destruct (decode_vec_total _ ali_total d S O) as ([l|e] & ->); cbn [rbind]; eauto.
  - destruct Hd as [->|]; [|discriminate]. apply decode_vec_total. apply IH. auto.
Qed.
Lemma typed_no_panic {cfg : digit_cfg} dbg t data : dbg = false \/ no_vec t = true ->
  bytes data -> Z.of_nat (length data) < 2 ^ 63 -> overflow_free data ->
  exists r, decode dbg (dec dbg t) data = Ret r.
Proof.
  intros Hd Hb Hl Ho. apply overflow_free_over in Ho. unfold decode, new_from_data.
  destruct (decode_data_inv dbg data Hb Hl) as [(ty & p & -> & R)|[->|(_ & _ & O)]]; cbn [rbind]; [|eauto|].
  - destruct (reads_end_shape data (ty, p) R Hb) as (_ & B & L & O'). cbn [fst snd] in *.
    apply (dec_total dbg t Hd); [split; cbn [snd]; [exact B|lia]|]. intros X. apply Ho, O', X.
  - exfalso. apply Ho. exists [], data. auto.
Qed.

(** ** Truncated and extended data *)
Lemma decode_ok_data {A} dbg (d : decoding_item -> outcome (result RlpDataDecodingError A)) data v :
  decode dbg d data = Ret (Ok v) -> exists t p, decode_data dbg data = Ret (Ok (t, p)).
Proof. unfold decode, new_from_data. destruct (decode_data dbg data) as [[[t p]|e]| |]; cbn [rbind]; try discriminate. eauto. Qed.
Lemma decode_trailing {A B} dbg (d : decoding_item -> outcome (result RlpDataDecodingError A))
  (d' : decoding_item -> outcome (result RlpDataDecodingError B)) data x v :
  bytes (data ++ x) -> Z.of_nat (length (data ++ x)) < 2 ^ 63 -> x <> [] ->
  decode dbg d data = Ret (Ok v) -> decode dbg d' (data ++ x) = Ret (Err InvalidFormat).
Proof.
  intros Hb Hl Hx H. destruct (decode_ok_data dbg d data v H) as (t & p & E). unfold decode, new_from_data.
  now rewrite (decode_data_prefix_free dbg data x t p Hb Hl Hx E).
Qed.
Lemma decode_truncated {A B} dbg (d : decoding_item -> outcome (result RlpDataDecodingError A))
  (d' : decoding_item -> outcome (result RlpDataDecodingError B)) data x v :
  bytes (data ++ x) -> Z.of_nat (length (data ++ x)) < 2 ^ 63 -> x <> [] ->
  decode dbg d (data ++ x) = Ret (Ok v) -> decode dbg d' data = Ret (Err InvalidFormat).
Proof.
  intros Hb Hl Hx H. destruct (decode_ok_data dbg d _ v H) as (t & p & E). unfold decode, new_from_data.
  now rewrite (decode_data_prefix dbg data x t p Hb Hl Hx E).
Qed.
Lemma rlp_cut {B} dbg (d' : decoding_item -> outcome (result RlpDataDecodingError B)) i e :
  item_bytes i -> RLP i = Some e -> Z.of_nat (length e) < 2 ^ 63 ->
  (forall p x, e = p ++ x -> x <> [] -> decode dbg d' p = Ret (Err InvalidFormat)) /\
  (forall x, x <> [] -> bytes x -> Z.of_nat (length (e ++ x)) < 2 ^ 63 -> decode dbg d' (e ++ x) = Ret (Err InvalidFormat)).
Proof.
  intros Hi H Hl. pose proof (RLP_bytes i e Hi H) as Hb. destruct (tree_roundtrip dbg i e Hi H Hl) as [_ D]. split.
  - intros p x -> Hx. exact (decode_truncated dbg _ d' p x _ Hb Hl Hx D).
  - intros x Hx Bx Lx. apply (decode_trailing dbg (decode_tree dbg (S (length e))) d' e x i); auto. now apply Forall_app.
Qed.

Lemma accepts_iff dbg i data : bytes data -> Z.of_nat (length data) < 2 ^ 63 ->
  decode dbg (decode_tree dbg (S (length data))) data = Ret (Ok i) <-> lax_rlp i data.
Proof.
  intros Hb Hl. split; [|intros H; now apply decode_complete]. intros H.
  destruct (decode_sound dbg data Hb Hl) as [(j & E & L)|[E|[E _]]]; rewrite E in H; try discriminate. now injection H as ->.
Qed.

(** Proofs about the RLP form of the Ethereum types. *)

From Verif Require Import Base M_Codec M_BigInt M_BigText M_Hmac M_Rlp M_EthTypes S_BigInt S_Hash S_Rlp S_EthTypes.
From Verif Require Import P_BigInt3 P_BigInt4 P_Rlp P_Rlp2 P_Utf8.
Open Scope Z_scope.

Definition small (d : decoding_item) : Prop := bytes (snd d) /\ Z.of_nat (length (snd d)) < 2 ^ 63.

(** a pair of codecs is right for values of a type when it writes the RLP of the item of
    the value and reads it back *)
Definition enc_ok {A} (e : A -> encoding_item -> outcome encoding_item) (to : A -> item) (P : A -> Prop) : Prop :=
  forall a s it, P a -> RLP (to a) = Some s -> e a it = Ret (it ++ s).
Definition dec_ok {A} (d : decoding_item -> outcome (result RlpDataDecodingError A)) (to : A -> item) (P : A -> Prop) (eqv : A -> A -> Prop) : Prop :=
  forall a x, P a -> small x -> node (to a) x -> exists a', d x = Ret (Ok a') /\ eqv a a'.

Lemma encode_all_ok {A} (e : A -> encoding_item -> outcome encoding_item) to P l :
  enc_ok e to P -> Forall P l -> forall s it, RLPs (map to l) = Some s -> encode_all e l it = Ret (it ++ s).
Proof.
  intros E. induction 1 as [|a l Pa Pl IH]; intros s it H; cbn [map RLPs encode_all] in *.
  - injection H as <-. now rewrite app_nil_r.
  - destruct (RLP (to a)) as [x|] eqn:Ex; [|discriminate]. destruct (RLPs (map to l)) as [y|]; [|discriminate].
    injection H as <-. rewrite (E a x it Pa Ex). cbn [obind]. rewrite (IH y _ eq_refl). now rewrite app_assoc.
Qed.
Lemma encode_vec_ok {A} (e : A -> encoding_item -> outcome encoding_item) to P :
  enc_ok e to P -> enc_ok (encode_vec e) (fun l => Lst (map to l)) (Forall P).
Proof.
  intros E l s it Hl H. rewrite RLP_Lst in H. destruct (RLPs (map to l)) as [x|] eqn:Ex; [|discriminate].
  unfold encode_vec. rewrite (encode_all_ok e to P l E Hl x _ Ex). cbn [obind]. now apply encode_list_payload_spec.
Qed.

(** the children of a list item *)
Lemma children dbg l x : small x -> node (Lst l) x ->
  exists ds, decode_as_items dbg x = Ret (Ok ds) /\ Forall2 node l ds /\ Forall small ds.
Proof.
  intros [Hb Hl] [T N]. apply lax_items_iff in N; [|assumption]. destruct N as (ds & RA & F).
  exists ds. unfold decode_as_items. rewrite T. cbn [item_type_eqb negb]. rewrite (decode_list_ok dbg _ ds RA Hl).
  split; [reflexivity|]. split; [exact F|].
  pose proof (reads_all_shape _ _ RA Hb (length (snd x)) ltac:(lia)) as S. eapply Forall_impl; [|exact S].
  intros d (B & L & _). split; [exact B|lia].
Qed.
Lemma children_inv l ds : Forall2 node l ds -> Forall small ds -> Forall2 (fun i d => small d /\ node i d) l ds.
Proof. induction 1; intros H'; inversion H'; subst; constructor; auto. Qed.

Lemma decode_all_ok {A} (d : decoding_item -> outcome (result RlpDataDecodingError A)) to P eqv l ds :
  dec_ok d to P eqv -> Forall P l -> Forall2 node (map to l) ds -> Forall small ds ->
  exists l', decode_all d ds = Ret (Ok l') /\ Forall2 eqv l l'.
Proof.
  intros D. revert ds. induction l as [|a l IH]; intros ds Hl F S; cbn [map] in F; inversion F as [|i x l' ds' N F']; subst.
  - exists []. split; [reflexivity|constructor].
  - inversion Hl; subst. inversion S; subst. destruct (D a x) as (a' & Ea & Q); auto.
    destruct (IH ds') as (l' & El & QL); auto. exists (a' :: l'). cbn [decode_all]. rewrite Ea. cbn [rbind]. rewrite El.
    split; [reflexivity|now constructor].
Qed.
Lemma decode_vec_ok {A} dbg (d : decoding_item -> outcome (result RlpDataDecodingError A)) to P eqv :
  dec_ok d to P eqv -> dec_ok (decode_vec dbg d) (fun l => Lst (map to l)) (Forall P) (Forall2 eqv).
Proof.
  intros D l x Hl S N. destruct (children dbg _ x S N) as (ds & E & F & Sd). unfold decode_vec.
  destruct N as [T N]. rewrite T. cbn [item_type_eqb]. rewrite orb_true_r. cbn [oassert dassert]. rewrite E. cbn [rbind].
  now apply (decode_all_ok d to P eqv l ds).
Qed.

(** ** Integers *)
Lemma u64_enc : enc_ok encode_u64 (fun n => Str (BE n)) (fun n => 0 <= n < 2 ^ 64).
Proof.
  intros n s it Hn H. unfold encode_u64. rewrite strip_to_be by assumption. cbn [obind].
  now rewrite (encode_single_spec _ _ H).
Qed.
Lemma be_val_zeros k l : be_val (repeat 0 k ++ l) = be_val l.
Proof. induction k as [|k IH]; [reflexivity|]. cbn [repeat app]. rewrite be_val_cons, IH. lia. Qed.
Lemma u64_dec : dec_ok decode_u64 (fun n => Str (BE n)) (fun n => 0 <= n < 2 ^ 64) eq.
Proof.
  intros n x Hn _ N. cbv beta in Hn. cbn [node] in N. subst x. unfold decode_u64. cbn [fst snd item_type_eqb negb].
  pose proof (BE_length 8 n ltac:(change (256 ^ Z.of_nat 8) with (2 ^ 64); lia)).
  destruct (Nat.ltb_spec 8 (length (BE n))); [lia|]. exists n. rewrite be_val_zeros, be_val_BE by lia. auto.
Qed.
Lemma nonce_enc : enc_ok encode_nonce (fun n => Str (BE n)) (fun n => 0 <= n < 2 ^ 64 - 1).
Proof. intros n s it Hn H. cbv beta in Hn. apply u64_enc; [unfold nonce_value; cbv beta; lia|exact H]. Qed.
Lemma nonce_dec : dec_ok decode_nonce (fun n => Str (BE n)) (fun n => 0 <= n < 2 ^ 64 - 1) eq.
Proof.
  intros n x Hn S N. cbv beta in Hn. unfold decode_nonce. destruct (u64_dec n x ltac:(cbv beta; lia) S N) as (n' & -> & <-). cbn [rbind].
  unfold nonce_try_from, nonce_from_u64. destruct (Z.eqb_spec n (2 ^ 64 - 1)); [lia|]. cbn [map_err rbind]. eauto.
Qed.

Section WithCfg.
Context {cfg : digit_cfg}.
Local Notation bi_val := (S_BigInt.bi_val (cfg:=cfg)).

Lemma big_enc : enc_ok encode_biguint (fun x => Str (BE (bi_val x))) (fun x => wf x /\ 0 <= bi_val x).
Proof.
  intros x s it [W Hx] H. unfold encode_biguint, bu_to_be_bytes.
  destruct (bi_to_be_bytes_spec x W) as (l & -> & M). cbn [obind]. rewrite Z.abs_eq in M by assumption.
  destruct M as (Hb & Hv & _). rewrite strip_BE by assumption. cbn [obind]. rewrite Hv.
  now rewrite (encode_single_spec _ _ H).
Qed.
Lemma big_dec : dec_ok decode_biguint (fun x => Str (BE (bi_val x))) (fun x => wf x /\ 0 <= bi_val x) same_int.
Proof.
  intros x d [W Hx] S N. cbn [node] in N. subst d. unfold decode_biguint. cbn [fst snd item_type_eqb negb].
  assert (R : returns (match BE (bi_val x) with [] => bu_from_be_bytes [0] | _ => bu_from_be_bytes (BE (bi_val x)) end) (bi_val x)).
  { pose proof (be_val_BE _ Hx) as V. pose proof (BE_bytes (bi_val x)) as B. unfold bu_from_be_bytes.
    destruct (BE (bi_val x)) as [|b t] eqn:E.
    - rewrite <- V. apply bi_from_be_bytes_spec; [discriminate|]. repeat constructor; unfold byte; lia.
    - rewrite <- V. apply bi_from_be_bytes_spec; [discriminate|exact B]. }
  destruct R as (r & Er & Wr & Vr). rewrite Er. cbn [obind]. exists r. split; [reflexivity|]. split; [exact Wr|now rewrite Vr].
Qed.

(** ** Byte strings *)
Lemma bytes_enc (P : list Z -> Prop) : enc_ok encode_bytes Str P.
Proof. intros b s it _ H. now apply encode_bytes_spec. Qed.
Lemma vec_u8_dec : dec_ok decode_vec_u8 Str bytes eq.
Proof. intros b x _ _ N. cbn [node] in N. subst x. exists b. auto. Qed.
Lemma string_dec : dec_ok decode_string Str (fun s => bytes s /\ UTF8 s) eq.
Proof.
  intros b x [B U] _ N. apply (utf8_valid_iff b B) in U. cbn [node] in N. subst x. exists b. unfold decode_string. cbn [fst snd item_type_eqb negb]. now rewrite U.
Qed.
Lemma address_dec : dec_ok decode_address Str (fun a => bytes a /\ length a = 20%nat) eq.
Proof.
  intros b x [_ L] _ N. cbn [node] in N. subst x. exists b.
  unfold decode_address, decode_as_bytes, address_from_bytes, array_try_from. cbn [fst snd item_type_eqb negb rbind].
  rewrite L. auto.
Qed.
Lemma storage_key_dec : dec_ok decode_storage_key Str (fun a => bytes a /\ length a = 32%nat) eq.
Proof.
  intros b x [_ L] _ N. cbn [node] in N. subst x. exists b.
  unfold decode_storage_key, decode_as_bytes, storage_key_from_bytes, array_try_from. cbn [fst snd item_type_eqb negb rbind].
  rewrite L. auto.
Qed.

(** ** Access lists *)
Definition ali_ok (i : AccessListItem) : Prop :=
  (bytes (ali_address i) /\ length (ali_address i) = 20%nat) /\
  Forall (fun k => bytes k /\ length k = 32%nat) (ali_storage_keys i).

Lemma Forall2_eq {A} (l l' : list A) : Forall2 eq l l' -> l = l'.
Proof. induction 1; congruence. Qed.

Lemma ali_enc : enc_ok encode_access_list_item ali_item ali_ok.
Proof.
  intros i s it [Ha Hk] H. unfold ali_item in H. rewrite RLP_Lst in H.
  set (keys := Lst (map Str (ali_storage_keys i))) in *. cbn [RLPs] in H.
  destruct (RLP (Str (ali_address i))) as [x|] eqn:Ex; [|discriminate].
  destruct (RLP keys) as [y|] eqn:Ey; [|discriminate]. rewrite app_nil_r in H.
  unfold encode_access_list_item. rewrite (bytes_enc (fun _ => True) _ x _ I Ex : encode_address _ _ = _). cbn [obind app enc_new].
  rewrite (encode_vec_ok encode_storage_key Str (fun _ => True) (bytes_enc _) (ali_storage_keys i) y _) by (auto; apply Forall_forall; auto).
  cbn [obind]. now apply encode_list_payload_spec.
Qed.
Lemma ali_dec dbg : dec_ok (decode_access_list_item dbg) ali_item ali_ok eq.
Proof.
  intros i x [Ha Hk] S N. destruct (children dbg _ x S N) as (ds & E & F & Sd). unfold decode_access_list_item.
  destruct N as [T _]. rewrite T, E. cbn [rbind].
  inversion F as [|? d0 ? ds0 N0 F0]; subst. inversion F0 as [|? d1 ? ds1 N1 F1]; subst. inversion F1; subst.
  inversion Sd as [|? ? S0 Sd1]; subst. inversion Sd1 as [|? ? S1 _]; subst.
  destruct (address_dec _ d0 Ha S0 N0) as (a & -> & <-). cbn [rbind].
  destruct (decode_vec_ok dbg decode_storage_key Str _ eq storage_key_dec _ d1 Hk S1 N1) as (ks & -> & Q). cbn [rbind].
  apply Forall2_eq in Q. subst ks. eexists. split; [reflexivity|]. now destruct i.
Qed.
Lemma al_enc : enc_ok encode_access_list (fun l => Lst (map ali_item l)) (Forall ali_ok).
Proof. apply encode_vec_ok, ali_enc. Qed.
Lemma al_dec dbg : dec_ok (decode_access_list dbg) (fun l => Lst (map ali_item l)) (Forall ali_ok) eq.
Proof.
  intros l x Hl S N. unfold decode_access_list.
  destruct (decode_vec_ok dbg _ ali_item ali_ok eq (ali_dec dbg) l x Hl S N) as (l' & -> & Q).
  destruct N as [-> _]. cbn [rbind]. apply Forall2_eq in Q. subst l'. eauto.
Qed.

(** ** All types *)
Lemma wei_dec : dec_ok decode_wei (fun x => Str (BE (bi_val x))) (fun x => wf x /\ 0 <= bi_val x) same_int.
Proof. intros x d H S N. unfold decode_wei. destruct (big_dec x d H S N) as (r & -> & Q). eexists. split; [reflexivity|exact Q]. Qed.

Lemma enc_type t : enc_ok (enc t) (item_of t) (ok t).
Proof.
  induction t; cbn [enc item_of ok].
  - apply u64_enc. - apply big_enc. - apply bytes_enc. - intros b s it _ H. unfold encode_str. now rewrite (encode_single_spec _ _ H).
  - apply bytes_enc. - apply bytes_enc. - apply nonce_enc. - apply big_enc. - apply big_enc.
  - apply ali_enc. - apply al_enc. - now apply encode_vec_ok.
Qed.
Lemma dec_type dbg t : dec_ok (dec dbg t) (item_of t) (ok t) (same t).
Proof.
  induction t; cbn [dec item_of ok same].
  - apply u64_dec. - apply big_dec. - apply vec_u8_dec. - apply string_dec.
  - apply address_dec. - apply storage_key_dec. - apply nonce_dec. - apply wei_dec. - apply wei_dec.
  - apply ali_dec. - apply al_dec. - now apply decode_vec_ok.
Qed.

(** every value encodes as bytes *)
Lemma ali_bytes i : ali_ok i -> item_bytes (ali_item i).
Proof.
  intros [[Ha _] Hk]. unfold ali_item. apply item_bytes_Lst. repeat constructor; [exact Ha|]. apply item_bytes_Lst.
  apply Forall_map. eapply Forall_impl; [|exact Hk]. now intros k [].
Qed.
Lemma item_of_bytes t : forall v, ok t v -> item_bytes (item_of t v).
Proof.
  induction t as [| | | | | | | | | | |t IH]; intros v H; cbn [ok item_of item_bytes] in *; try apply BE_bytes; try tauto.
  - now apply ali_bytes.
  - apply item_bytes_Lst, Forall_map. eapply Forall_impl; [|exact H]. apply ali_bytes.
  - apply item_bytes_Lst, Forall_map. eapply Forall_impl; [|exact H]. exact IH.
Qed.

Lemma RLP_node i s : item_bytes i -> RLP i = Some s -> Z.of_nat (length s) < 2 ^ 63 ->
  bytes s /\ exists d, (forall dbg, decode_data dbg s = Ret (Ok d)) /\ small d /\ node i d.
Proof.
  intros Hi H Hl. pose proof (RLP_bytes i s Hi H) as Hb. split; [exact Hb|].
  pose proof (RLP_lax i s Hi H) as L. apply lax_iff in L; [|exact Hb]. destruct L as (d & R & N). exists d.
  destruct (reads_end_shape s d R Hb) as (_ & B & Ln & _).
  split; [|split; [split; [exact B|lia]|exact N]]. intros dbg. destruct d as [t p]. now apply decode_data_ok.
Qed.

Lemma codec_roundtrip {A} e (d : decoding_item -> outcome (result RlpDataDecodingError A)) to P eqv :
  enc_ok e to P -> dec_ok d to P eqv -> (forall a, P a -> item_bytes (to a)) ->
  forall dbg a s, P a -> RLP (to a) = Some s -> Z.of_nat (length s) < 2 ^ 63 ->
  encode e a = Ret s /\ exists a', decode dbg d s = Ret (Ok a') /\ eqv a a'.
Proof.
  intros E D I dbg a s Ha H Hl. split.
  - unfold encode. rewrite (E a s _ Ha H). reflexivity.
  - destruct (RLP_node _ s (I a Ha) H Hl) as (Hb & x & Dx & S & N). unfold decode, new_from_data. rewrite Dx. cbn [rbind].
    now apply D.
Qed.
Lemma typed_roundtrip dbg t v s : ok t v -> RLP (item_of t v) = Some s -> Z.of_nat (length s) < 2 ^ 63 ->
  encode (enc t) v = Ret s /\ exists v', decode dbg (dec dbg t) s = Ret (Ok v') /\ same t v v'.
Proof.
  intros. eapply (codec_roundtrip (enc t) (dec dbg t) (item_of t) (ok t) (same t)); auto; [apply enc_type|apply dec_type|apply item_of_bytes].
Qed.

End WithCfg.

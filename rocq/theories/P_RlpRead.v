(** Proofs about typed RLP decoding of arbitrary bytes. *)

From Verif Require Import Base M_Parity M_Codec M_BigInt M_BigText M_Hmac M_Rlp M_EthTypes M_Tx S_BigInt S_Hash S_Rlp S_EthTypes S_Tx S_RlpRead.
From Verif Require Import P_BigInt3 P_BigInt4 P_BigApi P_Rlp P_Rlp2 P_EthTypes P_Rlp3 P_Tx P_Utf8.
Open Scope Z_scope.

(** ** Chunks *)
Lemma chunk_reads d x r : chunk_bytes d x -> reads (x ++ r) (fst d) (snd d) r.
Proof.
  destruct 1 as [b Hb|t h p H]; cbn [fst snd app]; [now constructor|]. rewrite <- app_assoc. now constructor.
Qed.
Lemma reads_chunk data t p r : reads data t p r -> exists x, chunk_bytes (t, p) x /\ data = x ++ r.
Proof.
  destruct 1 as [b r Hb|t h p r H]; [exists [b]; split; [now constructor|reflexivity]|].
  exists (h ++ p). split; [now constructor|now rewrite app_assoc].
Qed.
Lemma chunk_reads_end d data : chunk_bytes d data <-> reads data (fst d) (snd d) [].
Proof.
  split; [intros H; rewrite <- (app_nil_r data); now apply chunk_reads|].
  intros H. apply reads_chunk in H. destruct H as (x & H & ->). rewrite app_nil_r. now destruct d.
Qed.
Lemma chunks_reads ds x : chunks_bytes ds x <-> reads_all x ds.
Proof.
  split.
  - induction 1 as [|d x ds y C _ IH]; [constructor|]. destruct d as [t p]. econstructor; [apply (chunk_reads _ _ y C)|exact IH].
  - induction 1 as [|data t p r ds R _ IH]; [constructor|]. apply reads_chunk in R. destruct R as (x & C & ->). now constructor.
Qed.
Lemma chunk_tree_node i d : chunk_tree i d <-> node i d.
Proof. destruct i; reflexivity. Qed.

(** a header that overflows makes the list loop panic, in every build *)
Lemma overflow_list_panic dbg fuel data acc : bytes data -> Z.of_nat (length data) < 2 ^ 63 -> overflowing_header data ->
  decode_list_loop dbg (S fuel) data acc = Panic.
Proof.
  intros Hb Hl O. assert (Hne : data <> []) by (destruct O as (b & l & r & _ & _ & _ & ->); discriminate).
  destruct (list_step_inv dbg fuel data acc Hb Hl Hne) as [(t & p & r & R & _)|[E|[E _]]]; [exfalso| |exact E].
  - apply reads_chunk in R. destruct R as (x & C & ->). apply chunk_reads_end in C.
    rewrite app_length in Hl. refine (reads_not_over _ _ _ r C Hb _ O). lia.
  - exfalso. destruct O as (b & l & rest & Hbl & L8 & Hv & ->).
    assert (Bl : bytes l) by (clear - Hb; inversion Hb as [|? ? _ Hb']; subst; apply Forall_app in Hb'; apply Hb').
    pose proof (be_val_bound l Bl) as [_ Bv]. rewrite L8 in Bv. change (256 ^ Z.of_nat 8) with (2 ^ 64) in Bv.
    assert (D : exists t, decode_data_header dbg (b :: l ++ rest) = if dbg then Panic else Ret (Ok (t, 9, be_val l))).
    { unfold decode_data_header. destruct Hbl as [-> | ->].
      - change (0xbf <=? 0x7f) with false. change (0xbf <=? 0xb7) with false. change (0xbf <=? 0xbf) with true. cbv iota.
        change (0xbf - 0xb7) with (Z.of_nat 8). rewrite <- L8. rewrite decode_long_eval by (auto; lia). rewrite L8.
        destruct (Z.ltb_spec (1 + Z.of_nat 8 + be_val l) (2 ^ 64)); [lia|]. eexists. reflexivity.
      - change (0xff <=? 0x7f) with false. change (0xff <=? 0xb7) with false. change (0xff <=? 0xbf) with false. change (0xff <=? 0xf7) with false. cbv iota.
        change (0xff - 0xf7) with (Z.of_nat 8). rewrite <- L8. rewrite decode_long_eval by (auto; lia). rewrite L8.
        destruct (Z.ltb_spec (1 + Z.of_nat 8 + be_val l) (2 ^ 64)); [lia|]. eexists. reflexivity. }
    destruct D as (t & D). cbn [decode_list_loop] in E. rewrite D in E. destruct dbg; cbn [rbind] in E; [discriminate|].
    unfold usize_add in E. destruct (Z.ltb_spec (9 + be_val l) (2 ^ 64)); [lia|]. cbn [obind] in E.
    assert (M : (9 + be_val l) mod 2 ^ 64 = 9 + be_val l - 2 ^ 64) by (symmetry; apply Z.mod_unique with 1; lia).
    rewrite M in E. destruct (Z.ltb_spec (Z.of_nat (length (b :: l ++ rest))) (9 + be_val l - 2 ^ 64)) as [X|X].
    { cbn [length] in X. rewrite app_length in X. lia. }
    rewrite slice_to_ok, slice_from_ok in E by (cbn [length]; rewrite app_length; lia). cbn [obind] in E.
    unfold slice_from, slice in E. rewrite firstn_length in E. change (Z.to_nat 9) with 9%nat in E.
    destruct (Nat.leb_spec 9 (Nat.min (Z.to_nat (9 + be_val l - 2 ^ 64)) (length (b :: l ++ rest)))); [lia|]. discriminate.
Qed.

Lemma jams_panic dbg p : bytes p -> Z.of_nat (length p) < 2 ^ 63 -> jams p -> decode_list_payload dbg p = Panic.
Proof.
  intros Hb Hl (ds & x & y & C & O & ->). unfold decode_list_payload.
  assert (G : forall fuel acc, (length (x ++ y) < fuel)%nat -> decode_list_loop dbg fuel (x ++ y) acc = Panic);
    [|apply G; lia].
  apply chunks_reads in C. induction C as [|data t q r ds R C IH]; intros fuel acc Hf; (destruct fuel as [|fuel]; [lia|]).
  - cbn [app] in *. now apply overflow_list_panic.
  - destruct (reads_shape _ _ _ _ R) as (L1 & _ & B & _). pose proof Hb as Hb'. apply Forall_app in Hb'. destruct Hb' as [B1 B2]. destruct (B B1).
    rewrite app_length in Hl, Hf.
    rewrite (list_step dbg fuel (data ++ y) acc t q (r ++ y) (reads_app _ _ _ _ y R)) by (rewrite app_length; lia).
    apply IH; first [apply Forall_app; split; assumption|rewrite app_length; lia].
Qed.
Lemma jams_inv dbg fuel : forall data acc, bytes data -> Z.of_nat (length data) < 2 ^ 63 -> (length data < fuel)%nat ->
  (exists ds, decode_list_loop dbg fuel data acc = Ret (Ok (acc ++ ds)) /\ chunks_bytes ds data) \/
  decode_list_loop dbg fuel data acc = Ret (Err InvalidFormat) \/
  (decode_list_loop dbg fuel data acc = Panic /\ jams data).
Proof.
  induction fuel as [|fuel IH]; intros data acc Hb Hlen Hf; [lia|].
  destruct data as [|x y] eqn:E.
  - left. exists []. split; [cbn [decode_list_loop]; now rewrite app_nil_r|constructor].
  - rewrite <- E in *. assert (Hne : data <> []) by (rewrite E; discriminate). clear E x y.
    destruct (list_step_inv dbg fuel data acc Hb Hlen Hne) as [(t & p & r & R & ->)|[H|[H O]]].
    + destruct (reads_shape _ _ _ _ R) as (L1 & _ & B & _). destruct (B Hb) as [B1 B2].
      apply reads_chunk in R. destruct R as (x & C & ->).
      destruct (IH r (acc ++ [(t, p)]) B2 ltac:(lia) ltac:(lia)) as [(ds & -> & CA)|[H|[H (ds & x' & y & CA & O & ->)]]].
      * left. exists ((t, p) :: ds). rewrite <- app_assoc. split; [reflexivity|]. now constructor.
      * auto.
      * right. right. split; [exact H|]. exists ((t, p) :: ds), (x ++ x'), y. split; [now constructor|]. split; [exact O|apply app_assoc].
    + auto.
    + right. right. split; [exact H|]. exists [], [], data. split; [constructor|auto].
Qed.

(** the items of an item, completely *)
Lemma chunks_small ds p : chunks_bytes ds p -> bytes p -> Z.of_nat (length p) < 2 ^ 63 -> Forall small ds.
Proof.
  intros C Hb Hl. apply chunks_reads in C. pose proof (reads_all_shape _ _ C Hb (length p) ltac:(lia)) as S.
  eapply Forall_impl; [|exact S]. intros d (B & L & _). split; [exact B|lia].
Qed.
Inductive items_out (dbg : bool) (d : decoding_item) : outcome (result RlpDataDecodingError (list decoding_item)) -> Prop :=
| io_single : fst d = SingleValue -> items_out dbg d (Ret (Err InvalidFormat))
| io_ok ds : fst d = List -> chunks_bytes ds (snd d) -> Forall small ds -> items_out dbg d (Ret (Ok ds))
| io_err : fst d = List -> (forall ds, ~ chunks_bytes ds (snd d)) -> ~ jams (snd d) -> items_out dbg d (Ret (Err InvalidFormat))
| io_panic : fst d = List -> jams (snd d) -> (forall ds, ~ chunks_bytes ds (snd d)) -> items_out dbg d Panic.
Lemma items_exact dbg d : small d -> items_out dbg d (decode_as_items dbg d).
Proof.
  intros [Hb Hl]. unfold decode_as_items. destruct (fst d) eqn:T; cbn [item_type_eqb negb]; [now constructor|].
  assert (OK : forall ds, chunks_bytes ds (snd d) -> decode_list_payload dbg (snd d) = Ret (Ok ds))
    by (intros ds C; apply chunks_reads in C; now apply decode_list_ok).
  assert (PA : jams (snd d) -> decode_list_payload dbg (snd d) = Panic) by now apply jams_panic.
  unfold decode_list_payload in *.
  destruct (jams_inv dbg (S (length (snd d))) (snd d) [] Hb Hl ltac:(lia)) as [(ds & E & C)|[E|[E J]]]; rewrite E in *.
  - cbn [app]. constructor; auto. now apply (chunks_small ds (snd d)).
  - apply io_err; auto; [intros ds C; specialize (OK ds C); discriminate|intros J; specialize (PA J); discriminate].
  - apply io_panic; auto. intros ds C; specialize (OK ds C); discriminate.
Qed.
Lemma items_ok dbg d ds : small d -> fst d = List -> chunks_bytes ds (snd d) -> decode_as_items dbg d = Ret (Ok ds).
Proof.
  intros [Hb Hl] T C. unfold decode_as_items. rewrite T. cbn [item_type_eqb negb]. apply chunks_reads in C. now apply decode_list_ok.
Qed.
Lemma jams_items dbg d : small d -> fst d = List -> jams (snd d) -> decode_as_items dbg d = Panic.
Proof. intros [Hb Hl] T J. unfold decode_as_items. rewrite T. cbn [item_type_eqb negb]. now apply jams_panic. Qed.
Lemma chunks_fun ds ds' p : chunks_bytes ds p -> chunks_bytes ds' p -> bytes p -> Z.of_nat (length p) < 2 ^ 63 -> ds = ds'.
Proof.
  intros C C' Hb Hl. pose proof (items_ok true (List, p) ds ltac:(split; assumption) eq_refl C) as E.
  pose proof (items_ok true (List, p) ds' ltac:(split; assumption) eq_refl C') as E'. congruence.
Qed.
Lemma node_items l d : small d -> fst d = List -> (node (Lst l) d <-> exists ds, chunks_bytes ds (snd d) /\ Forall2 node l ds).
Proof.
  intros [Hb _] T. cbn [node]. rewrite lax_items_iff by assumption. split.
  - intros (_ & ds & R & F). exists ds. split; [now apply chunks_reads|exact F].
  - intros (ds & C & F). split; [exact T|]. exists ds. split; [now apply chunks_reads|exact F].
Qed.

(** ** Exact decoders *)
Definition exact {A} (d : decoding_item -> outcome (result RlpDataDecodingError A)) (M : item -> A -> Prop) (sm : A -> A -> Prop) (B : decoding_item -> Prop) : Prop :=
  forall x, small x ->
    ((exists a i, d x = Ret (Ok a) /\ node i x /\ M i a) \/ d x = Ret (Err InvalidFormat) \/ d x = Panic) /\
    (forall i a, node i x -> M i a -> exists a', d x = Ret (Ok a') /\ sm a a') /\
    (d x = Panic <-> B x).

Lemma exact_ok {A} d M sm B x (a : A) : exact d M sm B -> small x -> d x = Ret (Ok a) -> exists i, node i x /\ M i a.
Proof. intros E S H. destruct (E x S) as ([(a' & i & E1 & N & Ma)|[E1|E1]] & _); rewrite E1 in H; try discriminate. injection H as <-. eauto. Qed.
Lemma exact_iff {A} (d : decoding_item -> outcome (result RlpDataDecodingError A)) M sm B x : exact d M sm B -> small x ->
  ((exists a, d x = Ret (Ok a)) <-> exists i a, node i x /\ M i a).
Proof.
  intros E S. split.
  - intros (a & H). destruct (exact_ok _ _ _ _ _ _ E S H) as (i & N & Ma). eauto.
  - intros (i & a & N & Ma). destruct (E x S) as (_ & C & _). destruct (C i a N Ma) as (a' & H & _). eauto.
Qed.

Definition never_breaks {A} (d : decoding_item -> outcome (result RlpDataDecodingError A)) M sm : Prop := exact d M sm never.

(** decoders of single values *)
Lemma single_exact {A} (d : decoding_item -> outcome (result RlpDataDecodingError A)) (M : item -> A -> Prop) sm :
  (forall p, d (List, p) = Ret (Err InvalidFormat)) ->
  (forall b, bytes b -> (exists a, d (SingleValue, b) = Ret (Ok a) /\ M (Str b) a) \/ d (SingleValue, b) = Ret (Err InvalidFormat)) ->
  (forall i a, M i a -> exists b, i = Str b) ->
  (forall b a, bytes b -> M (Str b) a -> exists a', d (SingleValue, b) = Ret (Ok a') /\ sm a a') ->
  never_breaks d M sm.
Proof.
  intros HL HS HM HC [t b] [Hb Hl]. cbn [snd] in *. destruct t.
  - destruct (HS b Hb) as [(a & E & Ma)|E]; rewrite E.
    + split; [left; exists a, (Str b); split; [reflexivity|split; [reflexivity|exact Ma]]|]. split; [|split; [discriminate|intros []]].
      intros i a' N Ma'. destruct (HM _ _ Ma') as (b' & ->). cbn [node] in N. injection N as <-. rewrite <- E. now apply HC.
    + split; [auto|]. split; [|split; [discriminate|intros []]].
      intros i a' N Ma'. destruct (HM _ _ Ma') as (b' & ->). cbn [node] in N. injection N as <-. rewrite <- E. now apply HC.
  - rewrite HL. split; [auto|]. split; [|split; [discriminate|intros []]].
    intros i a N Ma. destruct (HM _ _ Ma) as (b' & ->). cbn [node] in N. discriminate.
Qed.

Section WithCfg.
Context {cfg : digit_cfg}.
Local Notation bi_val := (S_BigInt.bi_val (cfg:=cfg)).

Lemma u64_exact : never_breaks decode_u64 (means Tu64) eq.
Proof.
  apply single_exact; cbn [means].
  - reflexivity.
  - intros b Hb. unfold decode_u64. cbn [fst snd item_type_eqb negb]. destruct (Nat.ltb_spec 8 (length b)); [auto|].
    left. eexists. split; [reflexivity|]. exists b. rewrite be_val_zeros. auto.
  - intros i a (b & -> & _). eauto.
  - intros b a Hb (b' & E & L & ->). injection E as <-. unfold decode_u64. cbn [fst snd item_type_eqb negb].
    destruct (Nat.ltb_spec 8 (length b)); [lia|]. rewrite be_val_zeros. eauto.
Qed.
Lemma nonce_exact : never_breaks decode_nonce (means TNonce) eq.
Proof.
  apply single_exact; cbn [means].
  - reflexivity.
  - intros b Hb. unfold decode_nonce, decode_u64. cbn [fst snd item_type_eqb negb]. destruct (Nat.ltb_spec 8 (length b)); [auto|].
    cbn [rbind]. rewrite be_val_zeros. unfold nonce_try_from, nonce_from_u64.
    destruct (Z.eqb_spec (be_val b) (2 ^ 64 - 1)); cbn [map_err rbind]; [auto|]. left. eexists. split; [reflexivity|]. exists b. auto.
  - intros i a (b & -> & _). eauto.
  - intros b a Hb (b' & E & L & -> & X). injection E as <-. unfold decode_nonce, decode_u64. cbn [fst snd item_type_eqb negb].
    destruct (Nat.ltb_spec 8 (length b)); [lia|]. cbn [rbind]. rewrite be_val_zeros. unfold nonce_try_from, nonce_from_u64.
    destruct (Z.eqb_spec (be_val b) (2 ^ 64 - 1)); [contradiction|]. cbn [map_err rbind]. eauto.
Qed.
Lemma big_decode b : bytes b -> exists r, decode_biguint (SingleValue, b) = Ret (Ok r) /\ wf r /\ bi_val r = be_val b.
Proof.
  intros Hb. unfold decode_biguint. cbn [fst snd item_type_eqb negb]. unfold bu_from_be_bytes. destruct b as [|x t].
  - destruct (bi_from_be_bytes_spec [0] Positive) as (r & -> & W & V); [discriminate|repeat constructor; unfold byte; lia|].
    cbn [obind]. exists r. split; [reflexivity|]. split; [exact W|]. rewrite V. reflexivity.
  - destruct (bi_from_be_bytes_spec (x :: t) Positive) as (r & -> & W & V); [discriminate|exact Hb|].
    cbn [obind]. exists r. split; [reflexivity|]. split; [exact W|]. rewrite V. cbn [sgz]. lia.
Qed.
Lemma big_exact : never_breaks decode_biguint (means TBigUint) same_int.
Proof.
  apply single_exact; cbn [means].
  - reflexivity.
  - intros b Hb. destruct (big_decode b Hb) as (r & -> & W & V). left. eexists. split; [reflexivity|]. exists b. auto.
  - intros i a (b & -> & _). eauto.
  - intros b a Hb (b' & E & W & V). injection E as <-. destruct (big_decode b Hb) as (r & -> & Wr & Vr).
    exists r. split; [reflexivity|]. split; [exact Wr|]. now rewrite V, Vr.
Qed.
Lemma wei_as_big d : decode_wei d = decode_biguint d.
Proof. unfold decode_wei. destruct (decode_biguint d) as [[]| |]; reflexivity. Qed.
Lemma wei_exact : never_breaks decode_wei (means TWei) same_int.
Proof. intros x S. rewrite wei_as_big. exact (big_exact x S). Qed.
Lemma chain_exact : never_breaks decode_chain_id (means TChainId) same_int.
Proof. exact wei_exact. Qed.
Lemma bytes_exact : never_breaks decode_vec_u8 (means TBytes) eq.
Proof.
  apply single_exact; cbn [means]; [reflexivity| |eauto|].
  - intros b Hb. left. eexists. split; reflexivity.
  - intros b a Hb [= ->]. eexists. split; reflexivity.
Qed.
Lemma string_exact : never_breaks decode_string (means TString) eq.
Proof.
  apply single_exact; cbn [means]; [reflexivity| |intros i a [-> _]; eauto|].
  - intros b Hb. unfold decode_string. cbn [fst snd item_type_eqb negb]. destruct (utf8_valid b) eqn:U; [|auto]. left. eexists. split; [reflexivity|]. split; [reflexivity|]. now apply utf8_valid_iff.
  - intros b a Hb [[= ->] U]. apply (utf8_valid_iff _ Hb) in U. unfold decode_string. cbn [fst snd item_type_eqb negb]. rewrite U. eauto.
Qed.
Lemma address_exact : never_breaks decode_address (means TAddress) eq.
Proof.
  apply single_exact; cbn [means]; [reflexivity| |intros i a [-> _]; eauto|].
  - intros b Hb. unfold decode_address, decode_as_bytes, address_from_bytes, array_try_from. cbn [fst snd item_type_eqb negb rbind].
    change ADDRESS_DATA_BYTE_LENGTH with 20%nat. destruct (Nat.eqb_spec (length b) 20); [|auto]. left. eexists. split; [reflexivity|auto].
  - intros b a Hb [[= ->] U]. unfold decode_address, decode_as_bytes, address_from_bytes, array_try_from. cbn [fst snd item_type_eqb negb rbind].
    rewrite U. eexists. split; reflexivity.
Qed.
Lemma key_exact : never_breaks decode_storage_key (means TStorageKey) eq.
Proof.
  apply single_exact; cbn [means]; [reflexivity| |intros i a [-> _]; eauto|].
  - intros b Hb. unfold decode_storage_key, decode_as_bytes, storage_key_from_bytes, array_try_from. cbn [fst snd item_type_eqb negb rbind].
    change STORAGE_KEY_DATA_BYTE_LENGTH with 32%nat. destruct (Nat.eqb_spec (length b) 32); [|auto]. left. eexists. split; [reflexivity|auto].
  - intros b a Hb [[= ->] U]. unfold decode_storage_key, decode_as_bytes, storage_key_from_bytes, array_try_from. cbn [fst snd item_type_eqb negb rbind].
    rewrite U. eexists. split; reflexivity.
Qed.

(** ** Vectors *)
Lemma decode_all_exact {A} (d : decoding_item -> outcome (result RlpDataDecodingError A)) M sm B ds : exact d M sm B -> Forall small ds ->
  ((exists l is, decode_all d ds = Ret (Ok l) /\ Forall2 node is ds /\ Forall2 M is l) \/
   decode_all d ds = Ret (Err InvalidFormat) \/ decode_all d ds = Panic) /\
  (forall is l, Forall2 node is ds -> Forall2 M is l -> exists l', decode_all d ds = Ret (Ok l') /\ Forall2 sm l l') /\
  (decode_all d ds = Panic <->
     exists before x after, ds = before ++ x :: after /\ Forall (fun d => exists i v, node i d /\ M i v) before /\ B x).
Proof.
  intros E. induction 1 as [|x ds S Sd IH]; cbn [decode_all].
  - split; [left; exists [], []; repeat split; constructor|]. split.
    + intros is l F F'. inversion F; subst. inversion F'; subst. exists []. split; [reflexivity|constructor].
    + split; [discriminate|]. intros (b & x & a & X & _). destruct b; discriminate.
  - destruct (E x S) as (T & C & P). destruct IH as (IT & IC & IP). split; [|split].
    + destruct T as [(a & i & -> & N & Ma)|[->| ->]]; cbn [rbind]; auto.
      destruct IT as [(l & is & -> & F & FM)|[->| ->]]; cbn [rbind]; auto.
      left. exists (a :: l), (i :: is). split; [reflexivity|]. split; now constructor.
    + intros is l F F'. inversion F as [|i ? is' ? N F0]; subst. inversion F' as [|? a ? l' Ma F1]; subst.
      destruct (C i a N Ma) as (a' & -> & Q). cbn [rbind]. destruct (IC is' l' F0 F1) as (l'' & -> & QL). cbn [rbind].
      eexists. split; [reflexivity|now constructor].
    + split.
      * intros H. destruct (d x) as [[a|e]| |] eqn:Dx; cbn [rbind] in H; try discriminate.
        -- destruct (exact_ok _ _ _ _ _ _ E S Dx) as (i & N & Ma).
           assert (H' : decode_all d ds = Panic).
           { destruct IT as [(l & is & E1 & _)|[E1|E1]]; rewrite E1 in H; cbn [rbind] in H; congruence. }
           apply IP in H'. destruct H' as (b & y & af & -> & G & By). exists (x :: b), y, af. split; [reflexivity|]. split; [|exact By].
           constructor; [eauto|exact G].
        -- exists [], x, ds. split; [reflexivity|]. split; [constructor|]. now apply P.
      * intros (b & y & af & X & G & By). destruct b as [|z b]; cbn [app] in X; injection X as -> X.
        -- apply P in By. now rewrite By.
        -- subst ds. inversion G as [|? ? (i & v & N & Mv) G']; subst. destruct (C i v N Mv) as (a' & -> & _). cbn [rbind].
           assert (H : decode_all d (b ++ y :: af) = Panic) by (apply IP; eauto 8). now rewrite H.
Qed.
Lemma list_exact {A} dbg (d : decoding_item -> outcome (result RlpDataDecodingError A)) M sm B : exact d M sm B ->
  exact (fun x => items <-? decode_as_items dbg x ;; decode_all d items)
        (fun i v => exists l, i = Lst l /\ Forall2 M l v) (Forall2 sm)
        (list_breaks (fun d => exists i v, node i d /\ M i v) B).
Proof.
  intros E x S. pose proof (items_exact dbg x S) as IO. remember (decode_as_items dbg x) as o eqn:EO.
  destruct IO as [T|ds T C Sd|T NC NJ|T J NC]; cbn [rbind].
  - split; [auto|]. split; [|split; [discriminate|intros [X _]; congruence]].
    intros i a N (l & -> & _). destruct N; congruence.
  - destruct (decode_all_exact d M sm B ds E Sd) as (H1 & H2 & H3). split; [|split].
    + destruct H1 as [(l & is & -> & F & FM)|[->| ->]]; auto. left. exists l, (Lst is). split; [reflexivity|]. split; [|eauto].
      apply node_items; eauto.
    + intros i a N (l & -> & F). apply node_items in N; auto. destruct N as (ds' & C' & F').
      assert (ds' = ds) by (destruct S; eapply chunks_fun; eassumption). subst ds'. now apply (H2 l).
    + rewrite H3. unfold list_breaks. split.
      * intros (b & y & af & -> & G & By). split; [exact T|]. right. eauto 8.
      * intros (_ & [J|(b & y & af & C' & G & By)]).
        -- exfalso. pose proof (jams_items dbg x S T J). congruence.
        -- exists b, y, af. split; [|auto]. destruct S; eapply chunks_fun; eassumption.
  - split; [auto|]. split; [|split; [discriminate|]].
    + intros i a N (l & -> & _). apply node_items in N; auto. destruct N as (ds' & C' & _). destruct (NC _ C').
    + intros (_ & [J|(b & y & af & C' & _)]); [contradiction|destruct (NC _ C')].
  - split; [auto|]. split; [|split; [intros _; split; auto|reflexivity]].
    intros i a N (l & -> & _). apply node_items in N; auto. destruct N as (ds' & C' & _). destruct (NC _ C').
Qed.
Lemma exact_ext {A} (d d' : decoding_item -> outcome (result RlpDataDecodingError A)) M M' sm B B' :
  (forall x, small x -> d x = d' x) -> (forall i a, M i a <-> M' i a) -> (forall x, small x -> (B x <-> B' x)) -> exact d M sm B -> exact d' M' sm B'.
Proof.
  intros Hd HM HB E x S. destruct (E x S) as (H1 & H2 & H3). rewrite <- !Hd by assumption. split; [|split].
  - destruct H1 as [(a & i & H & N & Ma)|H1]; [left; exists a, i; rewrite <- HM; auto|auto].
  - intros i a N Ma. apply (H2 i); [exact N|now apply HM].
  - rewrite H3. now apply HB.
Qed.
Lemma list_breaks_ext (g g' b b' : chunk -> Prop) x : small x -> (forall y, small y -> (g y <-> g' y)) -> (forall y, small y -> (b y <-> b' y)) ->
  (list_breaks g b x <-> list_breaks g' b' x).
Proof.
  intros [Hb Hl] G B. unfold list_breaks. split; intros (T & [J|(bf & y & af & C & F & By)]); (split; [exact T|]); auto; right; exists bf, y, af.
  - pose proof (chunks_small _ _ C Hb Hl) as S. apply Forall_app in S. destruct S as [S1 S2]. inversion S2; subst.
    split; [exact C|]. split; [|now apply B]. clear C. induction F; constructor; inversion S1; subst; auto. now apply G.
  - pose proof (chunks_small _ _ C Hb Hl) as S. apply Forall_app in S. destruct S as [S1 S2]. inversion S2; subst.
    split; [exact C|]. split; [|now apply B]. clear C. induction F; constructor; inversion S1; subst; auto. now apply G.
Qed.
Lemma vec_exact {A} dbg (d : decoding_item -> outcome (result RlpDataDecodingError A)) M sm B : exact d M sm B ->
  exact (decode_vec dbg d) (fun i v => exists l, i = Lst l /\ Forall2 M l v) (Forall2 sm)
        (vec_breaks dbg (fun d => exists i v, node i d /\ M i v) B).
Proof.
  intros E x S. destruct (list_exact dbg d M sm B E x S) as (H1 & H2 & H3). unfold decode_vec, vec_breaks.
  destruct (fst x) eqn:T; cbn [item_type_eqb].
  - destruct dbg; cbn [negb orb oassert].
    + split; [auto|]. split; [|split; [auto|reflexivity]]. intros i a N (l & -> & _). destruct N; congruence.
    + split; [exact H1|]. split; [exact H2|]. rewrite H3. split; [auto|intros [[X _]|X]; [discriminate|exact X]].
  - rewrite orb_true_r. cbn [oassert]. split; [exact H1|]. split; [exact H2|]. rewrite H3. split; [auto|intros [[_ X]|X]; [discriminate|exact X]].
Qed.

(** ** Access lists *)
Lemma is_key_iff x : (exists i v, node i x /\ means TStorageKey i v) <-> is_key x.
Proof.
  unfold is_key. cbn [means]. split.
  - intros (i & v & N & -> & L). cbn [node] in N. eauto.
  - intros (k & -> & L). exists (Str k), k. repeat split; auto.
Qed.
Lemma Forall2_keys is v : Forall2 (means TStorageKey) is v <-> is = map Str v /\ Forall (fun k => length k = 32%nat) v.
Proof.
  split.
  - induction 1 as [|i k is v [-> L] _ [-> IH]]; [split; [reflexivity|constructor]|]. split; [reflexivity|now constructor].
  - intros [-> F]. induction F; cbn [map]; constructor; auto. split; auto.
Qed.
Lemma keys_exact dbg : exact (decode_vec dbg decode_storage_key)
  (fun i v => i = Lst (map Str v) /\ Forall (fun k => length k = 32%nat) v) eq (vec_breaks dbg is_key never).
Proof.
  intros x S. destruct (vec_exact dbg _ _ _ _ key_exact x S) as (H1 & H2 & H3). split; [|split].
  - destruct H1 as [(a & i & E & N & (l & -> & F))|H1]; [|auto]. apply Forall2_keys in F. destruct F as [-> F]. left. eauto 8.
  - intros i a N [-> F]. destruct (H2 (Lst (map Str a)) a N) as (a' & E & Q); [exists (map Str a); split; [reflexivity|now apply Forall2_keys]|].
    apply Forall2_eq in Q. eauto.
  - rewrite H3. unfold vec_breaks. apply or_iff_compat_l. apply list_breaks_ext; [exact S| |reflexivity]. intros y _. apply is_key_iff.
Qed.
Lemma ali_exact dbg : exact (decode_access_list_item dbg) ali_means eq (ali_breaks dbg).
Proof.
  intros x S. unfold decode_access_list_item, ali_breaks. destruct (fst x) eqn:T.
  { split; [auto|]. split; [|split; [discriminate|intros [X _]; congruence]].
    intros i a N (-> & _). destruct N; congruence. }
  pose proof (items_exact dbg x S) as IO. remember (decode_as_items dbg x) as o eqn:EO.
  destruct IO as [T'|ds _ C Sd|_ NC NJ|_ J NC]; cbn [rbind].
  - congruence.
  - assert (NJ : ~ jams (snd x)).
    { intros J. pose proof (jams_items dbg x S T J). congruence. }
    assert (CF : forall ds', chunks_bytes ds' (snd x) -> ds' = ds) by (intros ds' C'; destruct S; eapply chunks_fun; eassumption).
    assert (BAD : length ds <> 2%nat -> (forall i a, node i x -> ali_means i a -> False) /\
       ~ (List = List /\ (jams (snd x) \/ exists a k, chunks_bytes [(SingleValue, a); k] (snd x) /\ length a = 20%nat /\ vec_breaks dbg is_key never k))).
    { intros L. split.
      - intros i a N (-> & _). apply node_items in N; auto. destruct N as (ds' & C' & F). apply CF in C'. subst ds'.
        apply L. inversion F as [|? ? ? ? _ F1]; subst. inversion F1 as [|? ? ? ? _ F2]; subst. inversion F2; subst. reflexivity.
      - intros (_ & [J|(a & k & C' & _)]); [contradiction|]. apply CF in C'. subst ds. now apply L. }
    destruct ds as [|d0 [|d1 [|d2 ds]]];
      try (destruct (BAD ltac:(cbn; lia)) as [B1 B2]; split; [auto|]; split; [intros i a N M; destruct (B1 i a N M)|split; [discriminate|intros X; destruct (B2 X)]]).
    clear BAD. inversion Sd as [|? ? S0 Sd1]; subst. inversion Sd1 as [|? ? S1 _]; subst.
    destruct (address_exact d0 S0) as (A1 & A2 & A3). destruct (keys_exact dbg d1 S1) as (K1 & K2 & K3).
    assert (A4 : forall a, decode_address d0 = Ret (Ok a) -> d0 = (SingleValue, a) /\ length a = 20%nat).
    { intros a Ea. destruct (exact_ok _ _ _ _ _ _ address_exact S0 Ea) as (i & N & M). cbn [means] in M. destruct M as [-> L]. auto. }
    split; [|split].
    + destruct A1 as [(a & i & Ea & N & M)|[->| ->]]; cbn [rbind]; auto. rewrite Ea. cbn [rbind].
      destruct K1 as [(v & j & -> & N' & (-> & F))|[->| ->]]; cbn [rbind]; auto.
      left. destruct (A4 a Ea) as [-> L]. eexists _, _. split; [reflexivity|]. split; [|split; [reflexivity|split; assumption]].
      apply node_items; auto. eexists. split; [exact C|]. constructor; [reflexivity|]. constructor; [exact N'|constructor].
    + intros i a N (-> & L & F). apply node_items in N; auto. destruct N as (ds' & C' & FN). apply CF in C'. subst ds'.
      inversion FN as [|? ? ? ? N0 FN1]; subst. inversion FN1 as [|? ? ? ? N1 _]; subst.
      destruct (A2 _ (ali_address a) N0) as (a' & -> & <-); [split; auto|]. cbn [rbind].
      destruct (K2 _ (ali_storage_keys a) N1) as (k' & -> & <-); [split; auto|]. cbn [rbind].
      eexists. split; [reflexivity|]. now destruct a.
    + split.
      * intros H. split; [reflexivity|]. right. destruct (decode_address d0) as [[a|e]| |] eqn:Ea; cbn [rbind] in H; try discriminate.
        -- destruct (A4 a eq_refl) as [-> L]. exists a, d1. split; [exact C|]. split; [exact L|]. apply K3.
           destruct K1 as [(v & j & Ek & _)|[Ek|Ek]]; rewrite Ek in H; cbn [rbind] in H; congruence.
        -- destruct (proj1 A3 eq_refl).
      * intros (_ & [J|(a & k & C' & L & V)]); [contradiction|]. apply CF in C'. injection C' as <- <-.
        destruct (A2 (Str a) a eq_refl) as (a' & -> & <-); [split; auto|]. cbn [rbind]. apply K3 in V. now rewrite V.
  - split; [auto|]. split; [|split; [discriminate|]].
    + intros i a N (-> & _). apply node_items in N; auto. destruct N as (ds' & C' & _). destruct (NC _ C').
    + intros (_ & [J|(b & y & C' & _)]); [contradiction|destruct (NC _ C')].
  - split; [auto|]. split; [|split; [intros _; split; auto|reflexivity]].
    intros i a N (-> & _). apply node_items in N; auto. destruct N as (ds' & C' & _). destruct (NC _ C').
Qed.
Lemma is_ali_iff x : (exists i v, node i x /\ ali_means i v) <-> is_ali x.
Proof. unfold is_ali. split; intros (i & v & N & M); exists i, v; split; auto; now apply chunk_tree_node. Qed.
Lemma al_exact dbg : exact (decode_access_list dbg) (means TAccessList) eq (list_breaks is_ali (ali_breaks dbg)).
Proof.
  intros x S. unfold decode_access_list. destruct (fst x) eqn:T.
  { split; [auto|]. split; [|split; [discriminate|intros [X _]; congruence]].
    intros i a N (l & -> & _). destruct N; congruence. }
  destruct (vec_exact dbg _ _ _ _ (ali_exact dbg) x S) as (H1 & H2 & H3). split; [|split].
  - destruct H1 as [(a & i & -> & N & M)|[->| ->]]; cbn [rbind]; auto. left. eauto 8.
  - intros i a N M. destruct (H2 i a N M) as (a' & -> & Q). cbn [rbind]. apply Forall2_eq in Q. eauto.
  - assert (X : rbind (decode_vec dbg (decode_access_list_item dbg) x) (fun items => Ret (Ok items)) = Panic <-> decode_vec dbg (decode_access_list_item dbg) x = Panic).
    { destruct (decode_vec dbg (decode_access_list_item dbg) x) as [[]| |]; cbn [rbind]; split; congruence. }
    rewrite X, H3. unfold vec_breaks. rewrite T. split.
    + intros [[_ Y]|Y]; [discriminate|]. revert Y. apply list_breaks_ext; [exact S| |reflexivity]. intros y _. symmetry. apply is_ali_iff.
    + intros Y. right. revert Y. apply list_breaks_ext; [exact S| |reflexivity]. intros y _. apply is_ali_iff.
Qed.

(** ** All types *)
Lemma type_exact dbg t : exact (dec dbg t) (means t) (same t) (breaks dbg t).
Proof.
  induction t; cbn [dec means same breaks].
  - exact u64_exact. - exact big_exact. - exact bytes_exact. - exact string_exact.
  - exact address_exact. - exact key_exact. - exact nonce_exact. - exact chain_exact. - exact wei_exact.
  - exact (ali_exact dbg). - exact (al_exact dbg).
  - refine (exact_ext _ _ _ _ _ _ _ _ _ _ (vec_exact dbg _ _ _ _ IHt)); [reflexivity|reflexivity|]. intros x S. unfold vec_breaks. apply or_iff_compat_l.
    apply list_breaks_ext; [exact S| |reflexivity]. intros y _. split; intros (i & v & N & M); exists i, v; split; auto; now apply chunk_tree_node.
Qed.

End WithCfg.

(** ** From the bytes *)
Inductive data_out (dbg : bool) (data : list Z) : outcome (result RlpDataDecodingError decoding_item) -> Prop :=
| do_ok d : chunk_bytes d data -> small d -> data_out dbg data (Ret (Ok d))
| do_err : (forall d, ~ chunk_bytes d data) -> ~ (dbg = true /\ overflowing_header data) -> data_out dbg data (Ret (Err InvalidFormat))
| do_panic : dbg = true -> overflowing_header data -> (forall d, ~ chunk_bytes d data) -> data_out dbg data Panic.
Lemma data_exact dbg data : bytes data -> Z.of_nat (length data) < 2 ^ 63 -> data_out dbg data (new_from_data dbg data).
Proof.
  intros Hb Hl. unfold new_from_data.
  assert (OK : forall d, chunk_bytes d data -> decode_data dbg data = Ret (Ok d)).
  { intros [t p] C. apply chunk_reads_end in C. now apply decode_data_ok. }
  pose proof (decode_data_panic_iff dbg data Hb Hl) as P.
  destruct (decode_data_inv dbg data Hb Hl) as [(t & p & E & R)|[E|(E & D & O)]]; rewrite E in *.
  - destruct (reads_end_shape data (t, p) R Hb) as (_ & B & L & _). constructor; [now apply chunk_reads_end|split; [exact B|lia]].
  - apply do_err; [intros d C; specialize (OK d C); discriminate|]. intros X. apply P in X. discriminate.
  - apply do_panic; auto. intros d C; specialize (OK d C); discriminate.
Qed.
Lemma lax_chunk i data : bytes data -> (lax_rlp i data <-> exists d, chunk_bytes d data /\ node i d).
Proof.
  intros Hb. rewrite lax_iff by assumption. split; intros (d & R & N); exists d; (split; [now apply chunk_reads_end|exact N]).
Qed.
Lemma chunk_fun d d' data : chunk_bytes d data -> chunk_bytes d' data -> Z.of_nat (length data) < 2 ^ 63 -> d = d'.
Proof.
  intros C C' Hl. apply chunk_reads_end in C, C'. destruct d as [t p], d' as [t' p'].
  cbn [fst snd] in *. pose proof (decode_data_ok true _ _ _ C Hl) as E. rewrite (decode_data_ok true _ _ _ C' Hl) in E. congruence.
Qed.
Lemma decode_exact {A} dbg (d : decoding_item -> outcome (result RlpDataDecodingError A)) M sm B data :
  exact d M sm B -> bytes data -> Z.of_nat (length data) < 2 ^ 63 ->
  (forall a, decode dbg d data = Ret (Ok a) -> exists i, lax_rlp i data /\ M i a) /\
  (forall i a, lax_rlp i data -> M i a -> exists a', decode dbg d data = Ret (Ok a') /\ sm a a') /\
  (decode dbg d data = Panic <-> data_breaks dbg B data) /\
  ((exists a, decode dbg d data = Ret (Ok a)) \/ decode dbg d data = Ret (Err InvalidFormat) \/ decode dbg d data = Panic).
Proof.
  intros E Hb Hl. unfold decode. pose proof (data_exact dbg data Hb Hl) as D. remember (new_from_data dbg data) as o eqn:EO.
  destruct D as [x C S|NC NO|DB O NC]; cbn [rbind].
  - destruct (E x S) as (H1 & H2 & H3). split; [|split; [|split]].
    + intros a Ha. destruct (exact_ok _ _ _ _ _ _ E S Ha) as (i & N & Ma). exists i. split; [|exact Ma]. apply lax_chunk; eauto.
    + intros i a L Ma. apply lax_chunk in L; auto. destruct L as (x' & C' & N).
      assert (x' = x) by (eapply chunk_fun; eassumption). subst x'. eauto.
    + rewrite H3. unfold data_breaks. split; [eauto|]. intros [X|(x' & C' & BX)].
      * exfalso. apply (decode_data_panic_iff dbg data Hb Hl) in X. unfold new_from_data in EO. congruence.
      * assert (x' = x) by (eapply chunk_fun; eassumption). now subst x'.
    + destruct H1 as [(a & i & H & _)|H1]; eauto.
  - split; [discriminate|]. split; [|split; [split; [discriminate|]|auto]].
    + intros i a L. apply lax_chunk in L; auto. destruct L as (x' & C' & N). destruct (NC _ C').
    + intros [X|(x' & C' & BX)]; [contradiction|destruct (NC _ C')].
  - split; [discriminate|]. split; [|split; [split; [intros _; left; auto|reflexivity]|auto]].
    intros i a L. apply lax_chunk in L; auto. destruct L as (x' & C' & N). destruct (NC _ C').
Qed.
Lemma typed_decode_exact {cfg : digit_cfg} dbg t data : bytes data -> Z.of_nat (length data) < 2 ^ 63 ->
  (forall a, decode dbg (dec dbg t) data = Ret (Ok a) -> exists i, lax_rlp i data /\ means t i a) /\
  (forall i a, lax_rlp i data -> means t i a -> exists a', decode dbg (dec dbg t) data = Ret (Ok a') /\ same t a a') /\
  (decode dbg (dec dbg t) data = Panic <-> data_breaks dbg (breaks dbg t) data) /\
  ((exists a, decode dbg (dec dbg t) data = Ret (Ok a)) \/ decode dbg (dec dbg t) data = Ret (Err InvalidFormat) \/ decode dbg (dec dbg t) data = Panic).
Proof. apply decode_exact, type_exact. Qed.

(** Proofs about examples/ethereum/tx_decoder.rs. *)

From Coq Require Import String.
From Verif Require Import Base M_Parity M_Codec M_BigInt M_Rlp M_EthTypes M_Tx M_TxSign M_Display M_Examples.
From Verif Require Import S_BigInt S_Codec S_Rlp S_EthTypes S_Tx S_RlpRead S_Eoa S_Display S_Examples.
From Verif Require Import P_BigInt3 P_Codec P_Rlp P_Rlp2 P_RlpInj P_Tx P_RlpNorm P_RlpReadEx P_Display P_Examples.
From Verif Require P_EncodingProp P_Rlp3 P_ExJson.
Open Scope Z_scope.
Local Open Scope list_scope.

Section WithCfg.
Context {cfg : digit_cfg}.

Lemma lax_unique i j data : bytes data -> Z.of_nat (length data) < 2 ^ 63 -> lax_rlp i data -> lax_rlp j data -> i = j.
Proof.
  intros B L Hi Hj. pose proof (decode_complete true i data Hi B L) as E. rewrite (decode_complete true j data Hj B L) in E. congruence.
Qed.
Lemma lax_list_head l data : lax_rlp (Lst l) data -> exists h r, data = h :: r /\ 192 <= h.
Proof. intros H. apply lax_list_inv in H as (h & x & -> & H & _). inversion H; subst; cbn [app]; eexists _, _; (split; [reflexivity|lia]). Qed.
Lemma display_same be t u x : tx_ok t -> tx_ok u -> tx_same t u -> transaction_display be u = Ret x -> shows_transaction t x.
Proof.
  intros Ht Hu S E. destruct (transaction_shows be t Ht) as (y & Ey & Sy). enough (y = x) as <- by exact Sy.
  now apply (transaction_determined be be t u y x Ht Hu Ey E).
Qed.
Lemma reads_ok data t : bytes data -> reads_tx data t -> tx_ok t.
Proof.
  intros B. destruct t as [t|t|t|t]; cbn [reads_tx tx_ok].
  - intros (i & L & M & _). exact (proj1 (legacy_means i t (lax_item_bytes i data L B) M)).
  - intros (i & L & M). exact (proj1 (tx155_means i t (lax_item_bytes i data L B) M)).
  - intros (i & r & -> & L & M). inversion B; subst. exact (proj1 (e2930_means i t (lax_item_bytes i r L ltac:(assumption)) M)).
  - intros (i & r & -> & L & M). inversion B; subst. exact (proj1 (e1559_means i t (lax_item_bytes i r L ltac:(assumption)) M)).
Qed.
Lemma fields_155_list i t : means_155_fields i t -> exists l, i = Lst l.
Proof. intros (i0 & i1 & i2 & i3 & i4 & i5 & i6 & i7 & i8 & -> & _). eauto. Qed.
Lemma legacy_list i t : means_legacy i t -> exists l, i = Lst l.
Proof. intros (i0 & i1 & i2 & i3 & i4 & i5 & i6 & i7 & i8 & -> & _). eauto. Qed.

(** the decoding without the command line and the display *)
Definition tx_decoded dbg (data : list Z) : outcome (option transaction) :=
  match data with
  | [] => Ret None
  | b :: rest =>
      if b =? 2 then r <- decode dbg (decode_transaction_eip_1559 dbg) rest ;; Ret (match r with Ok t => Some (T1559 t) | Err _ => None end)
      else if b =? 1 then r <- decode dbg (decode_transaction_eip_2930 dbg) rest ;; Ret (match r with Ok t => Some (T2930 t) | Err _ => None end)
      else r <- decode dbg (decode_transaction_eip_155 dbg) data ;;
           match r with
           | Ok t => Ret (Some (T155 t))
           | Err TransactionTypeMismatch =>
               r <- decode dbg (decode_transaction_legacy dbg) data ;; Ret (match r with Ok t => Some (TLegacy t) | Err _ => None end)
           | Err _ => Ret None
           end
  end.
Lemma tx_decoder_is be dbg arg data : given arg data ->
  tx_decoder be dbg arg = r <- tx_decoded dbg data ;; match r with Some t => d <- transaction_display be t ;; Ret (println d) | None => Panic end.
Proof.
  intros G. apply given_decode in G as (s & -> & E & _). unfold tx_decoder. cbn [unwrap obind]. rewrite E. destruct data as [|b rest]; [reflexivity|].
  change eip_1559_type with 2. change eip_2930_type with 1. cbn [tx_decoded].
  destruct (b =? 2); [destruct (decode dbg (decode_transaction_eip_1559 dbg) rest) as [[]| |]; reflexivity|].
  destruct (b =? 1); [destruct (decode dbg (decode_transaction_eip_2930 dbg) rest) as [[]| |]; reflexivity|].
  destruct (decode dbg (decode_transaction_eip_155 dbg) (b :: rest)) as [[|[]]| |]; try reflexivity.
  destruct (decode dbg (decode_transaction_legacy dbg) (b :: rest)) as [[]| |]; reflexivity.
Qed.
Lemma decoded_reads dbg data t : bytes data -> Z.of_nat (length data) < 2 ^ 63 -> tx_decoded dbg data = Ret (Some t) -> reads_tx data t.
Proof.
  intros B L. destruct data as [|b rest]; [discriminate|]. cbn [tx_decoded].
  assert (Br : bytes rest) by (now inversion B). assert (Lr : Z.of_nat (length rest) < 2 ^ 63) by (cbn [length] in L; lia).
  destruct (Z.eqb_spec b 2) as [->|N2]; [|destruct (Z.eqb_spec b 1) as [->|N1]].
  - destruct (decode dbg (decode_transaction_eip_1559 dbg) rest) as [[u|]| |] eqn:E; cbn [obind]; intros K; inversion K; subst.
    destruct (proj1 (e1559_accepted dbg rest Br Lr) u E) as (i & Hi & M). cbn [reads_tx]. eauto.
  - destruct (decode dbg (decode_transaction_eip_2930 dbg) rest) as [[u|]| |] eqn:E; cbn [obind]; intros K; inversion K; subst.
    destruct (proj1 (e2930_accepted dbg rest Br Lr) u E) as (i & Hi & M). cbn [reads_tx]. eauto.
  - destruct (tx155_accepted dbg (b :: rest) B L) as (A1 & A2 & A3).
    destruct (decode dbg (decode_transaction_eip_155 dbg) (b :: rest)) as [[u|[]]| |] eqn:E; cbn [obind]; intros K; try discriminate.
    + inversion K; subst. destruct (A1 u eq_refl) as (i & Hi & M). cbn [reads_tx]. eauto.
    + destruct (decode dbg (decode_transaction_legacy dbg) (b :: rest)) as [[u|]| |] eqn:E2; cbn [obind] in K; inversion K; subst.
      destruct (proj1 (legacy_accepted dbg (b :: rest) B L) u E2) as (i & Hi & M). destruct (proj1 A3 eq_refl) as (j & w & Hj & F & V).
      rewrite <- (lax_unique i j _ B L Hi Hj) in F. exists i. split; [exact Hi|]. split; [exact M|].
      destruct M as (i0 & i1 & i2 & i3 & i4 & i5 & i6 & i7 & i8 & -> & _ & _ & _ & _ & _ & _ & ((bs & -> & _ & Ev) & _) & _).
      destruct F as (j0 & j1 & j2 & j3 & j4 & j5 & j6 & j7 & j8 & EL & _ & _ & _ & _ & _ & _ & (cs & -> & _ & Ew) & _).
      injection EL as _ _ _ _ _ _ -> _ _. lia.
Qed.
Lemma reads_decoded dbg data t : bytes data -> Z.of_nat (length data) < 2 ^ 63 -> reads_tx data t ->
  exists u, tx_decoded dbg data = Ret (Some u) /\ tx_same t u.
Proof.
  intros B L. destruct t as [t|t|t|t]; cbn [reads_tx].
  - intros (i & Hi & M & V). destruct (legacy_list i t M) as (l & El). subst i. destruct (lax_list_head l data Hi) as (b & r & -> & Hb).
    cbn [tx_decoded]. destruct (Z.eqb_spec b 2); [lia|]. destruct (Z.eqb_spec b 1); [lia|].
    destruct (tx155_accepted dbg (b :: r) B L) as (_ & _ & A3).
    assert (E : decode dbg (decode_transaction_eip_155 dbg) (b :: r) = Ret (Err TransactionTypeMismatch)).
    { apply A3. assert (M' := M). destruct M' as (i0 & i1 & i2 & i3 & i4 & i5 & i6 & i7 & i8 & El & M0 & M1 & M2 & M3 & M4 & M5 & ((bs & E6 & _ & Ev) & _) & M7 & M8).
      pose proof (lax_item_bytes _ _ Hi B) as IB. rewrite El in IB. apply item_bytes_Lst in IB.
      assert (IB6 : item_bytes i6) by (rewrite Forall_forall in IB; apply IB; cbn; auto 10). 
      rewrite E6 in IB6. assert (Bb : bytes bs) by (inversion IB6; subst; assumption).
      destruct (P_EncodingProp.big_of cfg (tl_v t)) as (v & Wv & Vv).
      { split; [rewrite Ev; apply be_val_bound, Bb|]. apply Z.lt_trans with 35; [exact V|reflexivity]. }
      exists (Lst l), (Build_TransactionEip155 (Build_PayloadEip155 (pl_gas_price (tl_payload t)) (pl_nonce (tl_payload t)) (pl_gas_price (tl_payload t)) (pl_gas_limit (tl_payload t))
         (pl_destination (tl_payload t)) (pl_amount (tl_payload t)) (pl_data (tl_payload t))) v (tl_r t) (tl_s t)).
      split; [exact Hi|]. split; [|cbn; lia]. exists i0, i1, i2, i3, i4, i5, i6, i7, i8. cbn. split; [exact El|].
      repeat (split; [eassumption|]). split; [|split; eassumption]. exists bs. split; [exact E6|]. split; [exact Wv|]. lia. }
    rewrite E. cbn [obind]. destruct (proj2 (legacy_accepted dbg (b :: r) B L) _ t Hi M) as (u & -> & S). cbn [obind]. exists (TLegacy u). split; [reflexivity|].
    destruct S as (S1 & S2 & S3 & S4). repeat split; cbn; auto.
    all: try apply S3; try apply S4; try apply S1.
  - intros (i & Hi & M). destruct (fields_155_list i t (proj1 M)) as (l & El). subst i. destruct (lax_list_head l data Hi) as (b & r & -> & Hb).
    cbn [tx_decoded]. destruct (Z.eqb_spec b 2); [lia|]. destruct (Z.eqb_spec b 1); [lia|].
    destruct (tx155_accepted dbg (b :: r) B L) as (_ & A2 & _). destruct (A2 _ t Hi M) as (u & -> & S). cbn [obind]. exists (T155 u). split; [reflexivity|].
    destruct S as ((S1 & S2 & S3 & S4) & S5). split; [split; assumption|]. cbn. auto.
  - intros (i & r & -> & Hi & M). assert (Br : bytes r) by (now inversion B). assert (Lr : Z.of_nat (length r) < 2 ^ 63) by (cbn [length] in L; lia).
    cbn [tx_decoded Z.eqb Pos.eqb]. destruct (proj2 (e2930_accepted dbg r Br Lr) i t Hi M) as (u & -> & S1 & S2 & S3 & S4). cbn [obind].
    exists (T2930 u). split; [reflexivity|]. split; [exact S1|]. cbn. auto.
  - intros (i & r & -> & Hi & M). assert (Br : bytes r) by (now inversion B). assert (Lr : Z.of_nat (length r) < 2 ^ 63) by (cbn [length] in L; lia).
    cbn [tx_decoded Z.eqb Pos.eqb]. destruct (proj2 (e1559_accepted dbg r Br Lr) i t Hi M) as (u & -> & S1 & S2 & S3 & S4). cbn [obind].
    exists (T1559 u). split; [reflexivity|]. split; [exact S1|]. cbn. auto.
Qed.
(** * The program *)
Lemma decoded_total dbg data : bytes data -> Z.of_nat (length data) < 2 ^ 63 -> (exists r, tx_decoded dbg data = Ret r) \/ tx_decoded dbg data = Panic.
Proof.
  intros B L. destruct data as [|b rest]; [left; eexists; reflexivity|]. cbn [tx_decoded].
  assert (Br : bytes rest) by (now inversion B). assert (Lr : Z.of_nat (length rest) < 2 ^ 63) by (cbn [length] in L; lia).
  destruct (b =? 2); [|destruct (b =? 1)].
  - destruct (proj2 (e1559_panics dbg rest Br Lr)) as [(t & ->)|[-> | ->]]; cbn [obind]; eauto.
  - destruct (proj2 (e2930_panics dbg rest Br Lr)) as [(t & ->)|[-> | ->]]; cbn [obind]; eauto.
  - destruct (proj2 (tx155_panics dbg _ B L)) as [(t & ->)|[(e & -> & [-> | ->])| ->]]; cbn [obind]; eauto.
    destruct (proj2 (legacy_panics dbg _ B L)) as [(t & ->)|[-> | ->]]; cbn [obind]; eauto.
Qed.
Theorem tx_decoder_shows be dbg arg data t : given arg data -> Z.of_nat (length data) < 2 ^ 63 -> reads_tx data t ->
  exists x, tx_decoder be dbg arg = Ret (x ++ newline) /\ shows_transaction t x.
Proof.
  intros G L R. destruct (reads_decoded dbg data t (proj1 G) L R) as (u & E & S). rewrite (tx_decoder_is be dbg arg data G), E. cbn [obind].
  pose proof (reads_ok data t (proj1 G) R) as Ot. pose proof (reads_ok data u (proj1 G) (decoded_reads dbg data u (proj1 G) L E)) as Ou.
  destruct (transaction_shows be u Ou) as (x & Ex & _). rewrite Ex. cbn [obind]. exists x. split; [reflexivity|]. exact (display_same be t u x Ot Ou S Ex).
Qed.
Theorem tx_decoder_not be dbg arg data : given arg data -> Z.of_nat (length data) < 2 ^ 63 -> (forall t, ~ reads_tx data t) -> tx_decoder be dbg arg = Panic.
Proof.
  intros G L N. rewrite (tx_decoder_is be dbg arg data G). destruct (decoded_total dbg data (proj1 G) L) as [([t|] & E)|E]; rewrite E; cbn [obind]; try reflexivity.
  destruct (N t (decoded_reads dbg data t (proj1 G) L E)).
Qed.
Lemma tx_decoder_nohex be dbg arg : (forall s, arg = Some s -> bytes s) -> (forall data, ~ given arg data) -> tx_decoder be dbg arg = Panic.
Proof.
  intros B N. destruct arg as [s|]; [|reflexivity]. unfold tx_decoder. cbn [unwrap obind]. destruct (hex_to_bytes (strip_0x s)) as [bs|e] eqn:E; [|reflexivity].
  destruct (N bs). apply decode_given; auto.
Qed.
(** what was broadcast is read *)
Lemma wire_reads t w : tx_ok t -> wire t = Some w -> Z.of_nat (length w) < 2 ^ 63 ->
  match t with TLegacy t => tl_v t < 35 | T155 _ => False | _ => True end -> exists u, reads_tx w u /\ tx_same t u.
Proof.
  intros H W L V. destruct t as [t|t|t|t]; cbn [wire tx_ok tx_item] in *; [|contradiction| |].
  - destruct (tx_legacy_roundtrip true t w H W L) as (_ & u & D & S).
    pose proof (RLP_bytes _ w (tx_legacy_bytes t H) W) as B. destruct (proj1 (legacy_accepted true w B L) u D) as (i & Hi & M).
    destruct S as (S1 & S2 & S3 & S4). exists (TLegacy u). split; [exists i; split; [exact Hi|]; split; [exact M|lia]|]. split; [exact S1|]. cbn. auto.
  - destruct (RLP (tx_item_2930 t)) as [s|] eqn:R; [|discriminate]. injection W as <-. assert (Ls : Z.of_nat (length s) < 2 ^ 63) by (cbn [length] in L; lia).
    destruct (tx_2930_roundtrip true t s H R Ls) as (_ & _ & u & D & S). pose proof (RLP_bytes _ s (tx_2930_bytes t H) R) as B.
    destruct (proj1 (e2930_accepted true s B Ls) u D) as (i & Hi & M). destruct S as (S1 & S2 & S3 & S4).
    exists (T2930 u). split; [exists i, s; auto|]. split; [exact S1|]. cbn. auto.
  - destruct (RLP (tx_item_1559 t)) as [s|] eqn:R; [|discriminate]. injection W as <-. assert (Ls : Z.of_nat (length s) < 2 ^ 63) by (cbn [length] in L; lia).
    destruct (tx_1559_roundtrip true t s H R Ls) as (_ & _ & u & D & S). pose proof (RLP_bytes _ s (tx_1559_bytes t H) R) as B.
    destruct (proj1 (e1559_accepted true s B Ls) u D) as (i & Hi & M). destruct S as (S1 & S2 & S3 & S4).
    exists (T1559 u). split; [exists i, s; auto|]. split; [exact S1|]. cbn. auto.
Qed.
Theorem tx_decoder_wire be dbg arg t w : tx_ok t -> wire t = Some w -> Z.of_nat (length w) < 2 ^ 63 -> given arg w ->
  match t with TLegacy t => tl_v t < 35 | T155 _ => False | _ => True end ->
  exists x, tx_decoder be dbg arg = Ret (x ++ newline) /\ shows_transaction t x.
Proof.
  intros H W L G V. destruct (wire_reads t w H W L V) as (u & R & S). destruct (reads_decoded dbg w u (proj1 G) L R) as (u' & E & S').
  rewrite (tx_decoder_is be dbg arg w G), E. cbn [obind].
  pose proof (reads_ok w u' (proj1 G) (decoded_reads dbg w u' (proj1 G) L E)) as Ou. destruct (transaction_shows be u' Ou) as (x & Ex & _). rewrite Ex. cbn [obind].
  exists x. split; [reflexivity|]. pose proof (reads_ok w u (proj1 G) R) as Ouu.
  destruct (transaction_shows be u Ouu) as (x2 & Ex2 & _). assert (x2 = x) as -> by (now apply (transaction_determined be be u u' x2 x Ouu Ou Ex2 Ex)).
  exact (display_same be t u x H Ouu S Ex2).
Qed.
Theorem tx_decoder_155 be dbg arg t w y : tx_ok_155 t -> RLP (tx_item_155 t) = Some w -> Z.of_nat (length w) < 2 ^ 63 -> given arg w ->
  bi_val (t155_v t) = 35 + 2 * bi_val (p155_chain_id (t155_payload t)) + parity y ->
  exists x u, tx_decoder be dbg arg = Ret (x ++ newline) /\ shows_transaction (T155 u) x /\ tx_same_but_chain_155 t u /\
    bi_val (p155_chain_id (t155_payload u)) = bi_val (p155_chain_id (t155_payload t)) / 2.
Proof.
  intros H W L G V. destruct (tx_155_chain dbg t w y H W L V) as (u & D & S & Wc & C). destruct (proj1 (tx155_accepted dbg w (proj1 G) L) u D) as (i & Hi & M).
  assert (R : reads_tx w (T155 u)) by (exists i; auto). destruct (tx_decoder_shows be dbg arg w (T155 u) G L R) as (x & E & X). exists x, u. auto.
Qed.
End WithCfg.
Lemma given_hex w : bytes w -> given (Some (hex w)) w.
Proof.
  intros B. split; [exact B|]. exists (hex w). split; [|now left]. apply spells_nibbles. induction B as [|b w Hb Bw IH]; [constructor|].
  unfold byte in Hb. assert (Q : forall v, 0 <= v < 16 -> is_digit 16 (lower_hex_digit v) v).
  { clear. intros v Hv. unfold is_digit, lower_hex_digit, alnum_value. split; [|lia]. destruct (Z.ltb_spec v 10).
    - replace ((48 <=? 48 + v) && (48 + v <=? 57))%bool with true by lia. f_equal. lia.
    - replace ((48 <=? 97 + (v - 10)) && (97 + (v - 10) <=? 57))%bool with false by lia.
      replace ((65 <=? 97 + (v - 10)) && (97 + (v - 10) <=? 90))%bool with false by lia.
      replace ((97 <=? 97 + (v - 10)) && (97 + (v - 10) <=? 122))%bool with true by lia. f_equal. lia. }
  cbn [hex flat_map P_Codec.nibbles app]. constructor; [apply Q; Z.to_euclidean_division_equations; lia|]. constructor; [apply Q; Z.to_euclidean_division_equations; lia|exact IH].
Qed.
Theorem rlp_decoder_refuses dbg arg data : given arg data -> Z.of_nat (length data) < 2 ^ 63 -> (forall i, ~ lax_rlp i data) -> overflow_free data ->
  rlp_decoder dbg arg = Ret (ascii "Decoding failed: Invalid format" ++ newline).
Proof.
  intros G L N O. destruct (P_ExJson.rlp_decoder_not dbg arg data G L N) as [E|[_ K]]; [exact E|]. apply P_Rlp3.overflow_free_over in O. contradiction.
Qed.
Section Refuted.
Context {cfg : digit_cfg}.
Theorem tx_decoder_155_wrong be dbg arg t w y x : tx_ok_155 t -> RLP (tx_item_155 t) = Some w -> Z.of_nat (length w) < 2 ^ 63 -> given arg w ->
  bi_val (t155_v t) = 35 + 2 * bi_val (p155_chain_id (t155_payload t)) + parity y -> 1 <= bi_val (p155_chain_id (t155_payload t)) ->
  transaction_display be (T155 t) = Ret x -> tx_decoder be dbg arg <> Ret (x ++ newline).
Proof.
  intros H W L G V C E K. destruct (tx_155_chain dbg t w y H W L V) as (u & D & S & Wc & Cu). destruct (proj1 (tx155_accepted dbg w (proj1 G) L) u D) as (i & Hi & M).
  assert (R : reads_tx w (T155 u)) by (exists i; auto). destruct (reads_decoded dbg w (T155 u) (proj1 G) L R) as (u' & Eu & Su).
  rewrite (tx_decoder_is be dbg arg w G), Eu in K. cbn [obind] in K.
  pose proof (reads_ok w u' (proj1 G) (decoded_reads dbg w u' (proj1 G) L Eu)) as Ou. destruct (transaction_shows be u' Ou) as (x' & Ex & _). rewrite Ex in K. cbn [obind] in K.
  injection K as K. apply app_inv_tail in K. subst x'. pose proof (proj1 (transaction_determined be be (T155 t) u' x x H Ou E Ex) eq_refl) as Q.
  destruct u' as [u'|u'|u'|u']; try (exfalso; exact (proj1 Q)). destruct Q as ((_ & _ & Q) & _). destruct Su as ((_ & _ & Su) & _). cbn in Q, Su. rewrite Su, <- Q in Cu.
  pose proof (Z.div_lt (bi_val (p155_chain_id (t155_payload t))) 2 ltac:(lia) ltac:(lia)). lia.
Qed.
Theorem tx_decoder_any be dbg arg data t : given arg data -> Z.of_nat (length data) < 2 ^ 63 -> reads_tx data t ->
  tx_ok t /\ exists x, tx_decoder be dbg arg = Ret (x ++ newline) /\ shows_transaction t x.
Proof. intros G L R. split; [exact (reads_ok data t (proj1 G) R)|exact (tx_decoder_shows be dbg arg data t G L R)]. Qed.
End Refuted.

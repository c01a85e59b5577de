(** Proofs about sending: from texts to the bytes of a signed transaction. *)

From Verif Require Import Base M_Codec M_BigInt M_BigText M_Curve M_Hmac M_Random M_Ecdsa M_Rfc6979 M_Rlp M_EthTypes M_Tx M_Eoa M_TxSign.
From Verif Require Import S_Codec S_BigInt S_Curve S_EcModel S_Ecdsa S_Sign S_Hash S_Rlp S_EthTypes S_Tx S_Eoa S_Send.
From Verif Require Import P_EthTypes2 P_Amounts P_Hash P_Ecdsa2 P_EcdsaProp P_EcdsaProp2 P_Tx P_Eoa P_TxSign P_SecpApi.
From Coq Require Import Permutation.
Open Scope Z_scope.

(** A field that is set once holds that value, wherever in the sequence that is. *)
Lemma held_once h f v : (forall k, ~ In (Build k) h) -> (exists c, In c h /\ sets c f = Some v) -> (forall c w, In c h -> sets c f = Some w -> w = v) ->
  held h f = Some v.
Proof.
  induction h as [|c h IH]; intros NB (c0 & I & S) U; [destruct I|].
  assert (NB' : forall k, ~ In (Build k) h) by (intros k K; apply (NB k); now right).
  assert (E : held (c :: h) f = match sets c f with Some w => Some w | None => held h f end).
  { destruct c; try reflexivity. exfalso. apply (NB k). now left. }
  rewrite E. destruct (sets c f) as [w|] eqn:Ec; [rewrite (U c w (or_introl eq_refl) Ec); reflexivity|].
  apply IH; [exact NB'|destruct I as [->|I]; [congruence|eauto]|]. intros c' w I' S'. apply (U c' w); [now right|exact S'].
Qed.

Lemma held_never h f : (forall k, ~ In (Build k) h) -> (forall c, In c h -> sets c f = None) -> held h f = None.
Proof.
  induction h as [|c h IH]; intros NB U; [reflexivity|].
  assert (E : held (c :: h) f = match sets c f with Some w => Some w | None => held h f end).
  { destruct c; try reflexivity. exfalso. apply (NB k). now left. }
  rewrite E, (U c (or_introl eq_refl)). apply IH; [intros k K; apply (NB k); now right|]. intros c' I. apply U. now right.
Qed.
Lemma held_perm calls l f : Permutation calls l -> (forall k, ~ In (Build k) l) ->
  (forall c v, In c l -> sets c f = Some v -> (forall c' w, In c' l -> sets c' f = Some w -> w = v) -> held (rev calls) f = Some v) /\
  ((forall c, In c l -> sets c f = None) -> held (rev calls) f = None).
Proof.
  intros P NB. assert (T : forall c, In c (rev calls) <-> In c l).
  { intros c. rewrite <- in_rev. split; apply Permutation_in; [exact P|now apply Permutation_sym]. }
  assert (NB' : forall k, ~ In (Build k) (rev calls)) by (intros k K; apply T in K; exact (NB k K)).
  split.
  - intros c v I S U. apply held_once; [exact NB'|exists c; split; [now apply T|exact S]|]. intros c' w I'. apply T in I'. now apply U.
  - intros U. apply held_never; [exact NB'|]. intros c I. apply U. now apply T.
Qed.

Section Send.
Context {cfg : digit_cfg}.
Variables (be : bool) (fuel : nat) (rng : nat -> outcome (result get_os_random_bytes_error (list Z))) (D : params) (sk : private_key) (pk : public_key).
Hypotheses (ED : secp256k1 = Ret D) (HK : code_sk sk) (EP : sk_params sk = D) (EQ : public_key_of sk = Ret pk) (HR : rng_ok rng).

Lemma sent_signature p m t o : so_zero o = false -> payload_ok p -> PREIMAGE p = Some m -> sign_payload be fuel rng p sk o = Ret (Ok t) ->
  tx_payload t = p /\ tx_ok t /\ identifies be D t pk /\
  exists sg y, 0 <= y <= 1 /\ has_parity t y /\ bi_val (sig_r sg) = bi_val (tx_r t) /\ bi_val (sig_s sg) = bi_val (tx_s t) /\ sig_params sg = D /\
    1 <= bi_val (sig_r sg) <= e_order SECP256K1 - 1 /\ 1 <= bi_val (sig_s sg) <= e_order SECP256K1 - 1 /\ (so_low_s o = true -> bi_val (sig_s sg) <= e_order SECP256K1 / 2) /\
    verify (KECCAK256 m) sg pk = Ret (Ok true).
Proof.
  intros OZ HP EM ET. destruct (secp_fields D ED) as (_ & _ & SZ & _ & _ & ST & _).
  pose proof (sign_payload_spec be fuel rng HR sk HK) as SP. rewrite EP in SP. specialize (SP SZ o p m HP EM). cbv zeta in SP.
  pose proof (sender_of be fuel rng p sk o m D pk t ED HK EP EQ HR HP EM OZ ET) as ID.
  destruct (sign_with_options be fuel (KECCAK256 m) sk o rng) as [[[sg id]|e]| |] eqn:ES; try congruence.
  destruct SP as (t' & E' & E1 & E2 & E3 & E4 & E5). rewrite ET in E'. injection E' as <-.
  destruct (keccak_digest be m (preimage_bytes p m HP EM)) as (_ & HB & HL).
  rewrite <- EP in SZ.
  destruct (public_key_of_full sk HK) as (pk0 & E0 & HM & CP). rewrite EQ in E0. injection E0 as <-.
  destruct (sign_ranges be Sha256 sk fuel (KECCAK256 m) o rng _ sg id HK SZ HB HR (new_obj be Sha256) ES) as (PS & R1 & R2 & R3).
  destruct (signed be Sha256 sk HK SZ (KECCAK256 m) HB o rng HR fuel _ (new_obj be Sha256) sg id ES) as (_ & _ & NZ & _).
  assert (V : verify (KECCAK256 m) sg pk = Ret (Ok true)).
  { refine (sign_verify be Sha256 sk pk fuel (KECCAK256 m) o verifying_default rng _ sg id HK HM SZ HB HR (new_obj be Sha256) ES (NZ OZ) _ _); [discriminate|].
    intros _. rewrite EP. apply ST. exact HL. }
  rewrite EP in *. rewrite (secp_order D ED) in *.
  split; [exact E1|]. split; [exact E5|]. split; [exact ID|]. exists sg, (recid_u8 id mod 2). rewrite E2, E3.
  pose proof (Z.mod_pos_bound (recid_u8 id) 2 ltac:(lia)). repeat split; auto; lia.
Qed.

Lemma address_read hex a : digits_of 16 hex (nibbles a) -> bytes a -> length a = 20%nat -> address_try_from (48 :: 120 :: hex) = Ok a.
Proof.
  intros DG Ba La. apply address_try_from_iff; [|split; [split; assumption|eauto]].
  repeat constructor; try (unfold byte; lia). eapply is_digit_byte. exact DG.
Qed.
Lemma nonce_read n : 0 <= n < 2 ^ 64 - 1 -> nonce_from_u64 n = Some n.
Proof. intros H. unfold nonce_from_u64. destruct (Z.eqb_spec n (2 ^ 64 - 1)); [lia|reflexivity]. Qed.

Lemma sent_1559 chain nonce gas tp vp tf vf ta va hex a data :
  0 <= chain < 2 ^ 64 -> 0 <= nonce < 2 ^ 64 - 1 -> 0 <= gas < 2 ^ 64 -> denotes 10 tp vp -> 0 <= vp -> denotes 10 tf vf -> 0 <= vf ->
  denotes 10 ta va -> 0 <= va -> digits_of 16 hex (nibbles a) -> bytes a -> length a = 20%nat -> bytes data ->
  exists c w1 w2 w3, chain_id_from_u64 chain = Ret c /\ nonce_from_u64 nonce = Some nonce /\
    wei_from_decimal tp = Ret (Ok w1) /\ wei_from_decimal tf = Ret (Ok w2) /\ wei_from_decimal ta = Ret (Ok w3) /\ address_try_from (48 :: 120 :: hex) = Ok a /\
  forall calls, Permutation calls [SetChainId c; SetNonce nonce; SetMaxPriorityFee w1; SetMaxFee w2; SetGasLimit gas; SetDestination a; SetAmount w3; SetData data] ->
  exists p, fst (take_and_build K1559 (builder_after calls)) = Ok (P1559 p) /\
  forall o body t, so_zero o = false -> RLP (Lst (eip_1559_fields chain nonce vp vf gas a va data [])) = Some body -> sign_payload be fuel rng (P1559 p) sk o = Ret (Ok t) ->
  exists t' sg y, t = T1559 t' /\ 0 <= y <= 1 /\ sig_params sg = D /\
    1 <= bi_val (sig_r sg) <= e_order SECP256K1 - 1 /\ 1 <= bi_val (sig_s sg) <= e_order SECP256K1 - 1 /\ (so_low_s o = true -> bi_val (sig_s sg) <= e_order SECP256K1 / 2) /\
    verify (KECCAK256 (2 :: body)) sg pk = Ret (Ok true) /\ identifies be D t pk /\
    forall s, RLP (Lst (eip_1559_fields chain nonce vp vf gas a va data [] ++ signature_fields y (bi_val (sig_r sg)) (bi_val (sig_s sg)))) = Some s ->
      Z.of_nat (length s) < 2 ^ 63 -> transaction_eip_1559_encode t' = Ret (2 :: s).
Proof.
  intros Hc Hn Hg Dp Pp Df Pf Da Pa DG Ba La Bd.
  destruct (chain_id_value chain Hc) as (c & Ec & Wc & Vc). destruct (decimal_accepts tp vp Dp) as (w1 & E1 & W1 & V1).
  destruct (decimal_accepts tf vf Df) as (w2 & E2 & W2 & V2). destruct (decimal_accepts ta va Da) as (w3 & E3 & W3 & V3).
  exists c, w1, w2, w3. split; [exact Ec|]. split; [now apply nonce_read|]. split; [exact E1|]. split; [exact E2|]. split; [exact E3|]. split; [now apply address_read|].
  intros calls P.
  match type of P with Permutation _ ?l => assert (NB : forall k, ~ In (Build k) l) by (intros k K; cbn [In] in K; intuition discriminate) end.
  assert (F1 : held (rev calls) FChainId = Some c) by (refine (proj1 (held_perm calls _ FChainId P NB) (SetChainId c) c _ eq_refl _); [cbn [In]; tauto|intros c' w' I S; cbn [In] in I; repeat (destruct I as [<-|I]; [cbn in S; congruence|]); destruct I]).
  assert (F2 : held (rev calls) FNonce = Some nonce) by (refine (proj1 (held_perm calls _ FNonce P NB) (SetNonce nonce) nonce _ eq_refl _); [cbn [In]; tauto|intros c' w' I S; cbn [In] in I; repeat (destruct I as [<-|I]; [cbn in S; congruence|]); destruct I]).
  assert (F3 : held (rev calls) FMaxPriorityFee = Some w1) by (refine (proj1 (held_perm calls _ FMaxPriorityFee P NB) (SetMaxPriorityFee w1) w1 _ eq_refl _); [cbn [In]; tauto|intros c' w' I S; cbn [In] in I; repeat (destruct I as [<-|I]; [cbn in S; congruence|]); destruct I]).
  assert (F4 : held (rev calls) FMaxFee = Some w2) by (refine (proj1 (held_perm calls _ FMaxFee P NB) (SetMaxFee w2) w2 _ eq_refl _); [cbn [In]; tauto|intros c' w' I S; cbn [In] in I; repeat (destruct I as [<-|I]; [cbn in S; congruence|]); destruct I]).
  assert (F5 : held (rev calls) FGasLimit = Some gas) by (refine (proj1 (held_perm calls _ FGasLimit P NB) (SetGasLimit gas) gas _ eq_refl _); [cbn [In]; tauto|intros c' w' I S; cbn [In] in I; repeat (destruct I as [<-|I]; [cbn in S; congruence|]); destruct I]).
  assert (F6 : held (rev calls) FDestination = Some a) by (refine (proj1 (held_perm calls _ FDestination P NB) (SetDestination a) a _ eq_refl _); [cbn [In]; tauto|intros c' w' I S; cbn [In] in I; repeat (destruct I as [<-|I]; [cbn in S; congruence|]); destruct I]).
  assert (F7 : held (rev calls) FAmount = Some w3) by (refine (proj1 (held_perm calls _ FAmount P NB) (SetAmount w3) w3 _ eq_refl _); [cbn [In]; tauto|intros c' w' I S; cbn [In] in I; repeat (destruct I as [<-|I]; [cbn in S; congruence|]); destruct I]).
  assert (F8 : held (rev calls) FData = Some data) by (refine (proj1 (held_perm calls _ FData P NB) (SetData data) data _ eq_refl _); [cbn [In]; tauto|intros c' w' I S; cbn [In] in I; repeat (destruct I as [<-|I]; [cbn in S; congruence|]); destruct I]).
  assert (F9 : held (rev calls) FAccessList = None) by (refine (proj2 (held_perm calls _ FAccessList P NB) _); intros c' I; cbn [In] in I; repeat (destruct I as [<-|I]; [reflexivity|]); destruct I).
  pose proof (build_after K1559 calls) as B. unfold complete, required in B. cbn [forallb] in B. rewrite F1, F2, F3, F4, F5, F6, F7 in B. cbn [is_some andb] in B.
  destruct B as (p0 & B & K & FF). destruct p0 as [p0|p0|p0|p0]; try discriminate K. exists p0. split; [exact B|].
  pose proof (FF FChainId) as G1. pose proof (FF FNonce) as G2. pose proof (FF FMaxPriorityFee) as G3. pose proof (FF FMaxFee) as G4. pose proof (FF FGasLimit) as G5.
  pose proof (FF FDestination) as G6. pose proof (FF FAmount) as G7. pose proof (FF FData) as G8. pose proof (FF FAccessList) as G9. clear FF.
  cbn -[held] in G1, G2, G3, G4, G5, G6, G7, G8, G9. rewrite F1 in G1. rewrite F2 in G2. rewrite F3 in G3. rewrite F4 in G4. rewrite F5 in G5. rewrite F6 in G6. rewrite F7 in G7. rewrite F8 in G8. rewrite F9 in G9.
  destruct p0 as [q1 q2 q3 q4 q5 q6 q7 q8 q9]. cbn [p1559_chain_id p1559_nonce p1559_max_priority_fee_per_gas p1559_max_fee_per_gas p1559_gas_limit p1559_destination p1559_amount p1559_data p1559_access_list] in *.
  injection G1 as ->. injection G2 as ->. injection G3 as ->. injection G4 as ->. injection G5 as ->. injection G6 as ->. injection G7 as ->. injection G8 as ->. injection G9 as ->.
  clear B K F1 F2 F3 F4 F5 F6 F7 F8 F9 NB P. intros o body t OZ R ET.
  match type of ET with sign_payload _ _ _ ?q _ _ = _ => set (pl := q) in * end.
  assert (HP : payload_ok pl).
  { cbn [payload_ok pl]. unfold payload_ok_1559, big_ok, nonce_ok, u64_ok, address_ok.
    cbn [p1559_chain_id p1559_nonce p1559_max_priority_fee_per_gas p1559_max_fee_per_gas p1559_gas_limit p1559_destination p1559_amount p1559_data p1559_access_list].
    rewrite Vc, V1, V2, V3. repeat match goal with |- _ /\ _ => split; [solve [assumption|lia|split; [assumption|lia]|split; assumption]|] end. constructor. }
  assert (EM : PREIMAGE pl = Some (2 :: body)).
  { cbn [PREIMAGE pl]. unfold signed_item_1559, items_1559, big, num, access. cbn [p1559_chain_id p1559_nonce p1559_max_priority_fee_per_gas p1559_max_fee_per_gas p1559_gas_limit p1559_destination p1559_amount p1559_data p1559_access_list map].
    rewrite Vc, V1, V2, V3. change (match RLP (Lst (eip_1559_fields chain nonce vp vf gas a va data [])) with Some e => Some (2 :: e) | None => None end = Some (2 :: body)). rewrite R. reflexivity. }
  destruct (sent_signature pl _ t o OZ HP EM ET) as (ETP & TO & ID & sg & y & Hy & PY & VR & VS & PS & R1 & R2 & R3 & V).
  destruct t as [t|t|t|t]; try discriminate ETP. exists t, sg, y. repeat (split; [assumption|]). split; [reflexivity|]. repeat (split; [assumption|]).
  intros s RS LS. cbn [has_parity tx_r tx_s tx_ok tx_payload] in *. injection ETP as ETP.
  refine (proj1 (tx_1559_roundtrip false t s TO _ LS)). rewrite <- RS. unfold tx_item_1559. rewrite ETP. unfold items_1559, big, num, access.
  cbn [p1559_chain_id p1559_nonce p1559_max_priority_fee_per_gas p1559_max_fee_per_gas p1559_gas_limit p1559_destination p1559_amount p1559_data p1559_access_list map].
  rewrite Vc, V1, V2, V3, PY, <- VR, <- VS. reflexivity.
Qed.
Lemma sent_legacy nonce gas tg vg ta va hex a data :
  0 <= nonce < 2 ^ 64 - 1 -> 0 <= gas < 2 ^ 64 -> denotes 10 tg vg -> 0 <= vg ->
  denotes 10 ta va -> 0 <= va -> digits_of 16 hex (nibbles a) -> bytes a -> length a = 20%nat -> bytes data ->
  exists w1 w3, nonce_from_u64 nonce = Some nonce /\
    wei_from_decimal tg = Ret (Ok w1) /\ wei_from_decimal ta = Ret (Ok w3) /\ address_try_from (48 :: 120 :: hex) = Ok a /\
  forall calls, Permutation calls [SetNonce nonce; SetGasPrice w1; SetGasLimit gas; SetDestination a; SetAmount w3; SetData data] ->
  exists p, fst (take_and_build KLegacy (builder_after calls)) = Ok (PLegacy p) /\
  forall o body t, so_zero o = false -> RLP (Lst (legacy_fields nonce vg gas a va data)) = Some body -> sign_payload be fuel rng (PLegacy p) sk o = Ret (Ok t) ->
  exists t' sg y, t = TLegacy t' /\ 0 <= y <= 1 /\ sig_params sg = D /\
    1 <= bi_val (sig_r sg) <= e_order SECP256K1 - 1 /\ 1 <= bi_val (sig_s sg) <= e_order SECP256K1 - 1 /\ (so_low_s o = true -> bi_val (sig_s sg) <= e_order SECP256K1 / 2) /\
    verify (KECCAK256 (body)) sg pk = Ret (Ok true) /\ identifies be D t pk /\
    forall s, RLP (Lst (legacy_fields nonce vg gas a va data ++ signature_fields (27 + y) (bi_val (sig_r sg)) (bi_val (sig_s sg)))) = Some s ->
      Z.of_nat (length s) < 2 ^ 63 -> encode encode_transaction_legacy t' = Ret (s).
Proof.
  intros Hn Hg Dp Pp Da Pa DG Ba La Bd.
  destruct (decimal_accepts tg vg Dp) as (w1 & E1 & W1 & V1). destruct (decimal_accepts ta va Da) as (w3 & E3 & W3 & V3).
  exists w1, w3. split; [now apply nonce_read|]. split; [exact E1|]. split; [exact E3|]. split; [now apply address_read|].
  intros calls P.
  match type of P with Permutation _ ?l => assert (NB : forall k, ~ In (Build k) l) by (intros k K; cbn [In] in K; intuition discriminate) end.
  assert (F1 : held (rev calls) FNonce = Some nonce) by (refine (proj1 (held_perm calls _ FNonce P NB) (SetNonce nonce) nonce _ eq_refl _); [cbn [In]; tauto|intros c' w' I S; cbn [In] in I; repeat (destruct I as [<-|I]; [cbn in S; congruence|]); destruct I]).
  assert (F2 : held (rev calls) FGasPrice = Some w1) by (refine (proj1 (held_perm calls _ FGasPrice P NB) (SetGasPrice w1) w1 _ eq_refl _); [cbn [In]; tauto|intros c' w' I S; cbn [In] in I; repeat (destruct I as [<-|I]; [cbn in S; congruence|]); destruct I]).
  assert (F3 : held (rev calls) FGasLimit = Some gas) by (refine (proj1 (held_perm calls _ FGasLimit P NB) (SetGasLimit gas) gas _ eq_refl _); [cbn [In]; tauto|intros c' w' I S; cbn [In] in I; repeat (destruct I as [<-|I]; [cbn in S; congruence|]); destruct I]).
  assert (F4 : held (rev calls) FDestination = Some a) by (refine (proj1 (held_perm calls _ FDestination P NB) (SetDestination a) a _ eq_refl _); [cbn [In]; tauto|intros c' w' I S; cbn [In] in I; repeat (destruct I as [<-|I]; [cbn in S; congruence|]); destruct I]).
  assert (F5 : held (rev calls) FAmount = Some w3) by (refine (proj1 (held_perm calls _ FAmount P NB) (SetAmount w3) w3 _ eq_refl _); [cbn [In]; tauto|intros c' w' I S; cbn [In] in I; repeat (destruct I as [<-|I]; [cbn in S; congruence|]); destruct I]).
  assert (F6 : held (rev calls) FData = Some data) by (refine (proj1 (held_perm calls _ FData P NB) (SetData data) data _ eq_refl _); [cbn [In]; tauto|intros c' w' I S; cbn [In] in I; repeat (destruct I as [<-|I]; [cbn in S; congruence|]); destruct I]).
  pose proof (build_after KLegacy calls) as B. unfold complete, required in B. cbn [forallb] in B. rewrite F1, F2, F3, F4, F5 in B. cbn [is_some andb] in B.
  destruct B as (p0 & B & K & FF). destruct p0 as [p0|p0|p0|p0]; try discriminate K. exists p0. split; [exact B|].
  pose proof (FF FNonce) as G1. pose proof (FF FGasPrice) as G2. pose proof (FF FGasLimit) as G3. pose proof (FF FDestination) as G4. pose proof (FF FAmount) as G5. pose proof (FF FData) as G6. clear FF.
  cbn -[held] in G1, G2, G3, G4, G5, G6. rewrite F1 in G1. rewrite F2 in G2. rewrite F3 in G3. rewrite F4 in G4. rewrite F5 in G5. rewrite F6 in G6.
  destruct p0 as [q1 q2 q3 q4 q5 q6]. cbn [pl_nonce pl_gas_price pl_gas_limit pl_destination pl_amount pl_data] in *.
  injection G1 as ->. injection G2 as ->. injection G3 as ->. injection G4 as ->. injection G5 as ->. injection G6 as ->.
  clear B K F1 F2 F3 F4 F5 F6 NB P. intros o body t OZ R ET.
  match type of ET with sign_payload _ _ _ ?q _ _ = _ => set (pl := q) in * end.
  assert (HP : payload_ok pl).
  { cbn [payload_ok pl]. unfold payload_ok_legacy, big_ok, nonce_ok, u64_ok, address_ok.
    cbn [pl_nonce pl_gas_price pl_gas_limit pl_destination pl_amount pl_data].
    rewrite V1, V3. repeat match goal with |- _ /\ _ => split; [solve [assumption|lia|split; [assumption|lia]|split; assumption]|] end. assumption. }
  assert (EM : PREIMAGE pl = Some (body)).
  { cbn [PREIMAGE pl]. unfold signed_item_legacy, items_legacy, big, num. cbn [pl_nonce pl_gas_price pl_gas_limit pl_destination pl_amount pl_data map].
    rewrite V1, V3. first [exact R | fold (legacy_fields nonce vg gas a va data); rewrite R; reflexivity]. }
  destruct (sent_signature pl _ t o OZ HP EM ET) as (ETP & TO & ID & sg & y & Hy & PY & VR & VS & PS & R1 & R2 & R3 & V).
  destruct t as [t|t|t|t]; try discriminate ETP. exists t, sg, y. repeat (split; [assumption|]). split; [reflexivity|]. repeat (split; [assumption|]).
  intros s RS LS. cbn [has_parity tx_r tx_s tx_ok tx_payload] in *. injection ETP as ETP.
  refine (proj1 (tx_legacy_roundtrip false t s TO _ LS)). rewrite <- RS. unfold tx_item_legacy. rewrite ETP. unfold items_legacy, big, num.
  cbn [pl_nonce pl_gas_price pl_gas_limit pl_destination pl_amount pl_data map].
  rewrite V1, V3, PY, <- VR, <- VS. reflexivity.
Qed.

Lemma sent_155 chain nonce gas tg vg ta va hex a data :
  0 <= chain < 2 ^ 64 -> 0 <= nonce < 2 ^ 64 - 1 -> 0 <= gas < 2 ^ 64 -> denotes 10 tg vg -> 0 <= vg ->
  denotes 10 ta va -> 0 <= va -> digits_of 16 hex (nibbles a) -> bytes a -> length a = 20%nat -> bytes data ->
  exists c w1 w3, chain_id_from_u64 chain = Ret c /\ nonce_from_u64 nonce = Some nonce /\
    wei_from_decimal tg = Ret (Ok w1) /\ wei_from_decimal ta = Ret (Ok w3) /\ address_try_from (48 :: 120 :: hex) = Ok a /\
  forall calls, Permutation calls [SetChainId c; SetNonce nonce; SetGasPrice w1; SetGasLimit gas; SetDestination a; SetAmount w3; SetData data] ->
  exists p, fst (take_and_build K155 (builder_after calls)) = Ok (P155 p) /\
  forall o body t, so_zero o = false -> RLP (Lst (legacy_fields nonce vg gas a va data ++ signature_fields chain 0 0)) = Some body -> sign_payload be fuel rng (P155 p) sk o = Ret (Ok t) ->
  exists t' sg y, t = T155 t' /\ 0 <= y <= 1 /\ sig_params sg = D /\
    1 <= bi_val (sig_r sg) <= e_order SECP256K1 - 1 /\ 1 <= bi_val (sig_s sg) <= e_order SECP256K1 - 1 /\ (so_low_s o = true -> bi_val (sig_s sg) <= e_order SECP256K1 / 2) /\
    verify (KECCAK256 (body)) sg pk = Ret (Ok true) /\ identifies be D t pk /\
    forall s, RLP (Lst (legacy_fields nonce vg gas a va data ++ signature_fields (35 + 2 * chain + y) (bi_val (sig_r sg)) (bi_val (sig_s sg)))) = Some s ->
      Z.of_nat (length s) < 2 ^ 63 -> encode encode_transaction_eip_155 t' = Ret (s).
Proof.
  intros Hc Hn Hg Dp Pp Da Pa DG Ba La Bd.
  destruct (chain_id_value chain Hc) as (c & Ec & Wc & Vc).
  destruct (decimal_accepts tg vg Dp) as (w1 & E1 & W1 & V1). destruct (decimal_accepts ta va Da) as (w3 & E3 & W3 & V3).
  exists c, w1, w3. split; [exact Ec|]. split; [now apply nonce_read|]. split; [exact E1|]. split; [exact E3|]. split; [now apply address_read|].
  intros calls P.
  match type of P with Permutation _ ?l => assert (NB : forall k, ~ In (Build k) l) by (intros k K; cbn [In] in K; intuition discriminate) end.
  assert (F1 : held (rev calls) FChainId = Some c) by (refine (proj1 (held_perm calls _ FChainId P NB) (SetChainId c) c _ eq_refl _); [cbn [In]; tauto|intros c' w' I S; cbn [In] in I; repeat (destruct I as [<-|I]; [cbn in S; congruence|]); destruct I]).
  assert (F2 : held (rev calls) FNonce = Some nonce) by (refine (proj1 (held_perm calls _ FNonce P NB) (SetNonce nonce) nonce _ eq_refl _); [cbn [In]; tauto|intros c' w' I S; cbn [In] in I; repeat (destruct I as [<-|I]; [cbn in S; congruence|]); destruct I]).
  assert (F3 : held (rev calls) FGasPrice = Some w1) by (refine (proj1 (held_perm calls _ FGasPrice P NB) (SetGasPrice w1) w1 _ eq_refl _); [cbn [In]; tauto|intros c' w' I S; cbn [In] in I; repeat (destruct I as [<-|I]; [cbn in S; congruence|]); destruct I]).
  assert (F4 : held (rev calls) FGasLimit = Some gas) by (refine (proj1 (held_perm calls _ FGasLimit P NB) (SetGasLimit gas) gas _ eq_refl _); [cbn [In]; tauto|intros c' w' I S; cbn [In] in I; repeat (destruct I as [<-|I]; [cbn in S; congruence|]); destruct I]).
  assert (F5 : held (rev calls) FDestination = Some a) by (refine (proj1 (held_perm calls _ FDestination P NB) (SetDestination a) a _ eq_refl _); [cbn [In]; tauto|intros c' w' I S; cbn [In] in I; repeat (destruct I as [<-|I]; [cbn in S; congruence|]); destruct I]).
  assert (F6 : held (rev calls) FAmount = Some w3) by (refine (proj1 (held_perm calls _ FAmount P NB) (SetAmount w3) w3 _ eq_refl _); [cbn [In]; tauto|intros c' w' I S; cbn [In] in I; repeat (destruct I as [<-|I]; [cbn in S; congruence|]); destruct I]).
  assert (F7 : held (rev calls) FData = Some data) by (refine (proj1 (held_perm calls _ FData P NB) (SetData data) data _ eq_refl _); [cbn [In]; tauto|intros c' w' I S; cbn [In] in I; repeat (destruct I as [<-|I]; [cbn in S; congruence|]); destruct I]).
  pose proof (build_after K155 calls) as B. unfold complete, required in B. cbn [forallb] in B. rewrite F1, F2, F3, F4, F5, F6 in B. cbn [is_some andb] in B.
  destruct B as (p0 & B & K & FF). destruct p0 as [p0|p0|p0|p0]; try discriminate K. exists p0. split; [exact B|].
  pose proof (FF FChainId) as G1. pose proof (FF FNonce) as G2. pose proof (FF FGasPrice) as G3. pose proof (FF FGasLimit) as G4. pose proof (FF FDestination) as G5. pose proof (FF FAmount) as G6. pose proof (FF FData) as G7. clear FF.
  cbn -[held] in G1, G2, G3, G4, G5, G6, G7. rewrite F1 in G1. rewrite F2 in G2. rewrite F3 in G3. rewrite F4 in G4. rewrite F5 in G5. rewrite F6 in G6. rewrite F7 in G7.
  destruct p0 as [q1 q2 q3 q4 q5 q6 q7]. cbn [p155_chain_id p155_nonce p155_gas_price p155_gas_limit p155_destination p155_amount p155_data] in *.
  injection G1 as ->. injection G2 as ->. injection G3 as ->. injection G4 as ->. injection G5 as ->. injection G6 as ->. injection G7 as ->.
  clear B K F1 F2 F3 F4 F5 F6 F7 NB P. intros o body t OZ R ET.
  match type of ET with sign_payload _ _ _ ?q _ _ = _ => set (pl := q) in * end.
  assert (HP : payload_ok pl).
  { cbn [payload_ok pl]. unfold payload_ok_155, big_ok, nonce_ok, u64_ok, address_ok.
    cbn [p155_chain_id p155_nonce p155_gas_price p155_gas_limit p155_destination p155_amount p155_data].
    rewrite Vc, V1, V3. repeat match goal with |- _ /\ _ => split; [solve [assumption|lia|split; [assumption|lia]|split; assumption]|] end. assumption. }
  assert (EM : PREIMAGE pl = Some (body)).
  { cbn [PREIMAGE pl]. unfold signed_item_155, items_155, big, num. cbn [p155_chain_id p155_nonce p155_gas_price p155_gas_limit p155_destination p155_amount p155_data map].
    rewrite Vc, V1, V3. first [exact R | fold (legacy_fields nonce vg gas a va data); rewrite R; reflexivity]. }
  destruct (sent_signature pl _ t o OZ HP EM ET) as (ETP & TO & ID & sg & y & Hy & PY & VR & VS & PS & R1 & R2 & R3 & V).
  destruct t as [t|t|t|t]; try discriminate ETP. exists t, sg, y. repeat (split; [assumption|]). split; [reflexivity|]. repeat (split; [assumption|]).
  intros s RS LS. cbn [has_parity tx_r tx_s tx_ok tx_payload] in *. injection ETP as ETP.
  rewrite ETP in PY. cbn [p155_chain_id] in PY. rewrite Vc in PY.
  refine (proj1 (tx_155_v false t s TO _ LS)). rewrite <- RS. unfold tx_item_155. rewrite ETP. unfold items_155, big, num.
  cbn [p155_chain_id p155_nonce p155_gas_price p155_gas_limit p155_destination p155_amount p155_data map].
  rewrite V1, V3, PY, <- VR, <- VS. reflexivity.
Qed.

Lemma sent_2930 chain nonce gas tg vg ta va hex a data :
  0 <= chain < 2 ^ 64 -> 0 <= nonce < 2 ^ 64 - 1 -> 0 <= gas < 2 ^ 64 -> denotes 10 tg vg -> 0 <= vg ->
  denotes 10 ta va -> 0 <= va -> digits_of 16 hex (nibbles a) -> bytes a -> length a = 20%nat -> bytes data ->
  exists c w1 w3, chain_id_from_u64 chain = Ret c /\ nonce_from_u64 nonce = Some nonce /\
    wei_from_decimal tg = Ret (Ok w1) /\ wei_from_decimal ta = Ret (Ok w3) /\ address_try_from (48 :: 120 :: hex) = Ok a /\
  forall calls, Permutation calls [SetChainId c; SetNonce nonce; SetGasPrice w1; SetGasLimit gas; SetDestination a; SetAmount w3; SetData data] ->
  exists p, fst (take_and_build K2930 (builder_after calls)) = Ok (P2930 p) /\
  forall o body t, so_zero o = false -> RLP (Lst (eip_2930_fields chain nonce vg gas a va data [])) = Some body -> sign_payload be fuel rng (P2930 p) sk o = Ret (Ok t) ->
  exists t' sg y, t = T2930 t' /\ 0 <= y <= 1 /\ sig_params sg = D /\
    1 <= bi_val (sig_r sg) <= e_order SECP256K1 - 1 /\ 1 <= bi_val (sig_s sg) <= e_order SECP256K1 - 1 /\ (so_low_s o = true -> bi_val (sig_s sg) <= e_order SECP256K1 / 2) /\
    verify (KECCAK256 (1 :: body)) sg pk = Ret (Ok true) /\ identifies be D t pk /\
    forall s, RLP (Lst (eip_2930_fields chain nonce vg gas a va data [] ++ signature_fields (y) (bi_val (sig_r sg)) (bi_val (sig_s sg)))) = Some s ->
      Z.of_nat (length s) < 2 ^ 63 -> transaction_eip_2930_encode t' = Ret (1 :: s).
Proof.
  intros Hc Hn Hg Dp Pp Da Pa DG Ba La Bd.
  destruct (chain_id_value chain Hc) as (c & Ec & Wc & Vc).
  destruct (decimal_accepts tg vg Dp) as (w1 & E1 & W1 & V1). destruct (decimal_accepts ta va Da) as (w3 & E3 & W3 & V3).
  exists c, w1, w3. split; [exact Ec|]. split; [now apply nonce_read|]. split; [exact E1|]. split; [exact E3|]. split; [now apply address_read|].
  intros calls P.
  match type of P with Permutation _ ?l => assert (NB : forall k, ~ In (Build k) l) by (intros k K; cbn [In] in K; intuition discriminate) end.
  assert (F1 : held (rev calls) FChainId = Some c) by (refine (proj1 (held_perm calls _ FChainId P NB) (SetChainId c) c _ eq_refl _); [cbn [In]; tauto|intros c' w' I S; cbn [In] in I; repeat (destruct I as [<-|I]; [cbn in S; congruence|]); destruct I]).
  assert (F2 : held (rev calls) FNonce = Some nonce) by (refine (proj1 (held_perm calls _ FNonce P NB) (SetNonce nonce) nonce _ eq_refl _); [cbn [In]; tauto|intros c' w' I S; cbn [In] in I; repeat (destruct I as [<-|I]; [cbn in S; congruence|]); destruct I]).
  assert (F3 : held (rev calls) FGasPrice = Some w1) by (refine (proj1 (held_perm calls _ FGasPrice P NB) (SetGasPrice w1) w1 _ eq_refl _); [cbn [In]; tauto|intros c' w' I S; cbn [In] in I; repeat (destruct I as [<-|I]; [cbn in S; congruence|]); destruct I]).
  assert (F4 : held (rev calls) FGasLimit = Some gas) by (refine (proj1 (held_perm calls _ FGasLimit P NB) (SetGasLimit gas) gas _ eq_refl _); [cbn [In]; tauto|intros c' w' I S; cbn [In] in I; repeat (destruct I as [<-|I]; [cbn in S; congruence|]); destruct I]).
  assert (F5 : held (rev calls) FDestination = Some a) by (refine (proj1 (held_perm calls _ FDestination P NB) (SetDestination a) a _ eq_refl _); [cbn [In]; tauto|intros c' w' I S; cbn [In] in I; repeat (destruct I as [<-|I]; [cbn in S; congruence|]); destruct I]).
  assert (F6 : held (rev calls) FAmount = Some w3) by (refine (proj1 (held_perm calls _ FAmount P NB) (SetAmount w3) w3 _ eq_refl _); [cbn [In]; tauto|intros c' w' I S; cbn [In] in I; repeat (destruct I as [<-|I]; [cbn in S; congruence|]); destruct I]).
  assert (F7 : held (rev calls) FData = Some data) by (refine (proj1 (held_perm calls _ FData P NB) (SetData data) data _ eq_refl _); [cbn [In]; tauto|intros c' w' I S; cbn [In] in I; repeat (destruct I as [<-|I]; [cbn in S; congruence|]); destruct I]).
  assert (F8 : held (rev calls) FAccessList = None) by (refine (proj2 (held_perm calls _ FAccessList P NB) _); intros c' I; cbn [In] in I; repeat (destruct I as [<-|I]; [reflexivity|]); destruct I).
  pose proof (build_after K2930 calls) as B. unfold complete, required in B. cbn [forallb] in B. rewrite F1, F2, F3, F4, F5, F6 in B. cbn [is_some andb] in B.
  destruct B as (p0 & B & K & FF). destruct p0 as [p0|p0|p0|p0]; try discriminate K. exists p0. split; [exact B|].
  pose proof (FF FChainId) as G1. pose proof (FF FNonce) as G2. pose proof (FF FGasPrice) as G3. pose proof (FF FGasLimit) as G4. pose proof (FF FDestination) as G5. pose proof (FF FAmount) as G6. pose proof (FF FData) as G7. pose proof (FF FAccessList) as G8. clear FF.
  cbn -[held] in G1, G2, G3, G4, G5, G6, G7, G8. rewrite F1 in G1. rewrite F2 in G2. rewrite F3 in G3. rewrite F4 in G4. rewrite F5 in G5. rewrite F6 in G6. rewrite F7 in G7. rewrite F8 in G8.
  destruct p0 as [q1 q2 q3 q4 q5 q6 q7 q8]. cbn [p2930_chain_id p2930_nonce p2930_gas_price p2930_gas_limit p2930_destination p2930_amount p2930_data p2930_access_list] in *.
  injection G1 as ->. injection G2 as ->. injection G3 as ->. injection G4 as ->. injection G5 as ->. injection G6 as ->. injection G7 as ->. injection G8 as ->.
  clear B K F1 F2 F3 F4 F5 F6 F7 F8 NB P. intros o body t OZ R ET.
  match type of ET with sign_payload _ _ _ ?q _ _ = _ => set (pl := q) in * end.
  assert (HP : payload_ok pl).
  { cbn [payload_ok pl]. unfold payload_ok_2930, big_ok, nonce_ok, u64_ok, address_ok.
    cbn [p2930_chain_id p2930_nonce p2930_gas_price p2930_gas_limit p2930_destination p2930_amount p2930_data p2930_access_list].
    rewrite Vc, V1, V3. repeat match goal with |- _ /\ _ => split; [solve [assumption|lia|split; [assumption|lia]|split; assumption]|] end. constructor. }
  assert (EM : PREIMAGE pl = Some (1 :: body)).
  { cbn [PREIMAGE pl]. unfold signed_item_2930, items_2930, big, num, access. cbn [p2930_chain_id p2930_nonce p2930_gas_price p2930_gas_limit p2930_destination p2930_amount p2930_data p2930_access_list map].
    rewrite Vc, V1, V3. first [exact R | change (match RLP (Lst (eip_2930_fields chain nonce vg gas a va data [])) with Some e => Some (1 :: e) | None => None end = Some (1 :: body)); rewrite R; reflexivity]. }
  destruct (sent_signature pl _ t o OZ HP EM ET) as (ETP & TO & ID & sg & y & Hy & PY & VR & VS & PS & R1 & R2 & R3 & V).
  destruct t as [t|t|t|t]; try discriminate ETP. exists t, sg, y. repeat (split; [assumption|]). split; [reflexivity|]. repeat (split; [assumption|]).
  intros s RS LS. cbn [has_parity tx_r tx_s tx_ok tx_payload] in *. injection ETP as ETP.
  refine (proj1 (tx_2930_roundtrip false t s TO _ LS)). rewrite <- RS. unfold tx_item_2930. rewrite ETP. unfold items_2930, big, num, access.
  cbn [p2930_chain_id p2930_nonce p2930_gas_price p2930_gas_limit p2930_destination p2930_amount p2930_data p2930_access_list map].
  rewrite Vc, V1, V3, PY, <- VR, <- VS. reflexivity.
Qed.

Lemma access_of l : access (map (fun e => {| ali_address := fst e; ali_storage_keys := snd e |}) l) = Lst (map access_entry l).
Proof. unfold access. rewrite map_map. reflexivity. Qed.
Lemma access_ok_of l : Forall access_entry_ok l -> ok TAccessList (map (fun e => {| ali_address := fst e; ali_storage_keys := snd e |}) l).
Proof. intros F. change (Forall (fun i => (bytes (ali_address i) /\ length (ali_address i) = 20%nat) /\ Forall (fun k => bytes k /\ length k = 32%nat) (ali_storage_keys i)) (map (fun e => {| ali_address := fst e; ali_storage_keys := snd e |}) l)).
  apply Forall_map. eapply Forall_impl; [|exact F]. intros e (A & B & C). cbn [ali_address ali_storage_keys]. auto. Qed.
Lemma sent_1559_access chain nonce gas tp vp tf vf ta va hex a data access_list :
  0 <= chain < 2 ^ 64 -> 0 <= nonce < 2 ^ 64 - 1 -> 0 <= gas < 2 ^ 64 -> denotes 10 tp vp -> 0 <= vp -> denotes 10 tf vf -> 0 <= vf ->
  denotes 10 ta va -> 0 <= va -> digits_of 16 hex (nibbles a) -> bytes a -> length a = 20%nat -> bytes data -> Forall access_entry_ok access_list ->
  exists c w1 w2 w3, chain_id_from_u64 chain = Ret c /\ nonce_from_u64 nonce = Some nonce /\
    wei_from_decimal tp = Ret (Ok w1) /\ wei_from_decimal tf = Ret (Ok w2) /\ wei_from_decimal ta = Ret (Ok w3) /\ address_try_from (48 :: 120 :: hex) = Ok a /\
  forall calls, Permutation calls [SetChainId c; SetNonce nonce; SetMaxPriorityFee w1; SetMaxFee w2; SetGasLimit gas; SetDestination a; SetAmount w3; SetData data; SetAccessList (map (fun e => {| ali_address := fst e; ali_storage_keys := snd e |}) access_list)] ->
  exists p, fst (take_and_build K1559 (builder_after calls)) = Ok (P1559 p) /\
  forall o body t, so_zero o = false -> RLP (Lst (eip_1559_fields chain nonce vp vf gas a va data access_list)) = Some body -> sign_payload be fuel rng (P1559 p) sk o = Ret (Ok t) ->
  exists t' sg y, t = T1559 t' /\ 0 <= y <= 1 /\ sig_params sg = D /\
    1 <= bi_val (sig_r sg) <= e_order SECP256K1 - 1 /\ 1 <= bi_val (sig_s sg) <= e_order SECP256K1 - 1 /\ (so_low_s o = true -> bi_val (sig_s sg) <= e_order SECP256K1 / 2) /\
    verify (KECCAK256 (2 :: body)) sg pk = Ret (Ok true) /\ identifies be D t pk /\
    forall s, RLP (Lst (eip_1559_fields chain nonce vp vf gas a va data access_list ++ signature_fields y (bi_val (sig_r sg)) (bi_val (sig_s sg)))) = Some s ->
      Z.of_nat (length s) < 2 ^ 63 -> transaction_eip_1559_encode t' = Ret (2 :: s).
Proof.
  intros Hc Hn Hg Dp Pp Df Pf Da Pa DG Ba La Bd BL.
  destruct (chain_id_value chain Hc) as (c & Ec & Wc & Vc). destruct (decimal_accepts tp vp Dp) as (w1 & E1 & W1 & V1).
  destruct (decimal_accepts tf vf Df) as (w2 & E2 & W2 & V2). destruct (decimal_accepts ta va Da) as (w3 & E3 & W3 & V3).
  exists c, w1, w2, w3. split; [exact Ec|]. split; [now apply nonce_read|]. split; [exact E1|]. split; [exact E2|]. split; [exact E3|]. split; [now apply address_read|].
  intros calls P.
  match type of P with Permutation _ ?l => assert (NB : forall k, ~ In (Build k) l) by (intros k K; cbn [In] in K; intuition discriminate) end.
  assert (F1 : held (rev calls) FChainId = Some c) by (refine (proj1 (held_perm calls _ FChainId P NB) (SetChainId c) c _ eq_refl _); [cbn [In]; tauto|intros c' w' I S; cbn [In] in I; repeat (destruct I as [<-|I]; [cbn in S; congruence|]); destruct I]).
  assert (F2 : held (rev calls) FNonce = Some nonce) by (refine (proj1 (held_perm calls _ FNonce P NB) (SetNonce nonce) nonce _ eq_refl _); [cbn [In]; tauto|intros c' w' I S; cbn [In] in I; repeat (destruct I as [<-|I]; [cbn in S; congruence|]); destruct I]).
  assert (F3 : held (rev calls) FMaxPriorityFee = Some w1) by (refine (proj1 (held_perm calls _ FMaxPriorityFee P NB) (SetMaxPriorityFee w1) w1 _ eq_refl _); [cbn [In]; tauto|intros c' w' I S; cbn [In] in I; repeat (destruct I as [<-|I]; [cbn in S; congruence|]); destruct I]).
  assert (F4 : held (rev calls) FMaxFee = Some w2) by (refine (proj1 (held_perm calls _ FMaxFee P NB) (SetMaxFee w2) w2 _ eq_refl _); [cbn [In]; tauto|intros c' w' I S; cbn [In] in I; repeat (destruct I as [<-|I]; [cbn in S; congruence|]); destruct I]).
  assert (F5 : held (rev calls) FGasLimit = Some gas) by (refine (proj1 (held_perm calls _ FGasLimit P NB) (SetGasLimit gas) gas _ eq_refl _); [cbn [In]; tauto|intros c' w' I S; cbn [In] in I; repeat (destruct I as [<-|I]; [cbn in S; congruence|]); destruct I]).
  assert (F6 : held (rev calls) FDestination = Some a) by (refine (proj1 (held_perm calls _ FDestination P NB) (SetDestination a) a _ eq_refl _); [cbn [In]; tauto|intros c' w' I S; cbn [In] in I; repeat (destruct I as [<-|I]; [cbn in S; congruence|]); destruct I]).
  assert (F7 : held (rev calls) FAmount = Some w3) by (refine (proj1 (held_perm calls _ FAmount P NB) (SetAmount w3) w3 _ eq_refl _); [cbn [In]; tauto|intros c' w' I S; cbn [In] in I; repeat (destruct I as [<-|I]; [cbn in S; congruence|]); destruct I]).
  assert (F8 : held (rev calls) FData = Some data) by (refine (proj1 (held_perm calls _ FData P NB) (SetData data) data _ eq_refl _); [cbn [In]; tauto|intros c' w' I S; cbn [In] in I; repeat (destruct I as [<-|I]; [cbn in S; congruence|]); destruct I]).
  set (al := map (fun e => {| ali_address := fst e; ali_storage_keys := snd e |}) access_list) in *.
  assert (F9 : held (rev calls) FAccessList = Some al) by (refine (proj1 (held_perm calls _ FAccessList P NB) (SetAccessList al) al _ eq_refl _); [cbn [In]; tauto|intros c' w' I S; cbn [In] in I; repeat (destruct I as [<-|I]; [cbn in S; congruence|]); destruct I]).
  pose proof (build_after K1559 calls) as B. unfold complete, required in B. cbn [forallb] in B. rewrite F1, F2, F3, F4, F5, F6, F7 in B. cbn [is_some andb] in B.
  destruct B as (p0 & B & K & FF). destruct p0 as [p0|p0|p0|p0]; try discriminate K. exists p0. split; [exact B|].
  pose proof (FF FChainId) as G1. pose proof (FF FNonce) as G2. pose proof (FF FMaxPriorityFee) as G3. pose proof (FF FMaxFee) as G4. pose proof (FF FGasLimit) as G5.
  pose proof (FF FDestination) as G6. pose proof (FF FAmount) as G7. pose proof (FF FData) as G8. pose proof (FF FAccessList) as G9. clear FF.
  cbn -[held] in G1, G2, G3, G4, G5, G6, G7, G8, G9. rewrite F1 in G1. rewrite F2 in G2. rewrite F3 in G3. rewrite F4 in G4. rewrite F5 in G5. rewrite F6 in G6. rewrite F7 in G7. rewrite F8 in G8. rewrite F9 in G9.
  destruct p0 as [q1 q2 q3 q4 q5 q6 q7 q8 q9]. cbn [p1559_chain_id p1559_nonce p1559_max_priority_fee_per_gas p1559_max_fee_per_gas p1559_gas_limit p1559_destination p1559_amount p1559_data p1559_access_list] in *.
  injection G1 as ->. injection G2 as ->. injection G3 as ->. injection G4 as ->. injection G5 as ->. injection G6 as ->. injection G7 as ->. injection G8 as ->. injection G9 as ->.
  clear B K F1 F2 F3 F4 F5 F6 F7 F8 F9 NB P. intros o body t OZ R ET.
  match type of ET with sign_payload _ _ _ ?q _ _ = _ => set (pl := q) in * end.
  assert (HP : payload_ok pl).
  { cbn [payload_ok pl]. unfold payload_ok_1559, big_ok, nonce_ok, u64_ok, address_ok.
    cbn [p1559_chain_id p1559_nonce p1559_max_priority_fee_per_gas p1559_max_fee_per_gas p1559_gas_limit p1559_destination p1559_amount p1559_data p1559_access_list].
    rewrite Vc, V1, V2, V3. repeat match goal with |- _ /\ _ => split; [solve [assumption|lia|split; [assumption|lia]|split; assumption]|] end. exact (access_ok_of _ BL). }
  assert (EM : PREIMAGE pl = Some (2 :: body)).
  { cbn [PREIMAGE pl]. unfold al in *. unfold signed_item_1559, items_1559, big, num. cbn [p1559_chain_id p1559_nonce p1559_max_priority_fee_per_gas p1559_max_fee_per_gas p1559_gas_limit p1559_destination p1559_amount p1559_data p1559_access_list].
    rewrite Vc, V1, V2, V3, access_of. change (match RLP (Lst (eip_1559_fields chain nonce vp vf gas a va data access_list)) with Some e => Some (2 :: e) | None => None end = Some (2 :: body)). rewrite R. reflexivity. }
  destruct (sent_signature pl _ t o OZ HP EM ET) as (ETP & TO & ID & sg & y & Hy & PY & VR & VS & PS & R1 & R2 & R3 & V).
  destruct t as [t|t|t|t]; try discriminate ETP. exists t, sg, y. repeat (split; [assumption|]). split; [reflexivity|]. repeat (split; [assumption|]).
  intros s RS LS. cbn [has_parity tx_r tx_s tx_ok tx_payload] in *. injection ETP as ETP.
  refine (proj1 (tx_1559_roundtrip false t s TO _ LS)). rewrite <- RS. unfold tx_item_1559. rewrite ETP. unfold items_1559, big, num.
  cbn [p1559_chain_id p1559_nonce p1559_max_priority_fee_per_gas p1559_max_fee_per_gas p1559_gas_limit p1559_destination p1559_amount p1559_data p1559_access_list].
  unfold al. rewrite Vc, V1, V2, V3, access_of, PY, <- VR, <- VS. reflexivity.
Qed.
Lemma sent_2930_access chain nonce gas tg vg ta va hex a data access_list :
  0 <= chain < 2 ^ 64 -> 0 <= nonce < 2 ^ 64 - 1 -> 0 <= gas < 2 ^ 64 -> denotes 10 tg vg -> 0 <= vg ->
  denotes 10 ta va -> 0 <= va -> digits_of 16 hex (nibbles a) -> bytes a -> length a = 20%nat -> bytes data -> Forall access_entry_ok access_list ->
  exists c w1 w3, chain_id_from_u64 chain = Ret c /\ nonce_from_u64 nonce = Some nonce /\
    wei_from_decimal tg = Ret (Ok w1) /\ wei_from_decimal ta = Ret (Ok w3) /\ address_try_from (48 :: 120 :: hex) = Ok a /\
  forall calls, Permutation calls [SetChainId c; SetNonce nonce; SetGasPrice w1; SetGasLimit gas; SetDestination a; SetAmount w3; SetData data; SetAccessList (map (fun e => {| ali_address := fst e; ali_storage_keys := snd e |}) access_list)] ->
  exists p, fst (take_and_build K2930 (builder_after calls)) = Ok (P2930 p) /\
  forall o body t, so_zero o = false -> RLP (Lst (eip_2930_fields chain nonce vg gas a va data access_list)) = Some body -> sign_payload be fuel rng (P2930 p) sk o = Ret (Ok t) ->
  exists t' sg y, t = T2930 t' /\ 0 <= y <= 1 /\ sig_params sg = D /\
    1 <= bi_val (sig_r sg) <= e_order SECP256K1 - 1 /\ 1 <= bi_val (sig_s sg) <= e_order SECP256K1 - 1 /\ (so_low_s o = true -> bi_val (sig_s sg) <= e_order SECP256K1 / 2) /\
    verify (KECCAK256 (1 :: body)) sg pk = Ret (Ok true) /\ identifies be D t pk /\
    forall s, RLP (Lst (eip_2930_fields chain nonce vg gas a va data access_list ++ signature_fields (y) (bi_val (sig_r sg)) (bi_val (sig_s sg)))) = Some s ->
      Z.of_nat (length s) < 2 ^ 63 -> transaction_eip_2930_encode t' = Ret (1 :: s).
Proof.
  intros Hc Hn Hg Dp Pp Da Pa DG Ba La Bd BL.
  destruct (chain_id_value chain Hc) as (c & Ec & Wc & Vc).
  destruct (decimal_accepts tg vg Dp) as (w1 & E1 & W1 & V1). destruct (decimal_accepts ta va Da) as (w3 & E3 & W3 & V3).
  exists c, w1, w3. split; [exact Ec|]. split; [now apply nonce_read|]. split; [exact E1|]. split; [exact E3|]. split; [now apply address_read|].
  intros calls P.
  match type of P with Permutation _ ?l => assert (NB : forall k, ~ In (Build k) l) by (intros k K; cbn [In] in K; intuition discriminate) end.
  assert (F1 : held (rev calls) FChainId = Some c) by (refine (proj1 (held_perm calls _ FChainId P NB) (SetChainId c) c _ eq_refl _); [cbn [In]; tauto|intros c' w' I S; cbn [In] in I; repeat (destruct I as [<-|I]; [cbn in S; congruence|]); destruct I]).
  assert (F2 : held (rev calls) FNonce = Some nonce) by (refine (proj1 (held_perm calls _ FNonce P NB) (SetNonce nonce) nonce _ eq_refl _); [cbn [In]; tauto|intros c' w' I S; cbn [In] in I; repeat (destruct I as [<-|I]; [cbn in S; congruence|]); destruct I]).
  assert (F3 : held (rev calls) FGasPrice = Some w1) by (refine (proj1 (held_perm calls _ FGasPrice P NB) (SetGasPrice w1) w1 _ eq_refl _); [cbn [In]; tauto|intros c' w' I S; cbn [In] in I; repeat (destruct I as [<-|I]; [cbn in S; congruence|]); destruct I]).
  assert (F4 : held (rev calls) FGasLimit = Some gas) by (refine (proj1 (held_perm calls _ FGasLimit P NB) (SetGasLimit gas) gas _ eq_refl _); [cbn [In]; tauto|intros c' w' I S; cbn [In] in I; repeat (destruct I as [<-|I]; [cbn in S; congruence|]); destruct I]).
  assert (F5 : held (rev calls) FDestination = Some a) by (refine (proj1 (held_perm calls _ FDestination P NB) (SetDestination a) a _ eq_refl _); [cbn [In]; tauto|intros c' w' I S; cbn [In] in I; repeat (destruct I as [<-|I]; [cbn in S; congruence|]); destruct I]).
  assert (F6 : held (rev calls) FAmount = Some w3) by (refine (proj1 (held_perm calls _ FAmount P NB) (SetAmount w3) w3 _ eq_refl _); [cbn [In]; tauto|intros c' w' I S; cbn [In] in I; repeat (destruct I as [<-|I]; [cbn in S; congruence|]); destruct I]).
  assert (F7 : held (rev calls) FData = Some data) by (refine (proj1 (held_perm calls _ FData P NB) (SetData data) data _ eq_refl _); [cbn [In]; tauto|intros c' w' I S; cbn [In] in I; repeat (destruct I as [<-|I]; [cbn in S; congruence|]); destruct I]).
  set (al := map (fun e => {| ali_address := fst e; ali_storage_keys := snd e |}) access_list) in *.
  assert (F8 : held (rev calls) FAccessList = Some al) by (refine (proj1 (held_perm calls _ FAccessList P NB) (SetAccessList al) al _ eq_refl _); [cbn [In]; tauto|intros c' w' I S; cbn [In] in I; repeat (destruct I as [<-|I]; [cbn in S; congruence|]); destruct I]).
  pose proof (build_after K2930 calls) as B. unfold complete, required in B. cbn [forallb] in B. rewrite F1, F2, F3, F4, F5, F6 in B. cbn [is_some andb] in B.
  destruct B as (p0 & B & K & FF). destruct p0 as [p0|p0|p0|p0]; try discriminate K. exists p0. split; [exact B|].
  pose proof (FF FChainId) as G1. pose proof (FF FNonce) as G2. pose proof (FF FGasPrice) as G3. pose proof (FF FGasLimit) as G4. pose proof (FF FDestination) as G5. pose proof (FF FAmount) as G6. pose proof (FF FData) as G7. pose proof (FF FAccessList) as G8. clear FF.
  cbn -[held] in G1, G2, G3, G4, G5, G6, G7, G8. rewrite F1 in G1. rewrite F2 in G2. rewrite F3 in G3. rewrite F4 in G4. rewrite F5 in G5. rewrite F6 in G6. rewrite F7 in G7. rewrite F8 in G8.
  destruct p0 as [q1 q2 q3 q4 q5 q6 q7 q8]. cbn [p2930_chain_id p2930_nonce p2930_gas_price p2930_gas_limit p2930_destination p2930_amount p2930_data p2930_access_list] in *.
  injection G1 as ->. injection G2 as ->. injection G3 as ->. injection G4 as ->. injection G5 as ->. injection G6 as ->. injection G7 as ->. injection G8 as ->.
  clear B K F1 F2 F3 F4 F5 F6 F7 F8 NB P. intros o body t OZ R ET.
  match type of ET with sign_payload _ _ _ ?q _ _ = _ => set (pl := q) in * end.
  assert (HP : payload_ok pl).
  { cbn [payload_ok pl]. unfold payload_ok_2930, big_ok, nonce_ok, u64_ok, address_ok.
    cbn [p2930_chain_id p2930_nonce p2930_gas_price p2930_gas_limit p2930_destination p2930_amount p2930_data p2930_access_list].
    rewrite Vc, V1, V3. repeat match goal with |- _ /\ _ => split; [solve [assumption|lia|split; [assumption|lia]|split; assumption]|] end. exact (access_ok_of _ BL). }
  assert (EM : PREIMAGE pl = Some (1 :: body)).
  { cbn [PREIMAGE pl]. unfold al in *. unfold signed_item_2930, items_2930, big, num. cbn [p2930_chain_id p2930_nonce p2930_gas_price p2930_gas_limit p2930_destination p2930_amount p2930_data p2930_access_list].
    rewrite Vc, V1, V3, access_of. change (match RLP (Lst (eip_2930_fields chain nonce vg gas a va data access_list)) with Some e => Some (1 :: e) | None => None end = Some (1 :: body)). rewrite R. reflexivity. }
  destruct (sent_signature pl _ t o OZ HP EM ET) as (ETP & TO & ID & sg & y & Hy & PY & VR & VS & PS & R1 & R2 & R3 & V).
  destruct t as [t|t|t|t]; try discriminate ETP. exists t, sg, y. repeat (split; [assumption|]). split; [reflexivity|]. repeat (split; [assumption|]).
  intros s RS LS. cbn [has_parity tx_r tx_s tx_ok tx_payload] in *. injection ETP as ETP.
  refine (proj1 (tx_2930_roundtrip false t s TO _ LS)). rewrite <- RS. unfold tx_item_2930. rewrite ETP. unfold items_2930, big, num.
  cbn [p2930_chain_id p2930_nonce p2930_gas_price p2930_gas_limit p2930_destination p2930_amount p2930_data p2930_access_list].
  unfold al. rewrite Vc, V1, V3, access_of, PY, <- VR, <- VS. reflexivity.
Qed.
End Send.

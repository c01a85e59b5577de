(** Proofs about the transaction builder and the transaction codecs. *)

From Verif Require Import Base M_Codec M_BigInt M_BigText M_Hmac M_Rlp M_EthTypes M_Tx S_BigInt S_Rlp S_EthTypes S_Tx.
From Verif Require Import P_BigInt3 P_BigInt4 P_BigApi P_Rlp P_Rlp2 P_EthTypes.
Open Scope Z_scope.

(** ** The builder *)
Definition bget (b : TransactionBuilder) (f : field) : option (field_ty f) :=
  match f as f return option (field_ty f) with
  | FChainId => b_chain_id b | FNonce => b_nonce b | FGasPrice => b_gas_price b
  | FMaxPriorityFee => b_max_priority_fee_per_gas b | FMaxFee => b_max_fee_per_gas b
  | FGasLimit => b_gas_limit b | FDestination => b_destination b | FAmount => b_amount b
  | FData => b_data b | FAccessList => b_access_list b
  end.

Lemma forallb_ext' {A} (f g : A -> bool) l : (forall a, f a = g a) -> forallb f l = forallb g l.
Proof. intros H. induction l as [|a l IH]; [reflexivity|]. cbn [forallb]. now rewrite H, IH. Qed.

Lemma build_step k b f :
  bget (snd (take_and_build k b)) f =
  if forallb (fun g => is_some (bget b g)) (required k) && has (required k ++ optional k) f then None else bget b f.
Proof.
  destruct b as [c n g mp mf gl d a dt al].
  destruct k; cbn [required optional app forallb take_and_build bget].
  all: unfold take_and_build_payload_legacy, take_and_build_payload_eip_155, take_and_build_payload_eip_2930, take_and_build_payload_eip_1559;
    cbn [b_chain_id b_nonce b_gas_price b_max_priority_fee_per_gas b_max_fee_per_gas b_gas_limit b_destination b_amount b_data b_access_list].
  - destruct n, g, gl, d, a; destruct f; reflexivity.
  - destruct c, n, g, gl, d, a; destruct f; reflexivity.
  - destruct c, n, g, gl, d, a; destruct f; reflexivity.
  - destruct c, n, mp, mf, gl, d, a; destruct f; reflexivity.
Qed.
Lemma builder_held h : forall f, bget (builder_after h) f = held (rev h) f.
Proof.
  induction h as [|c h IH] using rev_ind; intros f; [destruct f; reflexivity|].
  unfold builder_after in *. rewrite fold_left_app, rev_app_distr. cbn [fold_left rev app].
  destruct c as [v|v|v|v|v|v|v|v|v|v|k]; try solve [destruct f; cbn [held sets builder_step bget] in *; try reflexivity; exact (IH _)].
  cbn [builder_step held]. rewrite build_step. rewrite (forallb_ext' _ _ _ (fun g => f_equal is_some (IH g))). now rewrite IH.
Qed.

(** the result of a build *)
Definition payload_value (k : payload_kind) (h : list builder_call) (f : field) : option (field_ty f) :=
  if has (required k) f then held h f
  else if has (optional k) f then match held h f with Some v => Some v | None => default f end
  else None.
Lemma build_result k b :
  if forallb (fun g => is_some (bget b g)) (required k) then
    exists p, fst (take_and_build k b) = Ok p /\ kind_of p = k /\
      forall f, payload_field p f =
        if has (required k) f then bget b f
        else if has (optional k) f then match bget b f with Some v => Some v | None => default f end
        else None
  else take_and_build k b = (Err MissingFields, b).
Proof.
  destruct b as [c n g mp mf gl d a dt al].
  destruct k; cbn [required optional app forallb take_and_build bget].
  all: unfold take_and_build_payload_legacy, take_and_build_payload_eip_155, take_and_build_payload_eip_2930, take_and_build_payload_eip_1559;
    cbn [b_chain_id b_nonce b_gas_price b_max_priority_fee_per_gas b_max_fee_per_gas b_gas_limit b_destination b_amount b_data b_access_list].
  - destruct n, g, gl, d, a; try reflexivity. eexists. split; [reflexivity|]. split; [reflexivity|]. intros f. destruct f, dt; reflexivity.
  - destruct c, n, g, gl, d, a; try reflexivity. eexists. split; [reflexivity|]. split; [reflexivity|]. intros f. destruct f, dt; reflexivity.
  - destruct c, n, g, gl, d, a; try reflexivity. eexists. split; [reflexivity|]. split; [reflexivity|]. intros f. destruct f, dt, al; reflexivity.
  - destruct c, n, mp, mf, gl, d, a; try reflexivity. eexists. split; [reflexivity|]. split; [reflexivity|]. intros f. destruct f, dt, al; reflexivity.
Qed.
Lemma build_after k h :
  if complete k (rev h) then
    exists p, fst (take_and_build k (builder_after h)) = Ok p /\ kind_of p = k /\
      forall f, payload_field p f =
        if has (required k) f then held (rev h) f
        else if has (optional k) f then match held (rev h) f with Some v => Some v | None => default f end
        else None
  else take_and_build k (builder_after h) = (Err MissingFields, builder_after h).
Proof.
  pose proof (build_result k (builder_after h)) as H. unfold complete.
  rewrite (forallb_ext' _ _ _ (fun g => f_equal is_some (builder_held h g))) in H.
  destruct (forallb _ _); [|exact H]. destruct H as (p & E & K & V). exists p. split; [exact E|]. split; [exact K|].
  intros f. rewrite V. now rewrite builder_held.
Qed.
Lemma second_build k k' h p : fst (take_and_build k (builder_after h)) = Ok p ->
  fst (take_and_build k' (builder_after (h ++ [Build k]))) = Err MissingFields.
Proof.
  intros E. pose proof (build_after k h) as B. destruct (complete k (rev h)) eqn:C; [|rewrite B in E; discriminate].
  pose proof (build_after k' (h ++ [Build k])) as B'.
  destruct (complete k' (rev (h ++ [Build k]))) eqn:C'; [|now rewrite B'].
  exfalso. unfold complete in C'. rewrite forallb_forall in C'. specialize (C' FNonce).
  rewrite rev_app_distr in C'. cbn [rev app held] in C'. unfold complete in C. rewrite C in C'.
  destruct k, k'; cbn in C'; discriminate (C' ltac:(tauto)).
Qed.

(** ** Encodings *)
Section WithCfg.
Context {cfg : digit_cfg}.
Local Notation bi_val := (S_BigInt.bi_val (cfg:=cfg)).

Lemma enc_step {A} (e : A -> encoding_item -> outcome encoding_item) to P a rest s :
  enc_ok e to P -> P a -> RLPs (to a :: rest) = Some s ->
  exists x y, RLPs rest = Some y /\ s = x ++ y /\ forall B it (k : encoding_item -> outcome B), obind (e a it) k = k (it ++ x).
Proof.
  intros E Pa H. cbn [RLPs] in H. destruct (RLP (to a)) as [x|] eqn:Ex; [|discriminate].
  destruct (RLPs rest) as [y|]; [|discriminate]. injection H as <-. exists x, y. split; [reflexivity|]. split; [reflexivity|]. intros B it k. now rewrite (E a x it Pa Ex).
Qed.
(** in each proof below the list of items is encoded one by one *)
Ltac enc_start H := rewrite RLP_Lst in H; match type of H with match RLPs ?l with _ => _ end = _ =>
  let Q := fresh "Q" in destruct (RLPs l) as [?pl|] eqn:Q; [|discriminate H] end.
Ltac enc1 lem pf :=
  match goal with
  | Q : RLPs (_ :: _) = Some _ |- _ =>
      let x := fresh "x" in let y := fresh "y" in let Q' := fresh "Q" in let E := fresh "E" in
      destruct (enc_step _ _ _ _ _ _ lem pf Q) as (x & y & Q' & -> & E);
      rewrite E; clear E; cbv beta; clear Q
  end.
Ltac enc_end H := match goal with Q : RLPs [] = Some _ |- _ => injection Q as <- end;
  unfold enc_new; repeat rewrite <- app_assoc; cbn [app]; apply encode_list_payload_spec; repeat rewrite app_nil_r in H;
  repeat rewrite app_nil_r; exact H.

Lemma access_enc : enc_ok encode_access_list access (ok TAccessList).
Proof. exact al_enc. Qed.

Lemma payload_legacy_enc : enc_ok encode_payload_legacy signed_item_legacy payload_ok_legacy.
Proof.
  intros p s it (Hn & Hg & Hl & Ha & Hv & Hd) H. unfold signed_item_legacy, items_legacy in H. enc_start H. unfold encode_payload_legacy.
  enc1 nonce_enc Hn. enc1 big_enc Hg. enc1 u64_enc Hl. enc1 (bytes_enc address_ok) Ha. enc1 big_enc Hv. enc1 (bytes_enc bytes) Hd.
  enc_end H.
Qed.
Lemma zero_ok : 0 <= 0 < 2 ^ 64. Proof. lia. Qed.
Lemma payload_155_enc : enc_ok encode_payload_eip_155 signed_item_155 payload_ok_155.
Proof.
  intros p s it (Hc & Hn & Hg & Hl & Ha & Hv & Hd) H. unfold signed_item_155, items_155 in H. cbn [app] in H. enc_start H. unfold encode_payload_eip_155.
  enc1 nonce_enc Hn. enc1 big_enc Hg. enc1 u64_enc Hl. enc1 (bytes_enc address_ok) Ha. enc1 big_enc Hv. enc1 (bytes_enc bytes) Hd.
  enc1 big_enc Hc. enc1 u64_enc zero_ok. enc1 u64_enc zero_ok.
  enc_end H.
Qed.
Lemma payload_2930_enc : enc_ok encode_payload_eip_2930 signed_item_2930 payload_ok_2930.
Proof.
  intros p s it (Hc & Hn & Hg & Hl & Ha & Hv & Hd & Hal) H. unfold signed_item_2930, items_2930 in H. enc_start H. unfold encode_payload_eip_2930.
  enc1 big_enc Hc. enc1 nonce_enc Hn. enc1 big_enc Hg. enc1 u64_enc Hl. enc1 (bytes_enc address_ok) Ha. enc1 big_enc Hv. enc1 (bytes_enc bytes) Hd.
  enc1 access_enc Hal. enc_end H.
Qed.
Lemma payload_1559_enc : enc_ok encode_payload_eip_1559 signed_item_1559 payload_ok_1559.
Proof.
  intros p s it (Hc & Hn & Hmp & Hmf & Hl & Ha & Hv & Hd & Hal) H. unfold signed_item_1559, items_1559 in H. enc_start H. unfold encode_payload_eip_1559.
  enc1 big_enc Hc. enc1 nonce_enc Hn. enc1 big_enc Hmp. enc1 big_enc Hmf. enc1 u64_enc Hl. enc1 (bytes_enc address_ok) Ha. enc1 big_enc Hv. enc1 (bytes_enc bytes) Hd.
  enc1 access_enc Hal. enc_end H.
Qed.

Lemma tx_legacy_enc : enc_ok encode_transaction_legacy tx_item_legacy tx_ok_legacy.
Proof.
  intros t s it ((Hn & Hg & Hl & Ha & Hv & Hd) & Hvv & Hr & Hs) H. unfold tx_item_legacy, items_legacy in H. cbn [app] in H. enc_start H.
  unfold encode_transaction_legacy. assert (Hv' : 0 <= tl_v t < 2 ^ 64) by lia.
  enc1 nonce_enc Hn. enc1 big_enc Hg. enc1 u64_enc Hl. enc1 (bytes_enc address_ok) Ha. enc1 big_enc Hv. enc1 (bytes_enc bytes) Hd.
  enc1 u64_enc Hv'. enc1 big_enc Hr. enc1 big_enc Hs. enc_end H.
Qed.
Lemma tx_155_enc : enc_ok encode_transaction_eip_155 tx_item_155 tx_ok_155.
Proof.
  intros t s it ((Hc & Hn & Hg & Hl & Ha & Hv & Hd) & Hvv & Hr & Hs) H. unfold tx_item_155, items_155 in H. cbn [app] in H. enc_start H.
  unfold encode_transaction_eip_155.
  enc1 nonce_enc Hn. enc1 big_enc Hg. enc1 u64_enc Hl. enc1 (bytes_enc address_ok) Ha. enc1 big_enc Hv. enc1 (bytes_enc bytes) Hd.
  enc1 big_enc Hvv. enc1 big_enc Hr. enc1 big_enc Hs. enc_end H.
Qed.
Lemma parity_ok y : 0 <= parity y < 2 ^ 64. Proof. destruct y; cbn; lia. Qed.
Lemma parity_num y : y_parity_u8 y = parity y. Proof. now destruct y. Qed.
Lemma tx_2930_enc : enc_ok encode_transaction_eip_2930 tx_item_2930 tx_ok_2930.
Proof.
  intros t s it ((Hc & Hn & Hg & Hl & Ha & Hv & Hd & Hal) & Hr & Hs) H. unfold tx_item_2930, items_2930 in H. cbn [app] in H. enc_start H.
  unfold encode_transaction_eip_2930. rewrite parity_num. pose proof (parity_ok (t2930_y_parity t)) as Hy.
  enc1 big_enc Hc. enc1 nonce_enc Hn. enc1 big_enc Hg. enc1 u64_enc Hl. enc1 (bytes_enc address_ok) Ha. enc1 big_enc Hv. enc1 (bytes_enc bytes) Hd.
  enc1 access_enc Hal. enc1 u64_enc Hy. enc1 big_enc Hr. enc1 big_enc Hs. enc_end H.
Qed.
Lemma tx_1559_enc : enc_ok encode_transaction_eip_1559 tx_item_1559 tx_ok_1559.
Proof.
  intros t s it ((Hc & Hn & Hmp & Hmf & Hl & Ha & Hv & Hd & Hal) & Hr & Hs) H. unfold tx_item_1559, items_1559 in H. cbn [app] in H. enc_start H.
  unfold encode_transaction_eip_1559. rewrite parity_num. pose proof (parity_ok (t1559_y_parity t)) as Hy.
  enc1 big_enc Hc. enc1 nonce_enc Hn. enc1 big_enc Hmp. enc1 big_enc Hmf. enc1 u64_enc Hl. enc1 (bytes_enc address_ok) Ha. enc1 big_enc Hv. enc1 (bytes_enc bytes) Hd.
  enc1 access_enc Hal. enc1 u64_enc Hy. enc1 big_enc Hr. enc1 big_enc Hs. enc_end H.
Qed.

(** ** Decodings *)
Lemma dec_step {A} (d : decoding_item -> outcome (result RlpDataDecodingError A)) to P eqv a x :
  dec_ok d to P eqv -> P a -> small x -> node (to a) x ->
  exists a', eqv a a' /\ forall B (k : A -> outcome (result RlpDataDecodingError B)), rbind (d x) k = k a'.
Proof. intros D Pa S N. destruct (D a x Pa S N) as (a' & E & Q). exists a'. split; [exact Q|]. intros B k. now rewrite E. Qed.
Ltac kids F S :=
  repeat match type of F with
  | Forall2 node (_ :: _) _ => let N := fresh "N" in let F' := fresh "F" in
      inversion F as [|? ? ? ? N F']; subst; clear F; rename F' into F;
      let S' := fresh "S" in let S0 := fresh "Sm" in inversion S as [|? ? S0 S']; subst; clear S; rename S' into S
  end; inversion F; subst; clear F S.
(** the next item is read with the decoder of [lem] *)
Ltac dec1 lem pf a Q :=
  match goal with
  | Sm : small ?d, N : node _ ?d |- context [rbind (_ ?d) _] =>
     let E := fresh "E" in destruct (dec_step _ _ _ _ _ d lem pf Sm N) as (a & Q & E);
     rewrite E; clear E Sm N; cbv beta zeta
  end.
Lemma build_legacy n g l d v dt :
  fst (take_and_build_payload_legacy (with_data dt (with_amount v (with_destination d (with_gas_limit l (with_gas_price g (with_nonce n builder_new))))))) =
  Ok {| pl_nonce := n; pl_gas_price := g; pl_gas_limit := l; pl_destination := d; pl_amount := v; pl_data := dt |}.
Proof. reflexivity. Qed.
Lemma build_155 c n g l d v dt :
  fst (take_and_build_payload_eip_155 (with_data dt (with_amount v (with_destination d (with_gas_limit l (with_gas_price g (with_nonce n (with_chain_id c builder_new)))))))) =
  Ok {| p155_chain_id := c; p155_nonce := n; p155_gas_price := g; p155_gas_limit := l; p155_destination := d; p155_amount := v; p155_data := dt |}.
Proof. reflexivity. Qed.
Lemma build_2930 c n g l d v dt al :
  fst (take_and_build_payload_eip_2930 (with_access_list al (with_data dt (with_amount v (with_destination d (with_gas_limit l (with_gas_price g (with_nonce n (with_chain_id c builder_new))))))))) =
  Ok {| p2930_chain_id := c; p2930_nonce := n; p2930_gas_price := g; p2930_gas_limit := l; p2930_destination := d; p2930_amount := v; p2930_data := dt; p2930_access_list := al |}.
Proof. reflexivity. Qed.
Lemma build_1559 c n mp mf l d v dt al :
  fst (take_and_build_payload_eip_1559 (with_access_list al (with_data dt (with_amount v (with_destination d (with_gas_limit l (with_max_fee_per_gas mf (with_max_priority_fee_per_gas mp (with_nonce n (with_chain_id c builder_new)))))))))) =
  Ok {| p1559_chain_id := c; p1559_nonce := n; p1559_max_priority_fee_per_gas := mp; p1559_max_fee_per_gas := mf; p1559_gas_limit := l;
        p1559_destination := d; p1559_amount := v; p1559_data := dt; p1559_access_list := al |}.
Proof. reflexivity. Qed.
Lemma rbind_ok {E A B} (a : A) (k : A -> outcome (result E B)) : rbind (Ret (Ok a)) k = k a.
Proof. reflexivity. Qed.

Ltac dec_start dbg x S N :=
  let ds := fresh "ds" in let E := fresh "E" in let T := fresh "T" in
  destruct (children dbg _ x S N) as (ds & E & F & Sd);
  destruct N as [T _]; rewrite T, E; clear S T E x; rewrite rbind_ok.

Lemma tx_legacy_dec dbg : dec_ok (decode_transaction_legacy dbg) tx_item_legacy tx_ok_legacy tx_same_legacy.
Proof.
  intros t x ((Hn & Hg & Hl & Ha & Hv & Hd) & Hvv & Hr & Hs) S N. unfold decode_transaction_legacy. dec_start dbg x S N.
  unfold items_legacy in F. cbn [app] in F.
  kids F Sd. assert (Hv' : 0 <= tl_v t < 2 ^ 64) by lia.
  dec1 nonce_dec Hn n Qn. dec1 wei_dec Hg g Qg. dec1 u64_dec Hl l Ql. dec1 address_dec Ha a Qa. dec1 wei_dec Hv v Qv. dec1 vec_u8_dec Hd d Qd.
  rewrite build_legacy. cbn [map_err]. rewrite rbind_ok.
  dec1 u64_dec Hv' vv Qvv. subst vv. unfold u8_try_from. rewrite (proj2 (Z.ltb_lt _ _) (proj2 Hvv)).
  dec1 big_dec Hr r Qr. dec1 big_dec Hs s Qs.
  eexists. split; [reflexivity|]. unfold tx_same_legacy, payload_same_legacy. cbn. tauto.
Qed.
Lemma tx_2930_dec dbg : dec_ok (decode_transaction_eip_2930 dbg) tx_item_2930 tx_ok_2930 tx_same_2930.
Proof.
  intros t x ((Hc & Hn & Hg & Hl & Ha & Hv & Hd & Hal) & Hr & Hs) S N. unfold decode_transaction_eip_2930. dec_start dbg x S N.
  unfold items_2930 in F. cbn [app] in F.
  kids F Sd. pose proof (parity_ok (t2930_y_parity t)) as Hy.
  dec1 wei_dec Hc c Qc. dec1 nonce_dec Hn n Qn. dec1 wei_dec Hg g Qg. dec1 u64_dec Hl l Ql. dec1 address_dec Ha a Qa. dec1 wei_dec Hv v Qv. dec1 vec_u8_dec Hd d Qd.
  dec1 (al_dec dbg) Hal al Qal.
  rewrite build_2930. cbn [map_err]. rewrite rbind_ok.
  dec1 u64_dec Hy yy Qyy. subst yy.
  assert (U : u8_try_from (parity (t2930_y_parity t)) = Some (parity (t2930_y_parity t))) by (destruct (t2930_y_parity t); reflexivity).
  assert (Y : y_parity_from_u8 (parity (t2930_y_parity t)) = Some (t2930_y_parity t)) by (destruct (t2930_y_parity t); reflexivity).
  rewrite U, Y.
  dec1 big_dec Hr r Qr. dec1 big_dec Hs s Qs.
  eexists. split; [reflexivity|]. unfold tx_same_2930, payload_same_2930. cbn. tauto.
Qed.
Lemma tx_1559_dec dbg : dec_ok (decode_transaction_eip_1559 dbg) tx_item_1559 tx_ok_1559 tx_same_1559.
Proof.
  intros t x ((Hc & Hn & Hmp & Hmf & Hl & Ha & Hv & Hd & Hal) & Hr & Hs) S N. unfold decode_transaction_eip_1559. dec_start dbg x S N.
  unfold items_1559 in F. cbn [app] in F.
  kids F Sd. pose proof (parity_ok (t1559_y_parity t)) as Hy.
  dec1 wei_dec Hc c Qc. dec1 nonce_dec Hn n Qn. dec1 wei_dec Hmp mp Qmp. dec1 wei_dec Hmf mf Qmf. dec1 u64_dec Hl l Ql. dec1 address_dec Ha a Qa. dec1 wei_dec Hv v Qv. dec1 vec_u8_dec Hd d Qd.
  dec1 (al_dec dbg) Hal al Qal.
  rewrite build_1559. cbn [map_err]. rewrite rbind_ok.
  dec1 u64_dec Hy yy Qyy. subst yy.
  assert (U : u8_try_from (parity (t1559_y_parity t)) = Some (parity (t1559_y_parity t))) by (destruct (t1559_y_parity t); reflexivity).
  assert (Y : y_parity_from_u8 (parity (t1559_y_parity t)) = Some (t1559_y_parity t)) by (destruct (t1559_y_parity t); reflexivity).
  rewrite U, Y.
  dec1 big_dec Hr r Qr. dec1 big_dec Hs s Qs.
  eexists. split; [reflexivity|]. unfold tx_same_1559, payload_same_1559. cbn. tauto.
Qed.

(** EIP-155: v below 35 is refused, otherwise the chain id comes out as (v - 35) / 4 *)
Lemma tx_155_dec_v dbg t x : tx_ok_155 t -> small x -> node (tx_item_155 t) x ->
  if bi_val (t155_v t) <? 35 then decode_transaction_eip_155 dbg x = Ret (Err TransactionTypeMismatch)
  else exists t', decode_transaction_eip_155 dbg x = Ret (Ok t') /\ tx_same_but_chain_155 t t' /\
    wf (p155_chain_id (t155_payload t')) /\ bi_val (p155_chain_id (t155_payload t')) = (bi_val (t155_v t) - 35) / 4.
Proof.
  intros ((Hc & Hn & Hg & Hl & Ha & Hv & Hd) & Hvv & Hr & Hs) S N. unfold decode_transaction_eip_155. dec_start dbg x S N.
  unfold items_155 in F. cbn [app] in F.
  kids F Sd.
  dec1 nonce_dec Hn n Qn. dec1 wei_dec Hg g Qg. dec1 u64_dec Hl l Ql. dec1 address_dec Ha a Qa. dec1 wei_dec Hv v Qv. dec1 vec_u8_dec Hd d Qd.
  dec1 big_dec Hvv vv Qvv. dec1 big_dec Hr r Qr. dec1 big_dec Hs s Qs.
  destruct Qvv as [Wv Vv]. destruct (from_u128_spec 35 Positive ltac:(lia)) as (k & E & Wk & Vk). unfold bu_from_uint. rewrite E. cbn [obind].
  cbn [sgz] in Vk. rewrite bi_lt_spec by assumption. cbn [obind]. rewrite <- Vv, Vk. destruct (Z.ltb_spec (bi_val (t155_v t)) 35) as [|Hge]; [reflexivity|].
  destruct (bi_sub_spec vv k Wv Wk) as (m & Em & Wm & Vm). unfold bu_sub, bu_shr. rewrite Em. cbn [obind].
  destruct (shr_full m 2 Wm ltac:(lia)) as (cid & Ec & Wc & Vc). rewrite Ec. cbn [obind].
  rewrite build_155. cbn [map_err]. rewrite rbind_ok. eexists. split; [reflexivity|].
  split; [unfold tx_same_but_chain_155, payload_same_but_chain_155, same_int; cbn; unfold same_int in *; tauto|].
  cbn [t155_payload p155_chain_id]. split; [exact Wc|]. rewrite Vc, Vm, <- Vv, Vk. change (2 ^ 2) with 4.
  destruct (Z.eq_dec (bi_val (t155_v t) - 35) 0) as [->|]; [reflexivity|]. rewrite Z.sgn_pos, Z.abs_eq by lia. lia.
Qed.

(** ** Round trips *)
Lemma big_item_bytes x : item_bytes (big x). Proof. apply BE_bytes. Qed.
Lemma num_item_bytes x : item_bytes (num x). Proof. apply BE_bytes. Qed.
Lemma access_bytes l : ok TAccessList l -> item_bytes (access l). Proof. apply (item_of_bytes TAccessList). Qed.
Ltac items_bytes := apply item_bytes_Lst; cbn [app]; repeat (apply Forall_cons || apply Forall_nil);
  first [apply big_item_bytes|apply num_item_bytes|now apply access_bytes|cbn [item_bytes]; unfold address_ok in *; tauto].
Lemma tx_legacy_bytes t : tx_ok_legacy t -> item_bytes (tx_item_legacy t).
Proof. intros ((Hn & Hg & Hl & Ha & Hv & Hd) & Hvv & Hr & Hs). unfold tx_item_legacy, items_legacy. items_bytes. Qed.
Lemma tx_155_bytes t : tx_ok_155 t -> item_bytes (tx_item_155 t).
Proof. intros ((Hc & Hn & Hg & Hl & Ha & Hv & Hd) & Hvv & Hr & Hs). unfold tx_item_155, items_155. items_bytes. Qed.
Lemma tx_2930_bytes t : tx_ok_2930 t -> item_bytes (tx_item_2930 t).
Proof. intros ((Hc & Hn & Hg & Hl & Ha & Hv & Hd & Hal) & Hr & Hs). unfold tx_item_2930, items_2930. items_bytes. Qed.
Lemma tx_1559_bytes t : tx_ok_1559 t -> item_bytes (tx_item_1559 t).
Proof. intros ((Hc & Hn & Hmp & Hmf & Hl & Ha & Hv & Hd & Hal) & Hr & Hs). unfold tx_item_1559, items_1559. items_bytes. Qed.

Lemma tx_legacy_roundtrip dbg t s : tx_ok_legacy t -> RLP (tx_item_legacy t) = Some s -> Z.of_nat (length s) < 2 ^ 63 ->
  encode encode_transaction_legacy t = Ret s /\
  exists t', decode dbg (decode_transaction_legacy dbg) s = Ret (Ok t') /\ tx_same_legacy t t'.
Proof. apply (codec_roundtrip _ _ _ _ _ tx_legacy_enc (tx_legacy_dec dbg) tx_legacy_bytes). Qed.
Lemma tx_2930_roundtrip dbg t s : tx_ok_2930 t -> RLP (tx_item_2930 t) = Some s -> Z.of_nat (length s) < 2 ^ 63 ->
  transaction_eip_2930_encode t = Ret (1 :: s) /\ encode encode_transaction_eip_2930 t = Ret s /\
  exists t', decode dbg (decode_transaction_eip_2930 dbg) s = Ret (Ok t') /\ tx_same_2930 t t'.
Proof.
  intros H R L. destruct (codec_roundtrip _ _ _ _ _ tx_2930_enc (tx_2930_dec dbg) tx_2930_bytes dbg t s H R L) as [E D].
  split; [|split; assumption]. unfold transaction_eip_2930_encode. now rewrite E.
Qed.
Lemma tx_1559_roundtrip dbg t s : tx_ok_1559 t -> RLP (tx_item_1559 t) = Some s -> Z.of_nat (length s) < 2 ^ 63 ->
  transaction_eip_1559_encode t = Ret (2 :: s) /\ encode encode_transaction_eip_1559 t = Ret s /\
  exists t', decode dbg (decode_transaction_eip_1559 dbg) s = Ret (Ok t') /\ tx_same_1559 t t'.
Proof.
  intros H R L. destruct (codec_roundtrip _ _ _ _ _ tx_1559_enc (tx_1559_dec dbg) tx_1559_bytes dbg t s H R L) as [E D].
  split; [|split; assumption]. unfold transaction_eip_1559_encode. now rewrite E.
Qed.
Lemma tx_155_decode dbg t s : tx_ok_155 t -> RLP (tx_item_155 t) = Some s -> Z.of_nat (length s) < 2 ^ 63 ->
  encode encode_transaction_eip_155 t = Ret s /\
  if bi_val (t155_v t) <? 35 then decode dbg (decode_transaction_eip_155 dbg) s = Ret (Err TransactionTypeMismatch)
  else exists t', decode dbg (decode_transaction_eip_155 dbg) s = Ret (Ok t') /\ tx_same_but_chain_155 t t' /\
    wf (p155_chain_id (t155_payload t')) /\ bi_val (p155_chain_id (t155_payload t')) = (bi_val (t155_v t) - 35) / 4.
Proof.
  intros H R L. split; [unfold encode; now rewrite (tx_155_enc t s _ H R)|].
  destruct (RLP_node _ s (tx_155_bytes t H) R L) as (Hb & x & Dx & S & N). unfold decode, new_from_data. rewrite Dx, rbind_ok.
  now apply tx_155_dec_v.
Qed.
(** a transaction signed for chain c has v = 35 + 2c + parity *)
Lemma tx_155_chain dbg t s y : tx_ok_155 t -> RLP (tx_item_155 t) = Some s -> Z.of_nat (length s) < 2 ^ 63 ->
  bi_val (t155_v t) = 35 + 2 * bi_val (p155_chain_id (t155_payload t)) + parity y ->
  exists t', decode dbg (decode_transaction_eip_155 dbg) s = Ret (Ok t') /\ tx_same_but_chain_155 t t' /\
    wf (p155_chain_id (t155_payload t')) /\
    bi_val (p155_chain_id (t155_payload t')) = bi_val (p155_chain_id (t155_payload t)) / 2.
Proof.
  intros H R L V. destruct (tx_155_decode dbg t s H R L) as [_ D]. destruct H as ((Hc & _) & _).
  destruct Hc as [_ Hc]. rewrite V in D. revert D.
  assert (P : 0 <= parity y <= 1) by (destruct y; cbn; lia).
  destruct (Z.ltb_spec (35 + 2 * bi_val (p155_chain_id (t155_payload t)) + parity y) 35); [lia|].
  intros (t' & E & Q & W & C). exists t'. split; [exact E|]. split; [exact Q|]. split; [exact W|]. rewrite C.
  set (c := bi_val (p155_chain_id (t155_payload t))) in *. set (p := parity y) in *. clearbody c p.
  apply Z.div_unique with (r := (2 * c + p) mod 4 / 2); [left|];
  pose proof (Z.div_mod (35 + 2 * c + p - 35) 4 ltac:(lia)); pose proof (Z.mod_pos_bound (35 + 2 * c + p - 35) 4 ltac:(lia));
  replace (35 + 2 * c + p - 35) with (2 * c + p) in * by lia; 
  pose proof (Z.div_mod ((2 * c + p) mod 4) 2 ltac:(lia)); pose proof (Z.mod_pos_bound ((2 * c + p) mod 4) 2 ltac:(lia)); lia.
Qed.
Lemma tx_155_v dbg t s : tx_ok_155 t -> RLP (tx_item_155 t) = Some s -> Z.of_nat (length s) < 2 ^ 63 ->
  encode encode_transaction_eip_155 t = Ret s /\
  (bi_val (t155_v t) < 35 -> decode dbg (decode_transaction_eip_155 dbg) s = Ret (Err TransactionTypeMismatch)) /\
  (35 <= bi_val (t155_v t) -> exists t', decode dbg (decode_transaction_eip_155 dbg) s = Ret (Ok t')).
Proof.
  intros H R L. destruct (tx_155_decode dbg t s H R L) as [E D]. split; [exact E|].
  destruct (Z.ltb_spec (bi_val (t155_v t)) 35); (split; intros; try lia); [exact D|]. destruct D as (t' & D & _). eauto.
Qed.
End WithCfg.

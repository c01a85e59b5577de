(** Signed transactions: what is signed, and who has signed. *)

From Coq Require Import Lia.
From Verif Require Import Base M_Codec M_BigInt M_BigText M_Curve M_Hmac M_Random M_Ecdsa M_Rfc6979 M_Rlp M_EthTypes M_Tx M_Eoa M_TxSign.
From Verif Require Import S_BigInt S_Curve S_EcModel S_Ecdsa S_Sign S_Hash S_Rlp S_EthTypes S_Tx S_Eoa.
From Verif Require Import P_BigInt1 P_BigInt3 P_BigInt4 P_Hash P_Rlp P_EthTypes P_EthTypes2 P_Tx P_Ecdsa2 P_EcdsaProp P_EcdsaProp2 P_Eoa.
From Verif Require P_Curve.
Open Scope Z_scope.

Section WithCfg.
Context {cfg : digit_cfg}.
Local Notation bi_val := (S_BigInt.bi_val (cfg:=cfg)).

Lemma nonneg_biguint x : wf x -> 0 < bi_val x -> bu_from_bigint x = Some x.
Proof.
  intros W H. unfold bu_from_bigint, is_sign_negative. destruct (sign x) eqn:E; [reflexivity|]. exfalso. unfold S_BigInt.bi_val in H. rewrite E in H.
  destruct W as (W1 & _). pose proof (val_nonneg (firstn (dlen x) (storage x)) (Forall_firstn _ _ _ W1)). lia.
Qed.

Lemma enc_bytes {A} (e : A -> encoding_item -> outcome encoding_item) to P a s : enc_ok e to P -> P a -> RLP (to a) = Some s -> encode e a = Ret s.
Proof. intros H Pa E. unfold encode. now rewrite (H a s _ Pa E). Qed.

Ltac items_bytes := apply item_bytes_Lst; cbn [app]; repeat (apply Forall_cons || apply Forall_nil);
  first [apply big_item_bytes|apply num_item_bytes|now apply access_bytes|cbn [item_bytes]; unfold address_ok in *; tauto].
Lemma payload_legacy_bytes p : payload_ok_legacy p -> item_bytes (signed_item_legacy p).
Proof. intros (Hn & Hg & Hl & Ha & Hv & Hd). unfold signed_item_legacy, items_legacy. items_bytes. Qed.
Lemma payload_155_bytes p : payload_ok_155 p -> item_bytes (signed_item_155 p).
Proof. intros (Hc & Hn & Hg & Hl & Ha & Hv & Hd). unfold signed_item_155, items_155. items_bytes. Qed.
Lemma payload_2930_bytes p : payload_ok_2930 p -> item_bytes (signed_item_2930 p).
Proof. intros (Hc & Hn & Hg & Hl & Ha & Hv & Hd & Hal). unfold signed_item_2930, items_2930. items_bytes. Qed.
Lemma payload_1559_bytes p : payload_ok_1559 p -> item_bytes (signed_item_1559 p).
Proof. intros (Hc & Hn & Hmp & Hmf & Hl & Ha & Hv & Hd & Hal). unfold signed_item_1559, items_1559. items_bytes. Qed.
Lemma preimage_bytes p m : payload_ok p -> PREIMAGE p = Some m -> bytes m.
Proof.
  destruct p as [p|p|p|p]; cbn [payload_ok PREIMAGE]; intros H E.
  - exact (RLP_bytes _ _ (payload_legacy_bytes p H) E).
  - exact (RLP_bytes _ _ (payload_155_bytes p H) E).
  - destruct (RLP _) as [s|] eqn:E'; [|discriminate]. injection E as <-. constructor; [unfold byte; lia|exact (RLP_bytes _ _ (payload_2930_bytes p H) E')].
  - destruct (RLP _) as [s|] eqn:E'; [|discriminate]. injection E as <-. constructor; [unfold byte; lia|exact (RLP_bytes _ _ (payload_1559_bytes p H) E')].
Qed.

Lemma parity_recid id : y_parity_u8 (recid_y_parity id) = recid_u8 id mod 2.
Proof. now destruct id. Qed.
Lemma parity_recid' id : parity (recid_y_parity id) = recid_u8 id mod 2.
Proof. now destruct id. Qed.

Section Sign.
Context (be : bool) (fuel : nat) (rng : nat -> outcome (result get_os_random_bytes_error (list Z))) (HR : rng_ok rng).
Context (sk : private_key) (HK : code_sk sk) (SZ : nbits (order (sk_params sk)) < 2 ^ 60) (o : signing_options).

Lemma sign_payload_spec p m : payload_ok p -> PREIMAGE p = Some m ->
  let out := sign_payload be fuel rng p sk o in
  match sign_with_options be fuel (KECCAK256 m) sk o rng with
  | Ret (Ok (sg, id)) => exists t, out = Ret (Ok t) /\ tx_payload t = p /\ tx_r t = sig_r sg /\ tx_s t = sig_s sg /\ has_parity t (recid_u8 id mod 2) /\ tx_ok t
  | Ret (Err e) => out = Ret (Err (SigningError e))
  | Panic => out = Panic
  | OutOfFuel => out = OutOfFuel
  end.
Proof.
  intros HP E out. subst out. pose proof (preimage_bytes p m HP E) as Hm. destruct (keccak_digest be m Hm) as (EK & HB & HL).
  assert (G : forall sg id, sign_with_options be fuel (KECCAK256 m) sk o rng = Ret (Ok (sg, id)) ->
     bu_from_bigint (sig_r sg) = Some (sig_r sg) /\ bu_from_bigint (sig_s sg) = Some (sig_s sg) /\ big_ok (sig_r sg) /\ big_ok (sig_s sg)).
  { intros sg id ES. destruct (signed be Sha256 sk HK SZ (KECCAK256 m) HB o rng HR fuel _ (new_obj be Sha256) sg id ES) as (_ & _ & _ & (_ & Wr & Ws & Hr & Hs) & _).
    split; [apply nonneg_biguint; [exact Wr|lia]|]. split; [apply nonneg_biguint; [exact Ws|lia]|]. split; (split; [assumption|lia]). }
  clear HR HK SZ. generalize dependent (KECCAK256 m). intros hash EK HB HL G.
  destruct p as [p|p|p|p]; cbn [sign_payload payload_ok PREIMAGE] in *.
  - unfold sign_payload_legacy. rewrite (enc_bytes _ _ _ _ _ payload_legacy_enc HP E). cbn [obind]. rewrite EK. cbn [obind].
    destruct (sign_with_options be fuel hash sk o rng) as [[[sg id]|e]| |]; cbn [obind map_err rbind]; try reflexivity.
    destruct (G sg id eq_refl) as (-> & -> & Br & Bs). cbn [unwrap obind res_map]. eexists. split; [reflexivity|].
    cbn [tx_payload tx_r tx_s has_parity tx_ok tl_payload tl_r tl_s tl_v]. rewrite parity_recid.
    split; [reflexivity|]. split; [reflexivity|]. split; [reflexivity|]. split; [reflexivity|]. unfold tx_ok_legacy. cbn [tl_payload tl_r tl_s tl_v].
    split; [exact HP|]. split; [destruct id; cbn; lia|]. split; assumption.
  - unfold sign_payload_eip_155. rewrite (enc_bytes _ _ _ _ _ payload_155_enc HP E). cbn [obind]. rewrite EK. cbn [obind].
    destruct (sign_with_options be fuel hash sk o rng) as [[[sg id]|e]| |]; cbn [obind map_err rbind]; try reflexivity.
    destruct (G sg id eq_refl) as (-> & -> & Br & Bs). cbn [unwrap obind].
    unfold bu_from_uint, bu_mul, bu_add. rewrite parity_recid. assert (Hpar : 0 <= recid_u8 id mod 2 < 2 ^ 128) by (destruct id; cbn; lia).
    destruct (from_u128_spec (recid_u8 id mod 2) Positive Hpar) as (n & -> & Wn & Vn). cbn [obind].
    destruct (from_u128_spec 2 Positive ltac:(lia)) as (n2 & -> & Wn2 & Vn2). cbn [obind].
    pose proof HP as (Hc & HP'). destruct Hc as [Wc Hc].
    destruct (bi_mul_spec (p155_chain_id p) n2 Wc Wn2) as (c2 & -> & Wc2 & Vc2). cbn [obind].
    destruct (bi_add_spec n c2 Wn Wc2) as (n' & -> & Wn' & Vn'). cbn [obind].
    destruct (from_u128_spec 35 Positive ltac:(lia)) as (n35 & -> & Wn35 & Vn35). cbn [obind].
    destruct (bi_add_spec n' n35 Wn' Wn35) as (v & -> & Wv & Vv). cbn [obind res_map]. cbn [sgz] in *.
    assert (EV : bi_val v = 35 + 2 * bi_val (p155_chain_id p) + recid_u8 id mod 2) by lia.
    eexists. split; [reflexivity|]. cbn [tx_payload tx_r tx_s has_parity tx_ok t155_payload t155_r t155_s t155_v].
    split; [reflexivity|]. split; [reflexivity|]. split; [reflexivity|]. split; [exact EV|]. unfold tx_ok_155. cbn [t155_payload t155_r t155_s t155_v].
    split; [exact HP|]. split; [|split; assumption]. split; [exact Wv|]. rewrite EV. lia.
  - destruct (RLP (signed_item_2930 p)) as [s|] eqn:E'; [|discriminate]. injection E as <-.
    unfold sign_payload_eip_2930. rewrite (enc_bytes _ _ _ _ _ payload_2930_enc HP E'). cbn [obind]. unfold eip_2930_type. rewrite EK. cbn [obind].
    destruct (sign_with_options be fuel hash sk o rng) as [[[sg id]|e]| |]; cbn [obind map_err rbind]; try reflexivity.
    destruct (G sg id eq_refl) as (-> & -> & Br & Bs). cbn [unwrap obind res_map]. eexists. split; [reflexivity|].
    cbn [tx_payload tx_r tx_s has_parity tx_ok t2930_payload t2930_r t2930_s t2930_y_parity].
    split; [reflexivity|]. split; [reflexivity|]. split; [reflexivity|]. split; [apply parity_recid'|]. split; [exact HP|]. split; assumption.
  - destruct (RLP (signed_item_1559 p)) as [s|] eqn:E'; [|discriminate]. injection E as <-.
    unfold sign_payload_eip_1559. rewrite (enc_bytes _ _ _ _ _ payload_1559_enc HP E'). cbn [obind]. unfold eip_1559_type. rewrite EK. cbn [obind].
    destruct (sign_with_options be fuel hash sk o rng) as [[[sg id]|e]| |]; cbn [obind map_err rbind]; try reflexivity.
    destruct (G sg id eq_refl) as (-> & -> & Br & Bs). cbn [unwrap obind res_map]. eexists. split; [reflexivity|].
    cbn [tx_payload tx_r tx_s has_parity tx_ok t1559_payload t1559_r t1559_s t1559_y_parity].
    split; [reflexivity|]. split; [reflexivity|]. split; [reflexivity|]. split; [apply parity_recid'|]. split; [exact HP|]. split; assumption.
Qed.
End Sign.

(** The abscissa was reduced only if r is small. *)
Lemma low_id sk (HD : code_params (sk_params sk)) low e k r s id : bi_val (c_p (d_curve (sk_params sk))) <= 2 * order (sk_params sk) ->
  signature_of (params_val (sk_params sk)) low (bi_val (sk_data sk)) e k r s (recid_u8 id) -> bi_val (c_p (d_curve (sk_params sk))) - order (sk_params sk) <= r -> recid_u8 id < 2.
Proof.
  intros P2 (x & y & s0 & Ek & Es & _ & Ei) Hr. unfold ecdsa_sign in Es. rewrite Ek in Es. destruct (_ || _); [discriminate|]. injection Es as Er _.
  assert (OC : on_curve (curve_val (d_curve (sk_params sk))) (Some (x, y))).
  { change (e_curve (params_val (sk_params sk))) with (curve_val (d_curve (sk_params sk))) in Ek. rewrite <- Ek. apply P_Curve.emul_closed; [apply HD|]. exact (proj2 (base_code _ HD)). }
  destruct OC as (Hx & _). change (ep (curve_val (d_curve (sk_params sk)))) with (bi_val (c_p (d_curve (sk_params sk)))) in Hx.
  change (e_order (params_val (sk_params sk))) with (order (sk_params sk)) in *.
  destruct (Z.leb_spec (order (sk_params sk)) x) as [L|L]; [|destruct (xorb _ _) in Ei; cbn in Ei; lia].
  exfalso. set (n := order (sk_params sk)) in *. change (bi_val (d_order (sk_params sk))) with n in Er. set (q := bi_val (c_p (d_curve (sk_params sk)))) in *. clearbody n q.
  assert (EM : x - n = x mod n) by (apply Z.mod_unique with 1; lia). lia.
Qed.

(** Any signature with the numbers of the transaction is the signer's. *)
Lemma sender_any be fuel rng p sk o m pk t r s ro : code_sk sk -> public_key_of sk = Ret pk -> rng_ok rng -> let D := sk_params sk in
  nbits (order D) < 2 ^ 60 -> recoverable D -> covers D -> d_cofactor D = 1 -> (ro_strict ro = true -> strict_ok (order D) (KECCAK256 m)) ->
  payload_ok p -> PREIMAGE p = Some m -> so_zero o = false -> sign_payload be fuel rng p sk o = Ret (Ok t) ->
  wf r -> wf s -> bi_val r = bi_val (tx_r t) -> bi_val s = bi_val (tx_s t) ->
  exists sg id pk', signature_new r s D = Ret (Some sg) /\ has_parity t (recid_u8 id mod 2) /\
    (bi_val (c_p (d_curve D)) - order D <= bi_val (tx_r t) -> recid_u8 id < 2) /\
    recover_with_options sg (KECCAK256 m) (Some id) ro = Ret (Ok [pk']) /\
    pk_params pk' = D /\ code_pk pk' /\ pt_val (pk_data pk') = pt_val (pk_data pk).
Proof.
  intros HK EQ HR D SZ RC CV CF ST HP EM HZ ET Wr Ws Vr Vs.
  assert (HD : code_params D) by exact (proj1 HK).
  pose proof (preimage_bytes p m HP EM) as Hm. destruct (keccak_digest be m Hm) as (_ & HB & HL).
  pose proof (sign_payload_spec be fuel rng HR sk HK SZ o p m HP EM) as SP. cbv zeta in SP. rewrite ET in SP.
  destruct (sign_with_options be fuel (KECCAK256 m) sk o rng) as [[[sg id]|e]| |] eqn:ES; try discriminate.
  destruct SP as (t' & Et & _ & Etr & Ets & PA & _). injection Et as <-.
  destruct (signed be Sha256 sk HK SZ (KECCAK256 m) HB o rng HR fuel _ (new_obj be Sha256) sg id ES) as (_ & _ & NZ & HS & ESP & _ & _ & i & k & _ & _ & SO).
  specialize (NZ HZ). destruct HS as (_ & Wr' & Ws' & Hr & Hs). rewrite ESP in Hr, Hs. fold D in Hr, Hs, NZ. rewrite Etr in *. rewrite Ets in *.
  assert (HS' : code_sig (mkSig r s D)). { split; [exact HD|]. cbn [sig_r sig_s sig_params]. split; [exact Wr|]. split; [exact Ws|]. rewrite Vr, Vs. split; assumption. }
  destruct (public_key_of_full sk HK) as (pk0 & E0 & HM & CP). rewrite EQ in E0. injection E0 as <-.
  pose proof (recover_signer_same be Sha256 sk pk HK HM SZ (KECCAK256 m) HB o rng HR fuel _ (new_obj be Sha256) sg id ES ro NZ ST (proj1 RC) CV (rc_np _ _ _ _ _ (proj1 HK) RC) (mkSig r s D) HS' eq_refl Vr Vs) as RS.
  destruct RS as (ks & EK & _ & K). destruct (K (or_intror (or_intror CF))) as (pk' & -> & PP & PV).
  exists (mkSig r s D), id, pk'. split.
  { destruct (signature_new_full D r s Wr Ws (proj2 (proj2 (proj1 HD)))) as (b & -> & Hb). destruct b; [reflexivity|]. exfalso. enough (false = true) by discriminate. apply Hb. lia. }
  split; [exact PA|]. split.
  { intros LO. refine (low_id sk HD _ _ _ _ _ _ _ SO LO). unfold covers in CV. rewrite CF in CV. exact CV. }
  split; [exact EK|]. split; [exact PP|]. split; [|exact PV].
  destruct (recover_sound (mkSig r s D) (KECCAK256 m) (Some id) ro [pk'] pk' HS' (proj1 RC) HB EK (or_introl eq_refl)) as (CP' & _). exact CP'.
Qed.

Lemma same_address be D pk pk' : secp256k1 = Ret D -> code_pk pk -> pk_params pk = D -> code_pk pk' -> pk_params pk' = D ->
  pt_val (pk_data pk') = pt_val (pk_data pk) -> eoa_address be pk' = eoa_address be pk.
Proof.
  intros E CP PP0 CP' PP PV. destruct (secp_fields D E) as (HD & _).
  destruct (address_spec be D pk' E PP CP') as (-> & _). destruct (address_spec be D pk E PP0 CP) as (-> & _).
  destruct CP as (_ & WP & VP), CP' as (_ & WP' & VP'). rewrite PP0 in VP. destruct (valid_code D HD (pk_data pk) WP VP) as ((_ & OC) & _).
  destruct (P_EcModel.valid_point_of _ _ (params_curve _ HD) WP VP) as [_ NN].
  destruct (pt_val (pk_data pk)) as [[a b]|] eqn:EV; [|congruence]. destruct (pt_some _ _ _ WP EV) as [-> ->]. destruct (pt_some _ _ _ WP' PV) as [-> ->]. reflexivity.
Qed.

Lemma recid_inj i j : recid_u8 i = recid_u8 j -> i = j.
Proof. destruct i, j; cbn; intros; (reflexivity || discriminate). Qed.
Lemma parity_fun t a b : has_parity t a -> has_parity t b -> a = b.
Proof. destruct t; cbn [has_parity]; lia. Qed.

Lemma sender be fuel rng p sk o m D pk t r s : secp256k1 = Ret D -> code_sk sk -> sk_params sk = D -> public_key_of sk = Ret pk -> rng_ok rng ->
  payload_ok p -> PREIMAGE p = Some m -> so_zero o = false -> sign_payload be fuel rng p sk o = Ret (Ok t) ->
  wf r -> wf s -> bi_val r = bi_val (tx_r t) -> bi_val s = bi_val (tx_s t) ->
  exists sg id pk', signature_new r s D = Ret (Some sg) /\ has_parity t (recid_u8 id mod 2) /\
    (ep (e_curve SECP256K1) - e_order SECP256K1 <= bi_val (tx_r t) -> recid_u8 id < 2) /\
    recover sg (KECCAK256 m) (Some id) = Ret (Ok [pk']) /\ pt_val (pk_data pk') = pt_val (pk_data pk) /\
    eoa_address be pk' = eoa_address be pk.
Proof.
  intros E HK EP EQ HR HP EM HZ ET Wr Ws Vr Vs. destruct (secp_fields D E) as (HD & VD & SZ & RC & CV & ST & CF). subst D.
  destruct (keccak_digest be m (preimage_bytes p m HP EM)) as (_ & HB & HL).
  destruct (sender_any be fuel rng p sk o m pk t r s recovery_default HK EQ HR SZ RC CV CF (fun _ => ST _ HL) HP EM HZ ET Wr Ws Vr Vs)
    as (sg & id & pk' & H1 & H2 & H3 & H4 & H5 & H6 & H7).
  exists sg, id, pk'. split; [exact H1|]. split; [exact H2|]. split.
  { intros LO. apply H3. change (bi_val (c_p (d_curve (sk_params sk)))) with (ep (e_curve (params_val (sk_params sk)))).
    change (order (sk_params sk)) with (e_order (params_val (sk_params sk))). rewrite VD. exact LO. }
  split; [exact H4|]. split; [exact H7|]. destruct (public_key_of_full sk HK) as (pk0 & E0 & HM & CP). rewrite EQ in E0. injection E0 as <-.
  exact (same_address be _ pk pk' E CP (proj1 HM) H6 H5 H7).
Qed.

(** The transaction that has been signed. *)
Lemma signed_ok be fuel rng p sk o m t : code_sk sk -> nbits (order (sk_params sk)) < 2 ^ 60 -> rng_ok rng ->
  payload_ok p -> PREIMAGE p = Some m -> sign_payload be fuel rng p sk o = Ret (Ok t) -> tx_ok t /\ tx_payload t = p.
Proof.
  intros HK SZ HR HP EM ET. pose proof (sign_payload_spec be fuel rng HR sk HK SZ o p m HP EM) as SP. cbv zeta in SP. rewrite ET in SP.
  destruct (sign_with_options be fuel (KECCAK256 m) sk o rng) as [[[sg id]|e]| |] eqn:ES; try discriminate.
  destruct SP as (t' & Et & EP & _ & _ & _ & OK). injection Et as <-. split; assumption.
Qed.
Lemma tx_ok_wf t : tx_ok t -> wf (tx_r t) /\ wf (tx_s t).
Proof. destruct t; cbn [tx_ok tx_r tx_s]; unfold tx_ok_legacy, tx_ok_155, tx_ok_2930, tx_ok_1559, big_ok; tauto. Qed.

Lemma sender_of be fuel rng p sk o m D pk t : secp256k1 = Ret D -> code_sk sk -> sk_params sk = D -> public_key_of sk = Ret pk -> rng_ok rng ->
  payload_ok p -> PREIMAGE p = Some m -> so_zero o = false -> sign_payload be fuel rng p sk o = Ret (Ok t) ->
  identifies be D t pk.
Proof.
  intros E HK EP EQ HR HP EM HZ ET. destruct (secp_fields D E) as (_ & _ & SZ & _). rewrite <- EP in SZ.
  destruct (signed_ok be fuel rng p sk o m t HK SZ HR HP EM ET) as (OK & TP). destruct (tx_ok_wf t OK) as (Wr & Ws).
  destruct (sender be fuel rng p sk o m D pk t _ _ E HK EP EQ HR HP EM HZ ET Wr Ws eq_refl eq_refl) as (sg & id & pk' & H1 & H2 & H3 & H4 & H5 & H6).
  exists m, sg. rewrite TP. split; [exact EM|]. split; [exact H1|]. split; [exists id; split; [exact H2|exists pk'; auto]|].
  intros id' Hr PA. pose proof (parity_fun t _ _ H2 PA) as EI. specialize (H3 Hr). rewrite Z.mod_small in EI by (split; [destruct id; cbn; lia|exact H3]).
  apply recid_inj in EI. subst id'. exists pk'. auto.
Qed.

(** What has been read back is as good as what was signed. *)
Lemma identifies_same be fuel rng p sk o m D pk t t' : secp256k1 = Ret D -> code_sk sk -> sk_params sk = D -> public_key_of sk = Ret pk -> rng_ok rng ->
  payload_ok p -> PREIMAGE p = Some m -> so_zero o = false -> sign_payload be fuel rng p sk o = Ret (Ok t) ->
  PREIMAGE (tx_payload t') = PREIMAGE (tx_payload t) -> same_int (tx_r t) (tx_r t') -> same_int (tx_s t) (tx_s t') -> (forall b, has_parity t b <-> has_parity t' b) ->
  identifies be D t' pk.
Proof.
  intros E HK EP EQ HR HP EM HZ ET PI [Wr Vr] [Ws Vs] HB. destruct (secp_fields D E) as (_ & _ & SZ & _). rewrite <- EP in SZ.
  destruct (signed_ok be fuel rng p sk o m t HK SZ HR HP EM ET) as (OK & TP).
  destruct (sender be fuel rng p sk o m D pk t _ _ E HK EP EQ HR HP EM HZ ET Wr Ws (eq_sym Vr) (eq_sym Vs)) as (sg & id & pk' & H1 & H2 & H3 & H4 & H5 & H6).
  exists m, sg. rewrite PI, TP. split; [exact EM|]. split; [exact H1|]. split; [exists id; split; [apply HB; exact H2|exists pk'; auto]|].
  intros id' Hr PA. apply HB in PA. pose proof (parity_fun t _ _ H2 PA) as EI. rewrite <- Vr in Hr. specialize (H3 Hr). rewrite Z.mod_small in EI by (split; [destruct id; cbn; lia|exact H3]).
  apply recid_inj in EI. subst id'. exists pk'. auto.
Qed.

Lemma decoded_sender dbg be fuel rng p sk o m D pk t s : secp256k1 = Ret D -> code_sk sk -> sk_params sk = D -> public_key_of sk = Ret pk -> rng_ok rng ->
  payload_ok p -> PREIMAGE p = Some m -> so_zero o = false -> sign_payload be fuel rng p sk o = Ret (Ok t) ->
  RLP (tx_item t) = Some s -> Z.of_nat (length s) < 2 ^ 63 -> kind_of p <> K155 ->
  encode_transaction t = Ret s /\ exists t', decode_transaction dbg (kind_of p) s = Ret (Ok t') /\ PREIMAGE (tx_payload t') = Some m /\ identifies be D t' pk.
Proof.
  intros E HK EP EQ HR HP EM HZ ET HS HL NK. destruct (secp_fields D E) as (_ & _ & SZ & _). rewrite <- EP in SZ.
  destruct (signed_ok be fuel rng p sk o m t HK SZ HR HP EM ET) as (OK & TP).
  assert (X : encode_transaction t = Ret s /\ exists t', decode_transaction dbg (kind_of p) s = Ret (Ok t') /\
     PREIMAGE (tx_payload t') = PREIMAGE (tx_payload t) /\ same_int (tx_r t) (tx_r t') /\ same_int (tx_s t) (tx_s t') /\ (forall b, has_parity t b <-> has_parity t' b)).
  { subst p. destruct t as [t|t|t|t]; cbn [tx_payload kind_of tx_ok tx_item encode_transaction decode_transaction] in *; [|congruence| |].
    - destruct (tx_legacy_roundtrip dbg t s OK HS HL) as (H1 & t' & H2 & (Q1 & [_ Q2] & Q3 & Q4 & [_ Q5] & Q6) & Hv & Hr & Hs). split; [exact H1|].
      rewrite H2. cbn [obind res_map]. exists (TLegacy t'). split; [reflexivity|]. cbn [tx_payload PREIMAGE tx_r tx_s has_parity].
      split; [unfold signed_item_legacy, items_legacy, big; now rewrite Q1, Q2, Q3, Q4, Q5, Q6|]. split; [exact Hr|]. split; [exact Hs|]. rewrite Hv. tauto.
    - destruct (tx_2930_roundtrip dbg t s OK HS HL) as (_ & H1 & t' & H2 & ([_ Q1] & Q2 & [_ Q3] & Q4 & Q5 & [_ Q6] & Q7 & Q8) & Hv & Hr & Hs). split; [exact H1|].
      rewrite H2. cbn [obind res_map]. exists (T2930 t'). split; [reflexivity|]. cbn [tx_payload PREIMAGE tx_r tx_s has_parity].
      split; [unfold signed_item_2930, items_2930, big; now rewrite Q1, Q2, Q3, Q4, Q5, Q6, Q7, Q8|]. split; [exact Hr|]. split; [exact Hs|]. rewrite Hv. tauto.
    - destruct (tx_1559_roundtrip dbg t s OK HS HL) as (_ & H1 & t' & H2 & ([_ Q1] & Q2 & [_ Q3] & [_ Q3'] & Q4 & Q5 & [_ Q6] & Q7 & Q8) & Hv & Hr & Hs). split; [exact H1|].
      rewrite H2. cbn [obind res_map]. exists (T1559 t'). split; [reflexivity|]. cbn [tx_payload PREIMAGE tx_r tx_s has_parity].
      split; [unfold signed_item_1559, items_1559, big; now rewrite Q1, Q2, Q3, Q3', Q4, Q5, Q6, Q7, Q8|]. split; [exact Hr|]. split; [exact Hs|]. rewrite Hv. tauto. }
  destruct X as (X & t' & D1 & D2 & D3 & D4 & D5). split; [exact X|]. exists t'. split; [exact D1|]. split; [rewrite D2, TP; exact EM|].
  exact (identifies_same be fuel rng p sk o m D pk t t' E HK EP EQ HR HP EM HZ ET D2 D3 D4 D5).
Qed.
End WithCfg.

(** Proofs about decoding trees and signed transactions from arbitrary bytes. *)

From Verif Require Import Base M_Parity M_Codec M_BigInt M_BigText M_Hmac M_Rlp M_EthTypes M_Tx S_BigInt S_Hash S_Rlp S_EthTypes S_Tx S_RlpRead.
From Verif Require Import P_BigInt3 P_BigInt4 P_BigApi P_Rlp P_Rlp2 P_EthTypes P_Rlp3 P_Tx P_RlpRead.
Open Scope Z_scope.

(** ** Trees *)
Lemma tree_panic dbg fuel : forall d, small d -> fuel_ok d fuel -> (decode_tree dbg fuel d = Panic <-> tree_breaks d).
Proof.
  induction fuel as [|fuel IH]; intros d S [F1 F2]; [lia|]. cbn [decode_tree]. destruct (fst d) eqn:T.
  - unfold decode_as_bytes. rewrite T. cbn [item_type_eqb negb rbind]. split; [discriminate|].
    intros B. inversion B; subst; discriminate.
  - specialize (F2 eq_refl). pose proof (items_exact dbg d S) as IO. remember (decode_as_items dbg d) as o eqn:EO.
    destruct IO as [T'|ds _ C Sd|_ NC NJ|_ J NC]; cbn [rbind].
    + congruence.
    + assert (FO : Forall (fun d => fuel_ok d fuel) ds).
      { pose proof C as C'. apply chunks_reads in C'. pose proof (reads_all_shape _ _ C' (proj1 S) fuel F2) as Sh.
        eapply Forall_impl; [|exact Sh]. intros y (_ & _ & X & _). exact X. }
      assert (G : decode_all (decode_tree dbg fuel) ds = Panic <->
        exists before x after, ds = before ++ x :: after /\ Forall (fun d => exists i, node i d) before /\ tree_breaks x).
      { clear C EO. induction ds as [|x ds IHd]; cbn [decode_all].
        - split; [discriminate|]. intros ([|? ?] & x & a & X & _); discriminate.
        - inversion Sd as [|? ? Sx Sd']; subst. inversion FO as [|? ? Fx FO']; subst. specialize (IHd Sd' FO'). split.
          + intros H. destruct (tree_sound dbg fuel x (proj1 Sx) (proj2 Sx) Fx) as [(i & E & N)|[E|[E _]]]; rewrite E in H; cbn [rbind] in H; try discriminate.
            * assert (H' : decode_all (decode_tree dbg fuel) ds = Panic).
              { destruct (decode_all (decode_tree dbg fuel) ds) as [[]| |]; cbn [rbind] in H; congruence. }
              apply IHd in H'. destruct H' as (b & y & af & -> & Gd & By). exists (x :: b), y, af.
              split; [reflexivity|]. split; [|exact By]. constructor; eauto.
            * exists [], x, ds. split; [reflexivity|]. split; [constructor|]. now apply IH.
          + intros (b & y & af & X & Gd & By). destruct b as [|z b]; cbn [app] in X; injection X as -> X.
            * apply (IH y Sx Fx) in By. now rewrite By.
            * subst ds. inversion Gd as [|? ? (i & N) Gd']; subst.
              rewrite (tree_complete dbg i z fuel N (proj1 Sx) (proj2 Sx) Fx). cbn [rbind].
              assert (H : decode_all (decode_tree dbg fuel) (b ++ y :: af) = Panic) by (apply IHd; eauto 8). now rewrite H. }
      assert (K : forall ds', chunks_bytes ds' (snd d) -> ds' = ds) by (intros ds' C'; destruct S; eapply chunks_fun; eassumption).
      assert (X : rbind (decode_all (decode_tree dbg fuel) ds) (fun l => Ret (Ok (Lst l))) = Panic <-> decode_all (decode_tree dbg fuel) ds = Panic).
      { destruct (decode_all (decode_tree dbg fuel) ds) as [[]| |]; cbn [rbind]; split; congruence. }
      rewrite X, G. destruct d as [t p]. cbn [fst snd] in *. subst t. split.
      * intros (b & x & a & -> & Gd & Bx). eapply tree_inside; [exact C| |exact Bx].
        eapply Forall_impl; [|exact Gd]. intros y (i & N). exists i. now apply chunk_tree_node.
      * intros B. inversion B as [p' J|p' b x a C' Gd Bx]; subst.
        -- exfalso. pose proof (jams_items dbg (List, p) S eq_refl J). congruence.
        -- apply K in C'. subst ds. exists b, x, a. split; [reflexivity|]. split; [|exact Bx].
           eapply Forall_impl; [|exact Gd]. intros y (i & N). exists i. now apply chunk_tree_node.
    + destruct d as [t p]. cbn [fst snd] in *. subst t. split; [discriminate|].
      intros B. inversion B as [p' J|p' b x a C' Gd Bx]; subst; [contradiction|destruct (NC _ C')].
    + destruct d as [t p]. cbn [fst snd] in *. subst t. split; [intros _; now constructor|reflexivity].
Qed.
Lemma tree_decode_panic dbg data : bytes data -> Z.of_nat (length data) < 2 ^ 63 ->
  (decode dbg (decode_tree dbg (S (length data))) data = Panic <-> data_breaks dbg tree_breaks data).
Proof.
  intros Hb Hl. unfold decode. pose proof (data_exact dbg data Hb Hl) as D. remember (new_from_data dbg data) as o eqn:EO.
  destruct D as [x C S|NC NO|DB O NC]; cbn [rbind].
  - pose proof C as C'. apply chunk_reads_end in C'. destruct (reads_end_shape data x C' Hb) as (F & _).
    rewrite (tree_panic dbg _ x S F). unfold data_breaks. split; [eauto|]. intros [X|(x' & CX & BX)].
    + exfalso. apply (decode_data_panic_iff dbg data Hb Hl) in X. unfold new_from_data in EO. congruence.
    + assert (x' = x) by (eapply chunk_fun; eassumption). now subst x'.
  - split; [discriminate|]. intros [X|(x' & C' & BX)]; [contradiction|destruct (NC _ C')].
  - split; [intros _; left; auto|reflexivity].
Qed.

(** ** Transactions *)
Section WithCfg.
Context {cfg : digit_cfg}.
Local Notation bi_val := (S_BigInt.bi_val (cfg:=cfg)).

Lemma never_out {A} (d : decoding_item -> outcome (result RlpDataDecodingError A)) M sm x : never_breaks d M sm -> small x ->
  (exists a i, d x = Ret (Ok a) /\ node i x /\ M i a) \/ d x = Ret (Err InvalidFormat).
Proof. intros E S. destruct (E x S) as ([H|[H|H]] & _ & P); auto. destruct (proj1 P H). Qed.
Lemma exact_step {A} (d : decoding_item -> outcome (result RlpDataDecodingError A)) M sm B a i x :
  exact d M sm B -> M i a -> small x -> node i x ->
  exists a', sm a a' /\ forall C (k : A -> outcome (result RlpDataDecodingError C)), rbind (d x) k = k a'.
Proof. intros D Ma S N. destruct (D x S) as (_ & H & _). destruct (H i a N Ma) as (a' & E & Q). exists a'. split; [exact Q|]. intros C k. now rewrite E. Qed.

Ltac kids F S :=
  repeat match type of F with
  | Forall2 node (_ :: _) _ => let N := fresh "N" in let F' := fresh "F" in
      inversion F as [|? ? ? ? N F']; subst; clear F; rename F' into F;
      let S' := fresh "S" in let S0 := fresh "Sm" in inversion S as [|? ? S0 S']; subst; clear S; rename S' into S
  end; inversion F; subst; clear F S.
Ltac dec_start dbg x S N :=
  let ds := fresh "ds" in let E := fresh "E" in let T := fresh "T" in
  destruct (children dbg _ x S N) as (ds & E & F & Sd);
  destruct N as [T _]; rewrite T, E; clear S T E x; rewrite rbind_ok.
(** the next item is read with the decoder of [lem], or there is an error *)
Ltac rd lem a i N M :=
  lazymatch goal with
  | Sm : small ?d |- context [rbind (_ ?d) _] =>
     let E := fresh "E" in destruct (never_out _ _ _ d lem Sm) as [(a & i & E & N & M)|E]; rewrite E; clear E Sm;
     [rewrite rbind_ok; cbv beta zeta|right; left; reflexivity]
  end.
Ltac smalls Sd := repeat match type of Sd with Forall small (_ :: _) =>
  let S' := fresh "S" in let S0 := fresh "Sm" in inversion Sd as [|? ? S0 S']; subst; clear Sd; rename S' into Sd end; clear Sd.
(** the next item is read with the decoder of [lem], and the item has the meaning [pf] *)
Ltac rd1 lem pf a Q :=
  match goal with
  | Sm : small ?d, N : node _ ?d |- context [rbind (_ ?d) _] =>
     let E := fresh "E" in destruct (exact_step _ _ _ _ _ _ d lem pf Sm N) as (a & Q & E);
     rewrite E; clear E Sm N; cbv beta zeta
  end.

Lemma node_list is ds x : small x -> fst x = List -> chunks_bytes ds (snd x) -> Forall2 node is ds -> node (Lst is) x.
Proof. intros S T C F. apply node_items; eauto. Qed.

Lemma legacy_sound dbg x : small x ->
  (exists a i, decode_transaction_legacy dbg x = Ret (Ok a) /\ node i x /\ means_legacy i a) \/
  decode_transaction_legacy dbg x = Ret (Err InvalidFormat) \/ (decode_transaction_legacy dbg x = Panic /\ flat_breaks x).
Proof.
  intros S. unfold decode_transaction_legacy. destruct (fst x) eqn:T; [auto|].
  pose proof (items_exact dbg x S) as IO. destruct IO as [T'|ds _ C Sd|_ NC NJ|_ J NC]; [congruence|rewrite rbind_ok|right; left; reflexivity|right; right; split; [reflexivity|split; assumption]].
  destruct ds as [|d0 [|d1 [|d2 [|d3 [|d4 [|d5 [|d6 [|d7 [|d8 [|d9 ds]]]]]]]]]]; try (right; left; reflexivity).
  cbv beta iota. smalls Sd.
  rd nonce_exact n i0 K0 M0. rd wei_exact g i1 K1 M1. rd u64_exact l i2 K2 M2. rd address_exact a i3 K3 M3. rd wei_exact v i4 K4 M4.
  rd bytes_exact dt i5 K5 M5. rewrite build_legacy. cbn [map_err]. rewrite rbind_ok.
  rd u64_exact vv i6 K6 M6. unfold u8_try_from. destruct (Z.ltb_spec vv 256) as [Hv|]; [|auto].
  rd big_exact r i7 K7 M7. rd big_exact s i8 K8 M8.
  left. eexists _, (Lst [i0; i1; i2; i3; i4; i5; i6; i7; i8]). split; [reflexivity|]. split.
  - eapply node_list; [exact S|exact T|exact C|]. repeat (constructor; [assumption|]). constructor.
  - exists i0, i1, i2, i3, i4, i5, i6, i7, i8. cbn [tl_payload pl_nonce pl_gas_price pl_gas_limit pl_destination pl_amount pl_data tl_v tl_r tl_s]. tauto.
Qed.
Lemma legacy_complete dbg x i t : small x -> node i x -> means_legacy i t ->
  exists t', decode_transaction_legacy dbg x = Ret (Ok t') /\ tx_same_legacy t t'.
Proof.
  intros S N (i0 & i1 & i2 & i3 & i4 & i5 & i6 & i7 & i8 & -> & M0 & M1 & M2 & M3 & M4 & M5 & [M6 Hv] & M7 & M8).
  unfold decode_transaction_legacy. dec_start dbg x S N. kids F Sd.
  rd1 nonce_exact M0 n Qn. rd1 wei_exact M1 g Qg. rd1 u64_exact M2 l Ql. rd1 address_exact M3 a Qa. rd1 wei_exact M4 v Qv. rd1 bytes_exact M5 d Qd.
  rewrite build_legacy. cbn [map_err]. rewrite rbind_ok. rd1 u64_exact M6 vv Qvv. subst vv. unfold u8_try_from. rewrite (proj2 (Z.ltb_lt _ _) Hv).
  rd1 big_exact M7 r Qr. rd1 big_exact M8 s Qs.
  eexists. split; [reflexivity|]. unfold tx_same_legacy, payload_same_legacy. cbn. tauto.
Qed.
Lemma exact_intro {A} (d : decoding_item -> outcome (result RlpDataDecodingError A)) M sm B :
  (forall x, small x -> (exists a i, d x = Ret (Ok a) /\ node i x /\ M i a) \/ d x = Ret (Err InvalidFormat) \/ (d x = Panic /\ B x)) ->
  (forall x i a, small x -> node i x -> M i a -> exists a', d x = Ret (Ok a') /\ sm a a') ->
  (forall x, small x -> B x -> d x = Panic) -> exact d M sm B.
Proof.
  intros H1 H2 H3 x S. split; [|split].
  - destruct (H1 x S) as [H|[H|[H _]]]; auto.
  - intros i a. now apply H2.
  - split; [|now apply H3]. intros P. destruct (H1 x S) as [(a & i & H & _)|[H|[_ H]]]; [congruence|congruence|exact H].
Qed.
Lemma legacy_exact dbg : exact (decode_transaction_legacy dbg) means_legacy tx_same_legacy flat_breaks.
Proof.
  apply exact_intro; [apply legacy_sound|intros; eapply legacy_complete; eassumption|].
  intros x S [T J]. unfold decode_transaction_legacy. rewrite T, (jams_items dbg x S T J). reflexivity.
Qed.

(** EIP-155 *)
Lemma compute_chain {A} vv (k : bigint -> outcome (result RlpDataDecodingError A)) (e : outcome (result RlpDataDecodingError A)) : wf vv ->
  exists c, (35 <= bi_val vv -> wf c /\ bi_val c = (bi_val vv - 35) / 4) /\
  (n_35 <- bu_from_uint 35 ;; lt <- bi_lt vv n_35 ;; if (lt : bool) then e else n <- bu_sub vv n_35 ;; c <- bu_shr n 2 ;; k c) =
  if bi_val vv <? 35 then e else k c.
Proof.
  intros W. destruct (from_u128_spec 35 Positive ltac:(lia)) as (m & E & Wm & Vm). unfold bu_from_uint. rewrite E. cbn [obind].
  cbn [sgz] in Vm. rewrite bi_lt_spec by assumption. cbn [obind]. rewrite Vm. replace (1 * 35) with 35 by lia.
  destruct (bi_sub_spec vv m W Wm) as (y & Ey & Wy & Vy). unfold bu_sub, bu_shr. rewrite Ey. cbn [obind].
  destruct (shr_full y 2 Wy ltac:(lia)) as (c & Ec & Wc & Vc). rewrite Ec. cbn [obind].
  exists c. split; [|destruct (bi_val vv <? 35); reflexivity].
  intros H. split; [exact Wc|]. rewrite Vc, Vy, Vm. change (2 ^ 2) with 4. replace (bi_val vv - 1 * 35) with (bi_val vv - 35) by lia.
  destruct (Z.eq_dec (bi_val vv - 35) 0) as [->|]; [reflexivity|]. rewrite Z.sgn_pos, Z.abs_eq by lia. lia.
Qed.
Lemma means_wf i vv : means TBigUint i vv -> wf vv.
Proof. intros (b & _ & W & _). exact W. Qed.

Lemma tx155_sound dbg x : small x ->
  (exists a i, decode_transaction_eip_155 dbg x = Ret (Ok a) /\ node i x /\ means_155 i a) \/
  (exists a i, decode_transaction_eip_155 dbg x = Ret (Err TransactionTypeMismatch) /\ node i x /\ means_155_fields i a /\ bi_val (t155_v a) < 35) \/
  decode_transaction_eip_155 dbg x = Ret (Err InvalidFormat) \/ (decode_transaction_eip_155 dbg x = Panic /\ flat_breaks x).
Proof.
  intros S. unfold decode_transaction_eip_155. destruct (fst x) eqn:T; [auto|].
  pose proof (items_exact dbg x S) as IO. destruct IO as [T'|ds _ C Sd|_ NC NJ|_ J NC]; [congruence|rewrite rbind_ok|right; right; left; reflexivity|right; right; right; split; [reflexivity|split; assumption]].
  destruct ds as [|d0 [|d1 [|d2 [|d3 [|d4 [|d5 [|d6 [|d7 [|d8 [|d9 ds]]]]]]]]]]; try (right; right; left; reflexivity).
  cbv beta iota. smalls Sd.
  apply (fun H => match H : _ \/ _ \/ _ with or_introl h => or_introl h | or_intror (or_introl h) => or_intror (or_intror (or_introl h)) | or_intror (or_intror h) => or_intror (or_introl h) end).
  rd nonce_exact n i0 K0 M0. rd wei_exact g i1 K1 M1. rd u64_exact l i2 K2 M2. rd address_exact a i3 K3 M3. rd wei_exact v i4 K4 M4.
  rd bytes_exact dt i5 K5 M5. rd big_exact vv i6 K6 M6. rd big_exact r i7 K7 M7. rd big_exact s i8 K8 M8.
  match goal with |- context [bu_from_uint 35] => idtac end.
  assert (NL : node (Lst [i0; i1; i2; i3; i4; i5; i6; i7; i8]) x).
  { eapply node_list; [exact S|exact T|exact C|]. repeat (constructor; [assumption|]). constructor. }
  destruct (compute_chain vv (fun c => payload <-? Ret (map_err (fun _ => InvalidFormat) (fst (take_and_build_payload_eip_155
     (with_data dt (with_amount v (with_destination a (with_gas_limit l (with_gas_price g (with_nonce n (with_chain_id c builder_new)))))))))) ;;
     Ret (Ok {| t155_payload := payload; t155_v := vv; t155_r := r; t155_s := s |})) (Ret (Err TransactionTypeMismatch)) (means_wf _ _ M6)) as (c & HC & EQ).
  rewrite EQ. clear EQ.
  set (t := {| t155_payload := {| p155_chain_id := c; p155_nonce := n; p155_gas_price := g; p155_gas_limit := l; p155_destination := a; p155_amount := v; p155_data := dt |};
               t155_v := vv; t155_r := r; t155_s := s |}).
  assert (MF : means_155_fields (Lst [i0; i1; i2; i3; i4; i5; i6; i7; i8]) t).
  { exists i0, i1, i2, i3, i4, i5, i6, i7, i8. unfold t.
    cbn [t155_payload p155_nonce p155_gas_price p155_gas_limit p155_destination p155_amount p155_data t155_v t155_r t155_s]. tauto. }
  destruct (Z.ltb_spec (bi_val vv) 35).
  - right. right. exists t, (Lst [i0; i1; i2; i3; i4; i5; i6; i7; i8]). split; [reflexivity|]. split; [exact NL|]. split; [exact MF|assumption].
  - left. exists t, (Lst [i0; i1; i2; i3; i4; i5; i6; i7; i8]). rewrite build_155. cbn [map_err]. rewrite rbind_ok.
    split; [reflexivity|]. split; [exact NL|]. split; [exact MF|]. split; [assumption|]. apply HC. assumption.
Qed.
Lemma tx155_complete dbg x i t : small x -> node i x -> means_155_fields i t ->
  if bi_val (t155_v t) <? 35 then decode_transaction_eip_155 dbg x = Ret (Err TransactionTypeMismatch)
  else exists t', decode_transaction_eip_155 dbg x = Ret (Ok t') /\ tx_same_but_chain_155 t t' /\
    wf (p155_chain_id (t155_payload t')) /\ bi_val (p155_chain_id (t155_payload t')) = (bi_val (t155_v t) - 35) / 4.
Proof.
  intros S N (i0 & i1 & i2 & i3 & i4 & i5 & i6 & i7 & i8 & -> & M0 & M1 & M2 & M3 & M4 & M5 & M6 & M7 & M8).
  unfold decode_transaction_eip_155. dec_start dbg x S N. kids F Sd.
  rd1 nonce_exact M0 n Qn. rd1 wei_exact M1 g Qg. rd1 u64_exact M2 l Ql. rd1 address_exact M3 a Qa. rd1 wei_exact M4 v Qv. rd1 bytes_exact M5 d Qd.
  rd1 big_exact M6 vv Qvv. rd1 big_exact M7 r Qr. rd1 big_exact M8 s Qs.
  destruct (compute_chain vv (fun c => payload <-? Ret (map_err (fun _ => InvalidFormat) (fst (take_and_build_payload_eip_155
     (with_data d (with_amount v (with_destination a (with_gas_limit l (with_gas_price g (with_nonce n (with_chain_id c builder_new)))))))))) ;;
     Ret (Ok {| t155_payload := payload; t155_v := vv; t155_r := r; t155_s := s |})) (Ret (Err TransactionTypeMismatch)) (proj1 Qvv)) as (c & HC & EQ).
  rewrite EQ. clear EQ. destruct Qvv as [Wv Vv]. rewrite <- Vv in *. destruct (Z.ltb_spec (bi_val (t155_v t)) 35) as [|Hge]; [reflexivity|].
  rewrite build_155. cbn [map_err]. rewrite rbind_ok. eexists. split; [reflexivity|].
  split; [unfold tx_same_but_chain_155, payload_same_but_chain_155, same_int in *; cbn; tauto|]. now apply HC.
Qed.

Lemma e2930_sound dbg x : small x ->
  (exists a i, decode_transaction_eip_2930 dbg x = Ret (Ok a) /\ node i x /\ means_2930 i a) \/
  decode_transaction_eip_2930 dbg x = Ret (Err InvalidFormat) \/ (decode_transaction_eip_2930 dbg x = Panic /\ breaks_2930 dbg x).
Proof.
  intros S. unfold decode_transaction_eip_2930. destruct (fst x) eqn:T; [auto|].
  pose proof (items_exact dbg x S) as IO. destruct IO as [T'|ds _ C Sd|_ NC NJ|_ J NC]; [congruence|rewrite rbind_ok|right; left; reflexivity|right; right; split; [reflexivity|split; auto]].
  destruct ds as [|d0 [|d1 [|d2 [|d3 [|d4 [|d5 [|d6 [|d7 [|d8 [|d9 [|d10 [|d11 ds]]]]]]]]]]]]; try (right; left; reflexivity).
  cbv beta iota. smalls Sd.
  rd chain_exact c i0 K0 M0. rd nonce_exact n i1 K1 M1. rd wei_exact g i2 K2 M2. rd u64_exact l i3 K3 M3. rd address_exact a i4 K4 M4. rd wei_exact v i5 K5 M5.
  rd bytes_exact dt i6 K6 M6.
  match goal with Sm : small d7 |- _ => destruct (al_exact dbg d7 Sm) as ([(al & i7 & -> & K7 & M7)|[->|EP]] & _ & P) end.
  - rewrite rbind_ok. cbv beta zeta. rewrite build_2930. cbn [map_err]. rewrite rbind_ok.
    match goal with Sm : small d7 |- _ => clear Sm end.
    rd u64_exact yy i8 K8 M8. unfold u8_try_from. destruct (Z.ltb_spec yy 256) as [Hv|]; [|auto].
    destruct (y_parity_from_u8 yy) as [y|] eqn:Y; [|auto].
    assert (yy = parity y) by (unfold y_parity_from_u8 in Y; destruct (Z.eqb_spec yy 0); [injection Y as <-; assumption|destruct (Z.eqb_spec yy 1); [injection Y as <-; assumption|discriminate]]). subst yy.
    rd big_exact r i9 K9 M9. rd big_exact s i10 K10 M10.
    left. eexists _, (Lst [i0; i1; i2; i3; i4; i5; i6; i7; i8; i9; i10]). split; [reflexivity|]. split.
    + eapply node_list; [exact S|exact T|exact C|]. repeat (constructor; [assumption|]). constructor.
    + exists i0, i1, i2, i3, i4, i5, i6, i7, i8, i9, i10. cbn [t2930_payload p2930_chain_id p2930_nonce p2930_gas_price p2930_gas_limit p2930_destination p2930_amount p2930_data p2930_access_list t2930_y_parity t2930_r t2930_s]. tauto.
  - right. left. reflexivity.
  - right. right. rewrite EP. split; [reflexivity|]. split; [exact T|]. right.
    exists [d0; d1; d2; d3; d4; d5; d6], d7, [d8; d9; d10]. split; [exact C|]. split; [|split; [reflexivity|now apply P]].
    unfold starts. repeat (constructor; [eexists _, _; split; [apply chunk_tree_node; eassumption|eassumption]|]). constructor.
Qed.
Lemma e2930_complete dbg x i t : small x -> node i x -> means_2930 i t ->
  exists t', decode_transaction_eip_2930 dbg x = Ret (Ok t') /\ tx_same_2930 t t'.
Proof.
  intros S N (i0 & i1 & i2 & i3 & i4 & i5 & i6 & i7 & i8 & i9 & i10 & -> & M0 & M1 & M2 & M3 & M4 & M5 & M6 & M7 & M8 & M9 & M10).
  unfold decode_transaction_eip_2930. dec_start dbg x S N. kids F Sd.
  rd1 chain_exact M0 c Qc. rd1 nonce_exact M1 n Qn. rd1 wei_exact M2 g Qg. rd1 u64_exact M3 l Ql. rd1 address_exact M4 a Qa. rd1 wei_exact M5 v Qv. rd1 bytes_exact M6 d Qd.
  rd1 (al_exact dbg) M7 al Qal. rewrite build_2930. cbn [map_err]. rewrite rbind_ok. rd1 u64_exact M8 yy Qyy. subst yy.
  assert (U : u8_try_from (parity (t2930_y_parity t)) = Some (parity (t2930_y_parity t))) by (destruct (t2930_y_parity t); reflexivity).
  assert (Y : y_parity_from_u8 (parity (t2930_y_parity t)) = Some (t2930_y_parity t)) by (destruct (t2930_y_parity t); reflexivity).
  rewrite U, Y. rd1 big_exact M9 r Qr. rd1 big_exact M10 s Qs.
  eexists. split; [reflexivity|]. unfold tx_same_2930, payload_same_2930. cbn. tauto.
Qed.
Ltac start_items St Sd :=
  repeat match type of St with
  | Forall2 _ (_ :: _) _ => let N := fresh "N" in let M := fresh "M" in let St' := fresh "St" in
      inversion St as [|? ? ? ? (? & ? & N & M) St']; subst; clear St; rename St' into St; apply (proj1 (chunk_tree_node _ _)) in N;
      let S' := fresh "S" in let S0 := fresh "Sm" in cbn [app] in Sd; inversion Sd as [|? ? S0 S']; subst; clear Sd; rename S' into Sd
  end; inversion St; subst; clear St; cbn [app] in Sd.
Ltac rdm lem := match goal with Sm : small ?d, N : node ?i ?d, M : means _ ?i _ |- context [rbind (_ ?d) _] =>
     let E := fresh "E" in let a := fresh "a" in destruct (exact_step _ _ _ _ _ _ d lem M Sm N) as (a & _ & E);
     rewrite E; clear E Sm N M; cbv beta zeta end.
Lemma e2930_exact dbg : exact (decode_transaction_eip_2930 dbg) means_2930 tx_same_2930 (breaks_2930 dbg).
Proof.
  apply exact_intro; [apply e2930_sound|intros; eapply e2930_complete; eassumption|].
  intros x S (T & [J|(b & y & af & C & St & L & B)]); unfold decode_transaction_eip_2930; rewrite T.
  - rewrite (jams_items dbg x S T J). reflexivity.
  - rewrite (items_ok dbg x _ S T C). rewrite rbind_ok. pose proof (chunks_small _ _ C (proj1 S) (proj2 S)) as Sd. clear C. unfold starts in St.
    start_items St Sd. destruct af as [|a0 [|a1 [|a2 [|]]]]; cbn [length] in L; try lia. cbn [app].
    rdm chain_exact. rdm nonce_exact. rdm wei_exact. rdm u64_exact. rdm address_exact. rdm wei_exact. rdm bytes_exact.
    inversion Sd as [|? ? Sy _]; subst. destruct (al_exact dbg y Sy) as (_ & _ & P). apply P in B. rewrite B. reflexivity.
Qed.

Lemma e1559_sound dbg x : small x ->
  (exists a i, decode_transaction_eip_1559 dbg x = Ret (Ok a) /\ node i x /\ means_1559 i a) \/
  decode_transaction_eip_1559 dbg x = Ret (Err InvalidFormat) \/ (decode_transaction_eip_1559 dbg x = Panic /\ breaks_1559 dbg x).
Proof.
  intros S. unfold decode_transaction_eip_1559. destruct (fst x) eqn:T; [auto|].
  pose proof (items_exact dbg x S) as IO. destruct IO as [T'|ds _ C Sd|_ NC NJ|_ J NC]; [congruence|rewrite rbind_ok|right; left; reflexivity|right; right; split; [reflexivity|split; auto]].
  destruct ds as [|d0 [|d1 [|d2 [|d3 [|d4 [|d5 [|d6 [|d7 [|d8 [|d9 [|d10 [|d11 [|d12 ds]]]]]]]]]]]]]; try (right; left; reflexivity).
  cbv beta iota. smalls Sd.
  rd chain_exact c i0 K0 M0. rd nonce_exact n i1 K1 M1. rd wei_exact mp i2 K2 M2. rd wei_exact mf i3 K3 M3. rd u64_exact l i4 K4 M4. rd address_exact a i5 K5 M5. rd wei_exact v i6 K6 M6.
  rd bytes_exact dt i7 K7 M7.
  match goal with Sm : small d8 |- _ => destruct (al_exact dbg d8 Sm) as ([(al & i8 & -> & K8 & M8)|[->|EP]] & _ & P) end.
  - rewrite rbind_ok. cbv beta zeta. rewrite build_1559. cbn [map_err]. rewrite rbind_ok.
    match goal with Sm : small d8 |- _ => clear Sm end.
    rd u64_exact yy i9 K9 M9. unfold u8_try_from. destruct (Z.ltb_spec yy 256) as [Hv|]; [|auto].
    destruct (y_parity_from_u8 yy) as [y|] eqn:Y; [|auto].
    assert (yy = parity y) by (unfold y_parity_from_u8 in Y; destruct (Z.eqb_spec yy 0); [injection Y as <-; assumption|destruct (Z.eqb_spec yy 1); [injection Y as <-; assumption|discriminate]]). subst yy.
    rd big_exact r i10 K10 M10. rd big_exact s i11 K11 M11.
    left. eexists _, (Lst [i0; i1; i2; i3; i4; i5; i6; i7; i8; i9; i10; i11]). split; [reflexivity|]. split.
    + eapply node_list; [exact S|exact T|exact C|]. repeat (constructor; [assumption|]). constructor.
    + exists i0, i1, i2, i3, i4, i5, i6, i7, i8, i9, i10, i11. cbn [t1559_payload p1559_chain_id p1559_nonce p1559_max_priority_fee_per_gas p1559_max_fee_per_gas p1559_gas_limit p1559_destination p1559_amount p1559_data p1559_access_list t1559_y_parity t1559_r t1559_s]. tauto.
  - right. left. reflexivity.
  - right. right. rewrite EP. split; [reflexivity|]. split; [exact T|]. right.
    exists [d0; d1; d2; d3; d4; d5; d6; d7], d8, [d9; d10; d11]. split; [exact C|]. split; [|split; [reflexivity|now apply P]].
    unfold starts. repeat (constructor; [eexists _, _; split; [apply chunk_tree_node; eassumption|eassumption]|]). constructor.
Qed.
Lemma e1559_complete dbg x i t : small x -> node i x -> means_1559 i t ->
  exists t', decode_transaction_eip_1559 dbg x = Ret (Ok t') /\ tx_same_1559 t t'.
Proof.
  intros S N (i0 & i1 & i2 & i3 & i4 & i5 & i6 & i7 & i8 & i9 & i10 & i11 & -> & M0 & M1 & M2 & M3 & M4 & M5 & M6 & M7 & M8 & M9 & M10 & M11).
  unfold decode_transaction_eip_1559. dec_start dbg x S N. kids F Sd.
  rd1 chain_exact M0 c Qc. rd1 nonce_exact M1 n Qn. rd1 wei_exact M2 mp Qmp. rd1 wei_exact M3 mf Qmf. rd1 u64_exact M4 l Ql. rd1 address_exact M5 a Qa. rd1 wei_exact M6 v Qv. rd1 bytes_exact M7 d Qd.
  rd1 (al_exact dbg) M8 al Qal. rewrite build_1559. cbn [map_err]. rewrite rbind_ok. rd1 u64_exact M9 yy Qyy. subst yy.
  assert (U : u8_try_from (parity (t1559_y_parity t)) = Some (parity (t1559_y_parity t))) by (destruct (t1559_y_parity t); reflexivity).
  assert (Y : y_parity_from_u8 (parity (t1559_y_parity t)) = Some (t1559_y_parity t)) by (destruct (t1559_y_parity t); reflexivity).
  rewrite U, Y. rd1 big_exact M10 r Qr. rd1 big_exact M11 s Qs.
  eexists. split; [reflexivity|]. unfold tx_same_1559, payload_same_1559. cbn. tauto.
Qed.
Lemma e1559_exact dbg : exact (decode_transaction_eip_1559 dbg) means_1559 tx_same_1559 (breaks_1559 dbg).
Proof.
  apply exact_intro; [apply e1559_sound|intros; eapply e1559_complete; eassumption|].
  intros x S (T & [J|(b & y & af & C & St & L & B)]); unfold decode_transaction_eip_1559; rewrite T.
  - rewrite (jams_items dbg x S T J). reflexivity.
  - rewrite (items_ok dbg x _ S T C). rewrite rbind_ok. pose proof (chunks_small _ _ C (proj1 S) (proj2 S)) as Sd. clear C. unfold starts in St.
    start_items St Sd. destruct af as [|a0 [|a1 [|a2 [|]]]]; cbn [length] in L; try lia. cbn [app].
    rdm chain_exact. rdm nonce_exact. rdm wei_exact. rdm wei_exact. rdm u64_exact. rdm address_exact. rdm wei_exact. rdm bytes_exact.
    inversion Sd as [|? ? Sy _]; subst. destruct (al_exact dbg y Sy) as (_ & _ & P). apply P in B. rewrite B. reflexivity.
Qed.
End WithCfg.

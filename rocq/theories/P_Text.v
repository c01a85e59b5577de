(** Proofs for C74: texts are printable. *)

From Coq Require Import String Ascii ZifyBool.
From Verif Require Import Base M_Parity M_Codec M_BigInt M_BigText M_Rlp M_EthTypes M_Tx M_TxSign M_Display M_Leak
  S_BigInt S_Codec S_EthTypes S_Tx S_Eoa S_Display S_Text.
From Verif Require P_Codec P_EthTypes2 P_Utf8 P_Display P_Leak.
Open Scope Z_scope.
Local Open Scope list_scope.

Definition plainb (t : list Z) : bool := forallb (fun c => (c =? 10) || ((32 <=? c) && (c <=? 126)))%bool t.
Lemma plainb_ok t : plainb t = true -> plain t.
Proof. unfold plainb, plain. rewrite forallb_forall, Forall_forall. intros H c Hc. specialize (H c Hc). lia. Qed.
Lemma plain_app t u : plain (t ++ u) <-> plain t /\ plain u.
Proof. apply Forall_app. Qed.
Lemma plain_utf8 t : plain t -> UTF8 t /\ utf8_valid t = true.
Proof.
  intros H. assert (U : UTF8 t).
  { exists t. induction H as [|c t Hc Ht [IH1 IH2]]; [split; [constructor|reflexivity]|]. split.
    - constructor; [unfold scalar; lia|exact IH1].
    - cbn [flat_map]. rewrite <- IH2. unfold utf8_form. destruct (Z.ltb_spec c 0x80) as [L|L]; [reflexivity|exfalso; clear - Hc L; cbv beta in Hc; lia]. }
  split; [exact U|]. apply P_Utf8.utf8_valid_iff; [|exact U].
  eapply Forall_impl; [|exact H]. cbv beta. intros c Hc. unfold byte. lia.
Qed.
Lemma digit_plain d : 0 <= d < 16 -> 32 <= lower_hex_digit d <= 126.
Proof. intros H. unfold lower_hex_digit. destruct (Z.ltb_spec d 10); lia. Qed.
Lemma digits_plain ds : Forall (fun d => 0 <= d < 16) ds -> plain (map lower_hex_digit ds).
Proof. induction 1 as [|d ds Hd H IH]; cbn; constructor; [right; apply digit_plain; exact Hd|exact IH]. Qed.
Lemma text_plain t vs : digits_of 16 t vs -> plain t.
Proof.
  induction 1 as [|c v t vs [A _] H IH]; constructor; [|exact IH]. right. unfold alnum_value in A.
  destruct ((48 <=? c) && (c <=? 57))%bool eqn:E1; [lia|]. destruct ((65 <=? c) && (c <=? 90))%bool eqn:E2; [lia|].
  destruct ((97 <=? c) && (c <=? 122))%bool eqn:E3; [lia|discriminate].
Qed.
Theorem bytes_plain bs : bytes bs -> plain (bytes_to_lower_hex bs).
Proof. intros H. rewrite (P_Codec.bytes_to_lower_hex_spec bs H). apply digits_plain. exact (P_Codec.nibbles_range bs H). Qed.
Lemma hex_plain bs : bytes bs -> plain (hex bs).
Proof.
  induction 1 as [|b bs [B0 B1] H IH]; [constructor|]. change (hex (b :: bs)) with ([lower_hex_digit (b / 16); lower_hex_digit (b mod 16)] ++ hex bs).
  apply plain_app. split; [|exact IH]. pose proof (Z.mod_pos_bound b 16 ltac:(lia)).
  assert (0 <= b / 16 < 16) by (split; [apply Z.div_pos; lia|apply Z.div_lt_upper_bound; lia]).
  constructor; [right; apply digit_plain; assumption|]. constructor; [right; apply digit_plain; assumption|constructor].
Qed.
Theorem bigint_plain (cfg : digit_cfg) x t : wf x -> bi_to_lower_hex x = Ret t \/ bi_display x = Ret t -> plain t.
Proof.
  intros W H. destruct (P_Codec.bi_to_lower_hex_spec x W) as (bs & B & _ & _ & E).
  assert (P : plain ((if bi_val x <? 0 then [45] else []) ++ bytes_to_lower_hex bs)).
  { apply plain_app. split; [destruct (bi_val x <? 0); apply plainb_ok; reflexivity|apply bytes_plain; exact B]. }
  unfold bi_display in H. rewrite E in H. cbn [obind] in H. destruct H as [[= <-]|[= <-]]; [exact P|].
  apply (plain_app [48; 120]). split; [apply plainb_ok; reflexivity|exact P].
Qed.
Lemma eip55_plain a : address_ok a -> plain (EIP55 a).
Proof. intros H. destruct (P_EthTypes2.EIP55_digits a H) as [D _]. exact (text_plain _ _ D). Qed.
Theorem address_plain be a : address_ok a ->
  exists t, to_checksummed_hex be a = Ret t /\ plain t /\ address_display be a = Ret (48 :: 120 :: t).
Proof.
  intros H. exists (EIP55 a). split; [exact (P_EthTypes2.checksum_spec be a H)|]. split; [exact (eip55_plain a H)|exact (P_EthTypes2.address_display_spec be a H)].
Qed.

(** * Payloads and transactions *)
Section WithCfg.
Context {cfg : digit_cfg}.
Lemma access_plain l : ok TAccessList l -> plain (access_text l).
Proof.
  intros H. unfold access_text. apply plain_app. split; [apply plainb_ok; reflexivity|]. apply plain_app. split; [apply plainb_ok; reflexivity|].
  apply plain_app. split; [|apply plainb_ok; reflexivity].
  cbn [ok] in H. induction H as [|i l [Ha Hk] _ IH]; [constructor|]. cbn [flat_map]. apply plain_app. split; [|exact IH].
  apply plain_app. split; [apply plainb_ok; reflexivity|]. apply plain_app. split; [exact (eip55_plain _ Ha)|].
  do 4 (apply plain_app; split; [apply plainb_ok; reflexivity|]).
  apply plain_app. split; [|apply plainb_ok; reflexivity].
  induction Hk as [|k ks [Hb _] _ IHk]; [constructor|]. cbn [flat_map]. apply plain_app. split; [|exact IHk].
  apply plain_app. split; [apply plainb_ok; reflexivity|]. apply plain_app. split; [exact (hex_plain k Hb)|apply plainb_ok; reflexivity].
Qed.
Definition shown_ok (v : shown) : Prop :=
  match v with Data bs => bytes bs | Addr a => address_ok a | Access l => ok TAccessList l | _ => True end.
Lemma numeral_plain r t n : r <= 16 -> numeral r t n -> plain t.
Proof. intros Hr (ds & -> & _ & H & _). apply digits_plain. eapply Forall_impl; [|exact H]. cbn. lia. Qed.
Lemma shows_plain v t : shown_ok v -> shows v t -> plain t.
Proof.
  intros K. destruct v as [n|n|bs|a|l|n|y]; cbn [shows shown_ok] in *.
  - intros (h & -> & N & _). apply plain_app. split; [apply plainb_ok; reflexivity|exact (numeral_plain 16 h n ltac:(lia) N)].
  - intros (h & -> & N & _). apply plain_app. split; [apply plainb_ok; reflexivity|exact (numeral_plain 16 h n ltac:(lia) N)].
  - intros ->. apply plain_app. split; [apply plainb_ok; reflexivity|exact (hex_plain bs K)].
  - intros ->. apply plain_app. split; [apply plainb_ok; reflexivity|exact (eip55_plain a K)].
  - intros ->. exact (access_plain l K).
  - intros (h & d & -> & N & N' & _). apply plain_app. split; [apply plainb_ok; reflexivity|].
    apply plain_app. split; [exact (numeral_plain 16 h n ltac:(lia) N)|]. apply plain_app. split; [apply plainb_ok; reflexivity|].
    apply plain_app. split; [exact (numeral_plain 10 d n ltac:(lia) N')|apply plainb_ok; reflexivity].
  - intros ->. destruct y; apply plainb_ok; reflexivity.
Qed.
Lemma fields_plain fs : Forall (fun f => plain (ascii (fst f)) /\ shown_ok (snd f)) fs -> forall t, shows_fields fs t -> plain t.
Proof.
  induction 1 as [|[label v] fs [L K] H IH]; intros t; cbn [shows_fields].
  - intros ->. constructor.
  - intros (x & rest & -> & S & R). cbn [fst snd] in *. apply plain_app. split; [exact L|]. apply plain_app. split; [apply plainb_ok; reflexivity|].
    apply plain_app. split; [exact (shows_plain v x K S)|]. apply plain_app. split; [apply plainb_ok; reflexivity|exact (IH rest R)].
Qed.
Lemma payload_fields_ok p : payload_ok p -> Forall (fun f => plain (ascii (fst f)) /\ shown_ok (snd f)) (fields_of p).
Proof.
  destruct p as [p|p|p|p]; cbn [payload_ok fields_of]; [unfold payload_ok_legacy|unfold payload_ok_155|unfold payload_ok_2930|unfold payload_ok_1559];
    intros H; repeat match type of H with _ /\ _ => let H1 := fresh in destruct H as [H1 H] end;
    repeat (apply Forall_cons; [split; [apply plainb_ok; reflexivity|cbn [snd shown_ok]; try exact I; assumption]|]); apply Forall_nil.
Qed.
Lemma signature_fields_ok t : Forall (fun f => plain (ascii (fst f)) /\ shown_ok (snd f)) (signature_fields_of t).
Proof. destruct t; cbn [signature_fields_of]; repeat (apply Forall_cons; [split; [apply plainb_ok; reflexivity|exact I]|]); apply Forall_nil. Qed.
Theorem payload_plain be p t : payload_ok p -> payload_display be p = Ret t -> plain t.
Proof.
  intros H E. destruct (P_Display.payload_shows be p H) as (t' & E' & S). rewrite E in E'. injection E' as <-.
  exact (fields_plain _ (payload_fields_ok p H) t S).
Qed.
Theorem transaction_plain be t x : tx_ok t -> transaction_display be t = Ret x -> plain x.
Proof.
  intros H E. destruct (P_Display.transaction_shows be t H) as (x' & E' & pt & st & P & S & X). rewrite E in E'. injection E' as <-. subst x.
  assert (PO : payload_ok (tx_payload t)) by (destruct t; cbn in *; apply H).
  apply plain_app. split; [destruct t; apply plainb_ok; reflexivity|]. apply plain_app. split; [apply plainb_ok; reflexivity|].
  apply plain_app. split; [apply plainb_ok; reflexivity|]. apply plain_app. split; [exact (fields_plain _ (payload_fields_ok _ PO) pt P)|].
  apply plain_app. split; [apply plainb_ok; reflexivity|]. apply plain_app. split; [apply plainb_ok; reflexivity|].
  exact (fields_plain _ (signature_fields_ok t) st S).
Qed.
End WithCfg.

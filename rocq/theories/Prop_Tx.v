(** Properties C47, C48, C51: transactions and the transaction builder.

    The formats ([tx_item_legacy], ...) and the account of the builder ([held]) are in
    S_Tx.v. *)

From Verif Require Import Base M_BigInt M_Rlp M_EthTypes M_Tx S_BigInt S_Rlp S_EthTypes S_Tx.
From Verif Require Import P_BigProp P_Tx.
Open Scope Z_scope.

(** one-digit integers, for both digit sizes *)
Definition int1 (n : Z) : bigint := mkBig [n] 1 Positive.
Lemma int1_ok (cfg : digit_cfg) n : 0 <= n < 256 -> big_ok (int1 n).
Proof.
  intros H. split; [|cbn; lia]. apply wf_b_ok. unfold wf_b. cbn. destruct cfg; cbn; rewrite !andb_true_r; (apply andb_true_iff; split; [apply Z.leb_le|apply Z.ltb_lt]); unfold digit_base; cbn; lia.
Qed.
Definition access1 : AccessList := [{| ali_address := repeat 9 20; ali_storage_keys := [repeat 1 32; repeat 2 32] |}].

(** * C47

    A signed legacy, EIP-2930 or EIP-1559 transaction is encoded as the RLP of the items
    the respective document lists (after the type byte for the last two), and decoding
    that RLP gives back a transaction with the same fields. *)
Theorem C47_legacy_roundtrip : forall (cfg : digit_cfg) dbg t s,
  tx_ok_legacy t -> RLP (tx_item_legacy t) = Some s -> Z.of_nat (length s) < 2 ^ 63 ->
  encode encode_transaction_legacy t = Ret s /\
  exists t', decode dbg (decode_transaction_legacy dbg) s = Ret (Ok t') /\ tx_same_legacy t t'.
Proof. exact @tx_legacy_roundtrip. Qed.
Print Assumptions C47_legacy_roundtrip.

Theorem C47_eip_2930_roundtrip : forall (cfg : digit_cfg) dbg t s,
  tx_ok_2930 t -> RLP (tx_item_2930 t) = Some s -> Z.of_nat (length s) < 2 ^ 63 ->
  transaction_eip_2930_encode t = Ret (1 :: s) /\ encode encode_transaction_eip_2930 t = Ret s /\
  exists t', decode dbg (decode_transaction_eip_2930 dbg) s = Ret (Ok t') /\ tx_same_2930 t t'.
Proof. exact @tx_2930_roundtrip. Qed.
Print Assumptions C47_eip_2930_roundtrip.

Theorem C47_eip_1559_roundtrip : forall (cfg : digit_cfg) dbg t s,
  tx_ok_1559 t -> RLP (tx_item_1559 t) = Some s -> Z.of_nat (length s) < 2 ^ 63 ->
  transaction_eip_1559_encode t = Ret (2 :: s) /\ encode encode_transaction_eip_1559 t = Ret s /\
  exists t', decode dbg (decode_transaction_eip_1559 dbg) s = Ret (Ok t') /\ tx_same_1559 t t'.
Proof. exact @tx_1559_roundtrip. Qed.
Print Assumptions C47_eip_1559_roundtrip.

Definition tx_legacy1 : TransactionLegacy :=
  {| tl_payload := {| pl_nonce := 42; pl_gas_price := int1 66; pl_gas_limit := 21000; pl_destination := repeat 7 20;
                      pl_amount := int1 0; pl_data := [1; 2; 3] |};
     tl_v := 28; tl_r := int1 5; tl_s := int1 200 |}.
Definition tx_1559_1 : TransactionEip1559 :=
  {| t1559_payload := {| p1559_chain_id := int1 5; p1559_nonce := 0; p1559_max_priority_fee_per_gas := int1 66;
                         p1559_max_fee_per_gas := int1 67; p1559_gas_limit := 21000; p1559_destination := repeat 7 20;
                         p1559_amount := int1 0; p1559_data := []; p1559_access_list := access1 |};
     t1559_y_parity := Odd; t1559_r := int1 5; t1559_s := int1 200 |}.
Definition tx_2930_1 : TransactionEip2930 :=
  {| t2930_payload := {| p2930_chain_id := int1 5; p2930_nonce := 0; p2930_gas_price := int1 66; p2930_gas_limit := 21000;
                         p2930_destination := repeat 7 20; p2930_amount := int1 0; p2930_data := []; p2930_access_list := access1 |};
     t2930_y_parity := Odd; t2930_r := int1 5; t2930_s := int1 200 |}.
Ltac fields := repeat match goal with |- _ /\ _ => split | |- big_ok _ => apply int1_ok; lia | |- address_ok _ => split
  | |- nonce_ok _ => red | |- u64_ok _ => red end; cbn; try lia; repeat constructor; unfold byte; cbn; try lia.
Example C47_witness : forall cfg : digit_cfg,
  tx_ok_legacy tx_legacy1 /\ tx_ok_2930 tx_2930_1 /\ tx_ok_1559 tx_1559_1 /\
  (exists s, RLP (tx_item_legacy tx_legacy1) = Some s /\ length s = 36%nat) /\
  (exists s, RLP (tx_item_2930 tx_2930_1) = Some s /\ (length s < 200)%nat) /\
  (exists s, RLP (tx_item_1559 tx_1559_1) = Some s /\ (length s < 200)%nat).
Proof.
  intros cfg. split; [unfold tx_ok_legacy, payload_ok_legacy; fields|]. split; [unfold tx_ok_2930, payload_ok_2930; fields|].
  split; [unfold tx_ok_1559, payload_ok_1559; fields|]. destruct cfg; repeat apply conj; eexists; (split; [vm_compute; reflexivity|first [reflexivity|cbn; lia]]).
Qed.

(** * C48

    Refuted: an EIP-155 transaction signed for chain 1 decodes as one of chain 0. *)
Definition tx_155_1 : TransactionEip155 :=
  {| t155_payload := {| p155_chain_id := int1 1; p155_nonce := 9; p155_gas_price := int1 66; p155_gas_limit := 21000;
                        p155_destination := repeat 7 20; p155_amount := int1 1; p155_data := [] |};
     t155_v := int1 37; t155_r := int1 5; t155_s := int1 200 |}.
Theorem C48_chain_id_refuted : forall (cfg : digit_cfg) dbg, exists t s t',
  tx_ok_155 t /\ bi_val (t155_v t) = 35 + 2 * bi_val (p155_chain_id (t155_payload t)) + parity Even /\
  encode encode_transaction_eip_155 t = Ret s /\
  decode dbg (decode_transaction_eip_155 dbg) s = Ret (Ok t') /\
  bi_val (p155_chain_id (t155_payload t)) = 1 /\ bi_val (p155_chain_id (t155_payload t')) = 0.
Proof.
  intros cfg dbg. exists tx_155_1.
  assert (K : tx_ok_155 tx_155_1) by (unfold tx_ok_155, payload_ok_155; fields).
  assert (R : exists s, RLP (tx_item_155 tx_155_1) = Some s /\ (length s < 100)%nat) by (destruct cfg; eexists; (split; [vm_compute; reflexivity|cbn; lia])).
  destruct R as (s & R & L). exists s.
  destruct (tx_155_decode dbg _ s K R ltac:(lia)) as [E _].
  destruct (tx_155_chain dbg _ s Even K R ltac:(lia) ltac:(destruct cfg; reflexivity)) as (t' & D & _ & _ & V).
  exists t'. split; [exact K|]. split; [destruct cfg; reflexivity|]. split; [exact E|]. split; [exact D|]. split; [destruct cfg; reflexivity|]. rewrite V. destruct cfg; reflexivity.
Qed.
Print Assumptions C48_chain_id_refuted.

(** What does hold: every other field survives, and the chain id comes out halved (so it
    is right only for chain 0).  Missing from C48: the chain id. *)
Theorem C48_other_fields_partial : forall (cfg : digit_cfg) dbg t s y,
  tx_ok_155 t -> RLP (tx_item_155 t) = Some s -> Z.of_nat (length s) < 2 ^ 63 ->
  bi_val (t155_v t) = 35 + 2 * bi_val (p155_chain_id (t155_payload t)) + parity y ->
  exists t', decode dbg (decode_transaction_eip_155 dbg) s = Ret (Ok t') /\ tx_same_but_chain_155 t t' /\
    wf (p155_chain_id (t155_payload t')) /\
    bi_val (p155_chain_id (t155_payload t')) = bi_val (p155_chain_id (t155_payload t)) / 2.
Proof. exact @tx_155_chain. Qed.
Print Assumptions C48_other_fields_partial.

(** The encoding is the one of EIP-155, and a transaction whose v is below 35 is refused. *)
Theorem C48_legacy_v_refused : forall (cfg : digit_cfg) dbg t s,
  tx_ok_155 t -> RLP (tx_item_155 t) = Some s -> Z.of_nat (length s) < 2 ^ 63 ->
  encode encode_transaction_eip_155 t = Ret s /\
  (bi_val (t155_v t) < 35 -> decode dbg (decode_transaction_eip_155 dbg) s = Ret (Err TransactionTypeMismatch)) /\
  (35 <= bi_val (t155_v t) -> exists t', decode dbg (decode_transaction_eip_155 dbg) s = Ret (Ok t')).
Proof. exact @tx_155_v. Qed.
Print Assumptions C48_legacy_v_refused.

(** * C51

    After any history of calls on a new builder, building kind [k] succeeds exactly when
    every required field holds a value; the payload has in each field the value held,
    or the empty default; otherwise MissingFields is returned and the builder is left as
    it was.  What the fields hold after a build is given by [held] again, since the
    history is arbitrary. *)
Theorem C51_build : forall k h,
  if complete k (rev h) then
    exists p, fst (take_and_build k (builder_after h)) = Ok p /\ kind_of p = k /\
      forall f, payload_field p f =
        if has (required k) f then held (rev h) f
        else if has (optional k) f then match held (rev h) f with Some v => Some v | None => default f end
        else None
  else take_and_build k (builder_after h) = (Err MissingFields, builder_after h).
Proof. exact build_after. Qed.
Print Assumptions C51_build.

(** A build right after a successful one fails, whatever the two kinds. *)
Theorem C51_second_build_fails : forall k k' h p,
  fst (take_and_build k (builder_after h)) = Ok p ->
  fst (take_and_build k' (builder_after (h ++ [Build k]))) = Err MissingFields.
Proof. exact second_build. Qed.
Print Assumptions C51_second_build_fails.

(** the nonce is set twice, a build fails, then succeeds once the amount is there *)
Definition calls1 : list builder_call :=
  [SetNonce 1; SetGasPrice (int1 5); SetChainId (int1 1); SetNonce 2; SetGasLimit 21000; SetDestination (repeat 7 20); Build KLegacy; SetAmount (int1 3)].
Example C51_witness : complete KLegacy (rev calls1) = true /\ complete K155 (rev calls1) = true /\ complete K1559 (rev calls1) = false /\
  exists p, fst (take_and_build KLegacy (builder_after calls1)) = Ok (PLegacy p) /\ pl_nonce p = 2 /\ pl_data p = [].
Proof. repeat split. eexists. repeat split. Qed.

(** The lemmas of P_RlpRead*.v as the properties use them, and examples. *)

From Verif Require Import Base M_Parity M_BigInt M_Rlp M_EthTypes M_Tx S_BigInt S_Rlp S_EthTypes S_Tx S_RlpRead.
From Verif Require Import P_Utf8 P_RlpRead P_RlpRead2 P_RlpNorm.
Open Scope Z_scope.

Section WithCfg.
Context {cfg : digit_cfg}.
Ltac exactly lem := intros Hb Hl; match goal with |- context [decode ?dbg _ ?data] =>
  pose proof (decode_exact dbg _ _ _ _ data lem Hb Hl); tauto end.
Lemma typed_accepted dbg t data : bytes data -> Z.of_nat (length data) < 2 ^ 63 ->
  (forall v, decode dbg (dec dbg t) data = Ret (Ok v) -> exists i, lax_rlp i data /\ means t i v) /\
  (forall i v, lax_rlp i data -> means t i v -> exists v', decode dbg (dec dbg t) data = Ret (Ok v') /\ same t v v').
Proof. exactly (type_exact dbg t). Qed.
Lemma typed_panics dbg t data : bytes data -> Z.of_nat (length data) < 2 ^ 63 ->
  (decode dbg (dec dbg t) data = Panic <-> data_breaks dbg (breaks dbg t) data) /\
  ((exists v, decode dbg (dec dbg t) data = Ret (Ok v)) \/ decode dbg (dec dbg t) data = Ret (Err InvalidFormat) \/
   decode dbg (dec dbg t) data = Panic).
Proof. exactly (type_exact dbg t). Qed.
Lemma legacy_accepted dbg data : bytes data -> Z.of_nat (length data) < 2 ^ 63 ->
  (forall t, decode dbg (decode_transaction_legacy dbg) data = Ret (Ok t) -> exists i, lax_rlp i data /\ means_legacy i t) /\
  (forall i t, lax_rlp i data -> means_legacy i t ->
    exists t', decode dbg (decode_transaction_legacy dbg) data = Ret (Ok t') /\ tx_same_legacy t t').
Proof. exactly (legacy_exact dbg). Qed.
Lemma legacy_panics dbg data : bytes data -> Z.of_nat (length data) < 2 ^ 63 ->
  (decode dbg (decode_transaction_legacy dbg) data = Panic <-> data_breaks dbg flat_breaks data) /\
  ((exists t, decode dbg (decode_transaction_legacy dbg) data = Ret (Ok t)) \/
   decode dbg (decode_transaction_legacy dbg) data = Ret (Err InvalidFormat) \/ decode dbg (decode_transaction_legacy dbg) data = Panic).
Proof. exactly (legacy_exact dbg). Qed.
Lemma e2930_accepted dbg data : bytes data -> Z.of_nat (length data) < 2 ^ 63 ->
  (forall t, decode dbg (decode_transaction_eip_2930 dbg) data = Ret (Ok t) -> exists i, lax_rlp i data /\ means_2930 i t) /\
  (forall i t, lax_rlp i data -> means_2930 i t ->
    exists t', decode dbg (decode_transaction_eip_2930 dbg) data = Ret (Ok t') /\ tx_same_2930 t t').
Proof. exactly (e2930_exact dbg). Qed.
Lemma e2930_panics dbg data : bytes data -> Z.of_nat (length data) < 2 ^ 63 ->
  (decode dbg (decode_transaction_eip_2930 dbg) data = Panic <-> data_breaks dbg (breaks_2930 dbg) data) /\
  ((exists t, decode dbg (decode_transaction_eip_2930 dbg) data = Ret (Ok t)) \/
   decode dbg (decode_transaction_eip_2930 dbg) data = Ret (Err InvalidFormat) \/ decode dbg (decode_transaction_eip_2930 dbg) data = Panic).
Proof. exactly (e2930_exact dbg). Qed.
Lemma e1559_accepted dbg data : bytes data -> Z.of_nat (length data) < 2 ^ 63 ->
  (forall t, decode dbg (decode_transaction_eip_1559 dbg) data = Ret (Ok t) -> exists i, lax_rlp i data /\ means_1559 i t) /\
  (forall i t, lax_rlp i data -> means_1559 i t ->
    exists t', decode dbg (decode_transaction_eip_1559 dbg) data = Ret (Ok t') /\ tx_same_1559 t t').
Proof. exactly (e1559_exact dbg). Qed.
Lemma e1559_panics dbg data : bytes data -> Z.of_nat (length data) < 2 ^ 63 ->
  (decode dbg (decode_transaction_eip_1559 dbg) data = Panic <-> data_breaks dbg (breaks_1559 dbg) data) /\
  ((exists t, decode dbg (decode_transaction_eip_1559 dbg) data = Ret (Ok t)) \/
   decode dbg (decode_transaction_eip_1559 dbg) data = Ret (Err InvalidFormat) \/ decode dbg (decode_transaction_eip_1559 dbg) data = Panic).
Proof. exactly (e1559_exact dbg). Qed.
Lemma tx155_accepted dbg data : bytes data -> Z.of_nat (length data) < 2 ^ 63 ->
  (forall t, decode dbg (decode_transaction_eip_155 dbg) data = Ret (Ok t) -> exists i, lax_rlp i data /\ means_155 i t) /\
  (forall i t, lax_rlp i data -> means_155 i t ->
    exists t', decode dbg (decode_transaction_eip_155 dbg) data = Ret (Ok t') /\ tx_same_155 t t') /\
  (decode dbg (decode_transaction_eip_155 dbg) data = Ret (Err TransactionTypeMismatch) <->
    exists i t, lax_rlp i data /\ means_155_fields i t /\ bi_val (t155_v t) < 35).
Proof. intros Hb Hl. pose proof (tx155_decode dbg data Hb Hl). tauto. Qed.
Lemma tx155_panics dbg data : bytes data -> Z.of_nat (length data) < 2 ^ 63 ->
  (decode dbg (decode_transaction_eip_155 dbg) data = Panic <-> data_breaks dbg flat_breaks data) /\
  ((exists t, decode dbg (decode_transaction_eip_155 dbg) data = Ret (Ok t)) \/
   (exists e, decode dbg (decode_transaction_eip_155 dbg) data = Ret (Err e) /\ (e = InvalidFormat \/ e = TransactionTypeMismatch)) \/
   decode dbg (decode_transaction_eip_155 dbg) data = Panic).
Proof. intros Hb Hl. pose proof (tx155_decode dbg data Hb Hl). tauto. Qed.
End WithCfg.

(** ** Examples *)
Definition raw_legacy (v : Z) : list Z :=
  [0xf8; 37; 0x82; 0; 42; 66; 0x82; 0x52; 0x08; 0x94] ++ repeat 7 20 ++ [0x80; 0x83; 1; 2; 3; v; 5; 0x81; 200].
Lemma accepted_examples (cfg : digit_cfg) dbg :
  (exists t, decode dbg (decode_transaction_legacy dbg) (raw_legacy 28) = Ret (Ok t) /\ pl_nonce (tl_payload t) = 42 /\ tl_v t = 28 /\ bi_val (tl_s t) = 200) /\
  decode dbg (decode_transaction_eip_155 dbg) (raw_legacy 28) = Ret (Err TransactionTypeMismatch) /\
  (exists t, decode dbg (decode_transaction_legacy dbg) (raw_legacy 37) = Ret (Ok t) /\ tl_v t = 37) /\
  (exists t, decode dbg (decode_transaction_eip_155 dbg) (raw_legacy 37) = Ret (Ok t) /\ p155_nonce (t155_payload t) = 42) /\
  decode dbg (dec dbg TString) [0x82; 0xc3; 0xa9] = Ret (Ok [0xc3; 0xa9]) /\ UTF8 [0xc3; 0xa9] /\
  decode dbg (dec dbg TString) [0x82; 0xc0; 0x80] = Ret (Err InvalidFormat).
Proof.
  assert (U : UTF8 [0xc3; 0xa9]) by (exists [0xe9]; split; [repeat constructor; unfold scalar; lia|reflexivity]).
  destruct cfg, dbg.
  all: split; [eexists; split; [vm_compute; reflexivity|repeat split]|].
  all: split; [vm_compute; reflexivity|].
  all: split; [eexists; split; [vm_compute; reflexivity|reflexivity]|].
  all: split; [eexists; split; [vm_compute; reflexivity|reflexivity]|].
  all: split; [vm_compute; reflexivity|]; split; [exact U|vm_compute; reflexivity].
Qed.
Lemma normal_examples (cfg : digit_cfg) dbg : length (raw_legacy 28) = 39%nat /\ bytes (raw_legacy 28) /\
  exists t s, decode dbg (decode_transaction_legacy dbg) (raw_legacy 28) = Ret (Ok t) /\ encode encode_transaction_legacy t = Ret s /\ length s = 36%nat.
Proof.
  split; [reflexivity|]. split; [unfold raw_legacy; cbn [repeat app]; repeat constructor; unfold byte; lia|].
  destruct cfg, dbg; eexists _, _; (split; [vm_compute; reflexivity|split; [vm_compute; reflexivity|reflexivity]]).
Qed.
(** the last field but three is the access list: one entry, with 5 for the keys *)
Definition raw_2930 : list Z :=
  [0xc0 + 54; 1; 0x80; 0x80; 0x80; 0x94] ++ repeat 7 20 ++ [0x80; 0x80; 0xc0 + 23; 0xc0 + 22; 0x94] ++ repeat 9 20 ++ [5; 0x80; 0x80; 0x80].
Lemma panic_examples (cfg : digit_cfg) :
  (forall dbg, decode dbg (decode_transaction_legacy dbg) (0xc9 :: repeat 0xff 9) = Panic) /\
  (forall dbg, decode dbg (dec dbg (TVec Tu64)) (0xc9 :: repeat 0xff 9) = Panic) /\
  decode true (decode_transaction_eip_2930 true) raw_2930 = Panic /\
  decode false (decode_transaction_eip_2930 false) raw_2930 = Ret (Err InvalidFormat).
Proof. destruct cfg; (split; [intros []; vm_compute; reflexivity|split; [intros []; vm_compute; reflexivity|split; vm_compute; reflexivity]]). Qed.

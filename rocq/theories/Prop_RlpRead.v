(** Properties C66-C68: decoding typed RLP and signed transactions from arbitrary bytes.

    What is accepted ([lax_rlp], S_Rlp.v) is RLP with any header of at most eight length
    bytes; [means] (S_RlpRead.v) says which trees are values of a type, leading zeros of
    integers allowed; [RLP] is the Yellow Paper's. *)

From Verif Require Import Base M_Parity M_BigInt M_Rlp M_EthTypes M_Tx S_BigInt S_Rlp S_EthTypes S_Tx S_RlpRead.
From Verif Require Import P_RlpRead P_RlpRead2 P_RlpNorm P_RlpReadEx.
Open Scope Z_scope.

(** * C66

    Exactly which byte strings each decoder accepts and as what: those that are the RLP,
    in the lax sense, of a tree that is a value of the type.  A tree gives a single value,
    up to the representation of integers. *)
Theorem C66_typed : forall (cfg : digit_cfg) dbg t data, bytes data -> Z.of_nat (length data) < 2 ^ 63 ->
  (forall v, decode dbg (dec dbg t) data = Ret (Ok v) -> exists i, lax_rlp i data /\ means t i v) /\
  (forall i v, lax_rlp i data -> means t i v -> exists v', decode dbg (dec dbg t) data = Ret (Ok v') /\ same t v v').
Proof. exact @typed_accepted. Qed.
Print Assumptions C66_typed.

Theorem C66_legacy : forall (cfg : digit_cfg) dbg data, bytes data -> Z.of_nat (length data) < 2 ^ 63 ->
  (forall t, decode dbg (decode_transaction_legacy dbg) data = Ret (Ok t) -> exists i, lax_rlp i data /\ means_legacy i t) /\
  (forall i t, lax_rlp i data -> means_legacy i t ->
    exists t', decode dbg (decode_transaction_legacy dbg) data = Ret (Ok t') /\ tx_same_legacy t t').
Proof. exact @legacy_accepted. Qed.
Print Assumptions C66_legacy.

Theorem C66_eip_155 : forall (cfg : digit_cfg) dbg data, bytes data -> Z.of_nat (length data) < 2 ^ 63 ->
  (forall t, decode dbg (decode_transaction_eip_155 dbg) data = Ret (Ok t) -> exists i, lax_rlp i data /\ means_155 i t) /\
  (forall i t, lax_rlp i data -> means_155 i t ->
    exists t', decode dbg (decode_transaction_eip_155 dbg) data = Ret (Ok t') /\ tx_same_155 t t') /\
  (decode dbg (decode_transaction_eip_155 dbg) data = Ret (Err TransactionTypeMismatch) <->
    exists i t, lax_rlp i data /\ means_155_fields i t /\ bi_val (t155_v t) < 35).
Proof. exact @tx155_accepted. Qed.
Print Assumptions C66_eip_155.

Theorem C66_eip_2930 : forall (cfg : digit_cfg) dbg data, bytes data -> Z.of_nat (length data) < 2 ^ 63 ->
  (forall t, decode dbg (decode_transaction_eip_2930 dbg) data = Ret (Ok t) -> exists i, lax_rlp i data /\ means_2930 i t) /\
  (forall i t, lax_rlp i data -> means_2930 i t ->
    exists t', decode dbg (decode_transaction_eip_2930 dbg) data = Ret (Ok t') /\ tx_same_2930 t t').
Proof. exact @e2930_accepted. Qed.
Print Assumptions C66_eip_2930.

Theorem C66_eip_1559 : forall (cfg : digit_cfg) dbg data, bytes data -> Z.of_nat (length data) < 2 ^ 63 ->
  (forall t, decode dbg (decode_transaction_eip_1559 dbg) data = Ret (Ok t) -> exists i, lax_rlp i data /\ means_1559 i t) /\
  (forall i t, lax_rlp i data -> means_1559 i t ->
    exists t', decode dbg (decode_transaction_eip_1559 dbg) data = Ret (Ok t') /\ tx_same_1559 t t').
Proof. exact @e1559_accepted. Qed.
Print Assumptions C66_eip_1559.

(** a legacy transaction with a nonce of two bytes and a header that is not the shortest
    one is accepted; with v = 37 in it, both the legacy and the EIP-155 decoder accept it;
    strings are checked to be UTF-8 *)
Example C66_witness : forall (cfg : digit_cfg) dbg,
  (exists t, decode dbg (decode_transaction_legacy dbg) (raw_legacy 28) = Ret (Ok t) /\ pl_nonce (tl_payload t) = 42 /\ tl_v t = 28 /\ bi_val (tl_s t) = 200) /\
  decode dbg (decode_transaction_eip_155 dbg) (raw_legacy 28) = Ret (Err TransactionTypeMismatch) /\
  (exists t, decode dbg (decode_transaction_legacy dbg) (raw_legacy 37) = Ret (Ok t) /\ tl_v t = 37) /\
  (exists t, decode dbg (decode_transaction_eip_155 dbg) (raw_legacy 37) = Ret (Ok t) /\ p155_nonce (t155_payload t) = 42) /\
  decode dbg (dec dbg TString) [0x82; 0xc3; 0xa9] = Ret (Ok [0xc3; 0xa9]) /\ UTF8 [0xc3; 0xa9] /\
  decode dbg (dec dbg TString) [0x82; 0xc0; 0x80] = Ret (Err InvalidFormat).
Proof. exact accepted_examples. Qed.

(** * C67

    Decoding and encoding again gives the canonical form: the RLP of the Yellow Paper of
    the decoded value.  It is not longer than the data, decodes to the same value, and is
    the data itself exactly when the data was canonical. *)
Theorem C67_typed : forall (cfg : digit_cfg) dbg t data v, bytes data -> Z.of_nat (length data) < 2 ^ 63 ->
  decode dbg (dec dbg t) data = Ret (Ok v) ->
  ok t v /\ exists s, encode (enc t) v = Ret s /\ RLP (item_of t v) = Some s /\ (length s <= length data)%nat /\
    (exists v', decode dbg (dec dbg t) s = Ret (Ok v') /\ same t v v') /\
    (s = data <-> exists w, ok t w /\ RLP (item_of t w) = Some data).
Proof. exact @typed_normal. Qed.
Print Assumptions C67_typed.

Theorem C67_legacy : forall (cfg : digit_cfg) dbg data t, bytes data -> Z.of_nat (length data) < 2 ^ 63 ->
  decode dbg (decode_transaction_legacy dbg) data = Ret (Ok t) ->
  tx_ok_legacy t /\ exists s, encode encode_transaction_legacy t = Ret s /\ RLP (tx_item_legacy t) = Some s /\ (length s <= length data)%nat /\
    (exists t', decode dbg (decode_transaction_legacy dbg) s = Ret (Ok t') /\ tx_same_legacy t t') /\
    (s = data <-> exists u, tx_ok_legacy u /\ RLP (tx_item_legacy u) = Some data).
Proof. exact @legacy_normal. Qed.
Print Assumptions C67_legacy.

Theorem C67_eip_155 : forall (cfg : digit_cfg) dbg data t, bytes data -> Z.of_nat (length data) < 2 ^ 63 ->
  decode dbg (decode_transaction_eip_155 dbg) data = Ret (Ok t) ->
  tx_ok_155 t /\ exists s, encode encode_transaction_eip_155 t = Ret s /\ RLP (tx_item_155 t) = Some s /\ (length s <= length data)%nat /\
    (exists t', decode dbg (decode_transaction_eip_155 dbg) s = Ret (Ok t') /\ tx_same_155 t t') /\
    (s = data <-> exists u, tx_ok_155 u /\ RLP (tx_item_155 u) = Some data).
Proof. exact @tx155_normal. Qed.
Print Assumptions C67_eip_155.

Theorem C67_eip_2930 : forall (cfg : digit_cfg) dbg data t, bytes data -> Z.of_nat (length data) < 2 ^ 63 ->
  decode dbg (decode_transaction_eip_2930 dbg) data = Ret (Ok t) ->
  tx_ok_2930 t /\ exists s, encode encode_transaction_eip_2930 t = Ret s /\ RLP (tx_item_2930 t) = Some s /\ (length s <= length data)%nat /\
    (exists t', decode dbg (decode_transaction_eip_2930 dbg) s = Ret (Ok t') /\ tx_same_2930 t t') /\
    (s = data <-> exists u, tx_ok_2930 u /\ RLP (tx_item_2930 u) = Some data).
Proof. exact @e2930_normal. Qed.
Print Assumptions C67_eip_2930.

Theorem C67_eip_1559 : forall (cfg : digit_cfg) dbg data t, bytes data -> Z.of_nat (length data) < 2 ^ 63 ->
  decode dbg (decode_transaction_eip_1559 dbg) data = Ret (Ok t) ->
  tx_ok_1559 t /\ exists s, encode encode_transaction_eip_1559 t = Ret s /\ RLP (tx_item_1559 t) = Some s /\ (length s <= length data)%nat /\
    (exists t', decode dbg (decode_transaction_eip_1559 dbg) s = Ret (Ok t') /\ tx_same_1559 t t') /\
    (s = data <-> exists u, tx_ok_1559 u /\ RLP (tx_item_1559 u) = Some data).
Proof. exact @e1559_normal. Qed.
Print Assumptions C67_eip_1559.

(** three bytes of the 39 go: a leading zero and a longer header *)
Example C67_witness : forall (cfg : digit_cfg) dbg, length (raw_legacy 28) = 39%nat /\ bytes (raw_legacy 28) /\
  exists t s, decode dbg (decode_transaction_legacy dbg) (raw_legacy 28) = Ret (Ok t) /\ encode encode_transaction_legacy t = Ret s /\ length s = 36%nat.
Proof. exact normal_examples. Qed.

(** * C68

    Exactly when decoding panics, and that otherwise the outcome is a value or an error.
    Type and tree decoders panic on the outermost header in debug builds only; inside a
    list a header whose length overflows panics in any build ([jams]), unless an item
    before it is refused first; in debug builds a single value where a vector is expected
    panics.  Legacy and EIP-155 transactions have no list inside, the others have the
    access list. *)
Theorem C68_tree : forall dbg data, bytes data -> Z.of_nat (length data) < 2 ^ 63 ->
  (decode dbg (decode_tree dbg (S (length data))) data = Panic <-> data_breaks dbg tree_breaks data).
Proof. exact tree_decode_panic. Qed.
Print Assumptions C68_tree.

Theorem C68_typed : forall (cfg : digit_cfg) dbg t data, bytes data -> Z.of_nat (length data) < 2 ^ 63 ->
  (decode dbg (dec dbg t) data = Panic <-> data_breaks dbg (breaks dbg t) data) /\
  ((exists v, decode dbg (dec dbg t) data = Ret (Ok v)) \/ decode dbg (dec dbg t) data = Ret (Err InvalidFormat) \/
   decode dbg (dec dbg t) data = Panic).
Proof. exact @typed_panics. Qed.
Print Assumptions C68_typed.

Theorem C68_legacy : forall (cfg : digit_cfg) dbg data, bytes data -> Z.of_nat (length data) < 2 ^ 63 ->
  (decode dbg (decode_transaction_legacy dbg) data = Panic <-> data_breaks dbg flat_breaks data) /\
  ((exists t, decode dbg (decode_transaction_legacy dbg) data = Ret (Ok t)) \/
   decode dbg (decode_transaction_legacy dbg) data = Ret (Err InvalidFormat) \/ decode dbg (decode_transaction_legacy dbg) data = Panic).
Proof. exact @legacy_panics. Qed.
Print Assumptions C68_legacy.

Theorem C68_eip_155 : forall (cfg : digit_cfg) dbg data, bytes data -> Z.of_nat (length data) < 2 ^ 63 ->
  (decode dbg (decode_transaction_eip_155 dbg) data = Panic <-> data_breaks dbg flat_breaks data) /\
  ((exists t, decode dbg (decode_transaction_eip_155 dbg) data = Ret (Ok t)) \/
   (exists e, decode dbg (decode_transaction_eip_155 dbg) data = Ret (Err e) /\ (e = InvalidFormat \/ e = TransactionTypeMismatch)) \/
   decode dbg (decode_transaction_eip_155 dbg) data = Panic).
Proof. exact @tx155_panics. Qed.
Print Assumptions C68_eip_155.

Theorem C68_eip_2930 : forall (cfg : digit_cfg) dbg data, bytes data -> Z.of_nat (length data) < 2 ^ 63 ->
  (decode dbg (decode_transaction_eip_2930 dbg) data = Panic <-> data_breaks dbg (breaks_2930 dbg) data) /\
  ((exists t, decode dbg (decode_transaction_eip_2930 dbg) data = Ret (Ok t)) \/
   decode dbg (decode_transaction_eip_2930 dbg) data = Ret (Err InvalidFormat) \/ decode dbg (decode_transaction_eip_2930 dbg) data = Panic).
Proof. exact @e2930_panics. Qed.
Print Assumptions C68_eip_2930.

Theorem C68_eip_1559 : forall (cfg : digit_cfg) dbg data, bytes data -> Z.of_nat (length data) < 2 ^ 63 ->
  (decode dbg (decode_transaction_eip_1559 dbg) data = Panic <-> data_breaks dbg (breaks_1559 dbg) data) /\
  ((exists t, decode dbg (decode_transaction_eip_1559 dbg) data = Ret (Ok t)) \/
   decode dbg (decode_transaction_eip_1559 dbg) data = Ret (Err InvalidFormat) \/ decode dbg (decode_transaction_eip_1559 dbg) data = Panic).
Proof. exact @e1559_panics. Qed.
Print Assumptions C68_eip_1559.

(** a nine-byte list announcing 2^64-1 bytes inside a list panics in both builds; an
    EIP-2930 transaction with a number for the storage keys panics in debug builds *)
Example C68_witness : forall (cfg : digit_cfg),
  (forall dbg, decode dbg (decode_transaction_legacy dbg) (0xc9 :: repeat 0xff 9) = Panic) /\
  (forall dbg, decode dbg (dec dbg (TVec Tu64)) (0xc9 :: repeat 0xff 9) = Panic) /\
  decode true (decode_transaction_eip_2930 true) raw_2930 = Panic /\
  decode false (decode_transaction_eip_2930 false) raw_2930 = Ret (Err InvalidFormat).
Proof. exact panic_examples. Qed.

(** Property C71: what is shown of a transaction; and C09 for amounts.
    Statements only: proofs are in P_Display.v. *)

From Coq Require Import String.
From Verif Require Import Base M_Parity M_BigInt M_BigText M_Rlp M_EthTypes M_Tx M_TxSign M_Display
  S_BigInt S_EthTypes S_Tx S_Eoa S_Display.
From Verif Require P_Display.
Open Scope Z_scope.

(** * C71

    The text of a payload is a line "label: value" for each field, and nothing else. *)
Theorem C71_payload_text : forall (cfg : digit_cfg) be p, payload_ok p ->
  exists t, payload_display be p = Ret t /\ shows_fields (fields_of p) t.
Proof. exact @P_Display.payload_shows. Qed.
Print Assumptions C71_payload_text.
(** That of a transaction: its title, the text of the payload, and the signature. *)
Theorem C71_transaction_text : forall (cfg : digit_cfg) be t, tx_ok t ->
  exists x, transaction_display be t = Ret x /\ shows_transaction t x.
Proof. exact @P_Display.transaction_shows. Qed.
Print Assumptions C71_transaction_text.
(** Payloads have the same text exactly if they are of the same kind and agree in every field ... *)
Theorem C71_payload_determined : forall (cfg : digit_cfg) be be' p q t u, payload_ok p -> payload_ok q ->
  payload_display be p = Ret t -> payload_display be' q = Ret u -> (t = u <-> payload_same p q).
Proof. exact @P_Display.payload_determined. Qed.
Print Assumptions C71_payload_determined.
(** ... which is exactly if the same bytes are signed: what is shown is what is signed. *)
Theorem C71_shown_is_signed : forall (cfg : digit_cfg) be be' p q t u m m', payload_ok p -> payload_ok q ->
  payload_display be p = Ret t -> payload_display be' q = Ret u -> PREIMAGE p = Some m -> PREIMAGE q = Some m' -> (t = u <-> m = m').
Proof. exact @P_Display.shown_is_signed. Qed.
Print Assumptions C71_shown_is_signed.
(** Transactions have the same text exactly if the payloads and the signatures are the same. *)
Theorem C71_transaction_determined : forall (cfg : digit_cfg) be be' t u x y, tx_ok t -> tx_ok u ->
  transaction_display be t = Ret x -> transaction_display be' u = Ret y -> (x = y <-> tx_same t u).
Proof. exact @P_Display.transaction_determined. Qed.
Print Assumptions C71_transaction_determined.
(** The text does not depend on the machine. *)
Theorem C71_portable : forall (cfg cfg' : digit_cfg) be be' p q t u, @payload_ok cfg p -> @payload_ok cfg' q ->
  @payload_display cfg be p = Ret t -> @payload_display cfg' be' q = Ret u -> @fields_of cfg p = @fields_of cfg' q -> t = u.
Proof. exact @P_Display.payload_text_portable. Qed.
Print Assumptions C71_portable.

(** A transaction with an access list, and its text. *)
Example C71_case : forall cfg : digit_cfg, tx_ok P_Display.shown_tx /\
  transaction_display false P_Display.shown_tx = Ret (ascii
"====================
Transaction EIP 1559
====================

-------
Payload
-------
chain_id: 0x05
nonce: 0x9
max_priority_fee_per_gas: 0x00
max_fee_per_gas: 0xab
gas_limit: 0x5208
destination: 0xABaBaBaBABabABabAbAbABAbABabababaBaBABaB
amount: 0x07
data: 0x00ff
access_list: [
  0x1111111111111111111111111111111111111111: 
  [
    0x0000000000000000000000000000000000000000000000000000000000000001,
  ]

]

---------
Signature
---------
y_parity: 1 (odd)
r: 0xc8
s: 0x10
").
Proof. exact P_Display.shown_case. Qed.
(** The same two keys under one address or under two: two texts. *)
Example C71_access_lists : forall (cfg : digit_cfg) be,
  let a := repeat 0x11 20 in let k := repeat 1 32 in let k' := repeat 2 32 in
  let p := P1559 (P_Display.shown_1559 [{| ali_address := a; ali_storage_keys := [k; k'] |}]) in
  let q := P1559 (P_Display.shown_1559 [{| ali_address := a; ali_storage_keys := [k] |}; {| ali_address := a; ali_storage_keys := [k'] |}]) in
  payload_ok p /\ payload_ok q /\ payload_display be p <> payload_display be q.
Proof. exact P_Display.shown_lists. Qed.

(** * C09

    The sign of a negative BigUint, which parsing "-7" gives, is shown but neither encoded nor signed: a payment of "-7"
    is a payment of 7. *)
Theorem C09_sign_not_encoded : forall (cfg : digit_cfg) x y it, wf x -> wf y -> bi_val y = - bi_val x ->
  encode_biguint x it = encode_biguint y it.
Proof. exact @P_Display.sign_not_encoded. Qed.
Print Assumptions C09_sign_not_encoded.
Theorem C09_amount_refuted : forall cfg : digit_cfg, exists w v, wei_try_from (ascii "-7") = Ret (Ok w) /\ wei_try_from (ascii "7") = Ret (Ok v) /\
  wei_display w = Ret (ascii "0x-07") /\ wei_display v = Ret (ascii "0x07") /\
  let pay amount := {| pl_nonce := 0; pl_gas_price := v; pl_gas_limit := 21000; pl_destination := repeat 0xab 20; pl_amount := amount; pl_data := [] |} in
  payload_ok (PLegacy (pay v)) /\ forall it, encode_payload_legacy (pay w) it = encode_payload_legacy (pay v) it.
Proof. exact P_Display.amount_refuted. Qed.
Print Assumptions C09_amount_refuted.

(** Model of the text (Display) of payloads, access lists and signed transactions:
    src/blockchain/ethereum/types/{eoa_nonce,access_list}.rs, src/blockchain/ethereum/transaction/payload/*.rs,
    src/blockchain/ethereum/transaction/types/transaction_*.rs and YParity in src/crypto/ecdsa/ecdsa_core.rs.

    A text is the list of its ASCII codes.  The formatter only collects the text and does not fail; a flag of the format
    string (width, alternate form) never reaches an inner Display, since every one is written with a plain [{}]. *)

From Coq Require Import String Ascii.
From Verif Require Import Base M_Parity M_Codec M_BigInt M_BigText M_EthTypes M_Tx M_TxSign.
Open Scope Z_scope.
Local Open Scope list_scope.

(** A string literal. *)
Definition txt (s : string) : list Z := map (fun c => Z.of_nat (nat_of_ascii c)) (list_ascii_of_string s).
(** [writeln!(f, ..)]: what is written, and a newline *)
Definition line (s : list Z) : list Z := s ++ [10].

(** core::fmt, [{:x}] and [{}] of an unsigned integer: the digits, from the last one on, until the rest is zero.
    [k] bounds the number of digits: 16 hexadecimal ones for u64, 3 decimal ones for u8. *)
Fixpoint radix_digits (radix : Z) (k : nat) (n : Z) (acc : list Z) : list Z :=
  match k with
  | O => acc
  | S k =>
      let d := n mod radix in
      let acc := (if d <? 10 then 48 + d else 97 + (d - 10)) :: acc in
      if n / radix =? 0 then acc else radix_digits radix k (n / radix) acc
  end.
Definition fmt_lower_hex (n : Z) : list Z := radix_digits 16 16 n [].
Definition fmt_u8 (n : Z) : list Z := radix_digits 10 3 n [].

(** eoa_nonce.rs:49-54, [{n:#x}] *)
Definition nonce_display (n : Z) : list Z := txt "0x" ++ fmt_lower_hex n.
(** ecdsa_core.rs:243-254 *)
Definition y_parity_display (y : y_parity) : list Z :=
  match y with
  | Even => fmt_u8 (y_parity_u8 y) ++ txt " (even)"
  | Odd => fmt_u8 (y_parity_u8 y) ++ txt " (odd)"
  end.

(** access_list.rs:16-27, AccessListItem *)
Definition access_list_item_display (be : bool) (i : AccessListItem) : outcome (list Z) :=
  a <- address_display be (ali_address i) ;;
  Ret (line (a ++ txt ": ") ++ line (txt "  [") ++
       flat_map (fun k => line (txt "    " ++ storage_key_display k ++ txt ",")) (ali_storage_keys i) ++
       line (txt "  ]")).
(** access_list.rs:32-41, AccessList: the loop over the items *)
Fixpoint access_list_items_display (be : bool) (l : list AccessListItem) (acc : list Z) : outcome (list Z) :=
  match l with
  | [] => Ret acc
  | i :: l => t <- access_list_item_display be i ;; access_list_items_display be l (acc ++ line (txt "  " ++ t))
  end.
Definition access_list_display (be : bool) (l : AccessList) : outcome (list Z) :=
  t <- access_list_items_display be l (line (txt "[")) ;; Ret (t ++ txt "]").

Section WithCfg.
Context {cfg : digit_cfg}.

(** [writeln!(f, "label: {}", value)?] after what is written already *)
Definition write_field (label : string) (value : outcome (list Z)) (f : list Z) : outcome (list Z) :=
  t <- value ;; Ret (f ++ line (txt label ++ t)).

(** payload/legacy.rs:57-68 *)
Definition payload_legacy_display (be : bool) (p : PayloadLegacy) : outcome (list Z) :=
  f <- write_field "nonce: " (Ret (nonce_display (pl_nonce p))) [] ;;
  f <- write_field "gas_price: " (wei_display (pl_gas_price p)) f ;;
  f <- write_field "gas_limit: 0x" (Ret (fmt_lower_hex (pl_gas_limit p))) f ;;
  f <- write_field "destination: " (address_display be (pl_destination p)) f ;;
  f <- write_field "amount: " (wei_display (pl_amount p)) f ;;
  write_field "data: 0x" (Ret (bytes_to_lower_hex (pl_data p))) f.
(** payload/eip_155.rs:59-71 *)
Definition payload_155_display (be : bool) (p : PayloadEip155) : outcome (list Z) :=
  f <- write_field "chain_id: " (chain_id_display (p155_chain_id p)) [] ;;
  f <- write_field "nonce: " (Ret (nonce_display (p155_nonce p))) f ;;
  f <- write_field "gas_price: " (wei_display (p155_gas_price p)) f ;;
  f <- write_field "gas_limit: 0x" (Ret (fmt_lower_hex (p155_gas_limit p))) f ;;
  f <- write_field "destination: " (address_display be (p155_destination p)) f ;;
  f <- write_field "amount: " (wei_display (p155_amount p)) f ;;
  write_field "data: 0x" (Ret (bytes_to_lower_hex (p155_data p))) f.
(** payload/eip_2930.rs:60-73 *)
Definition payload_2930_display (be : bool) (p : PayloadEip2930) : outcome (list Z) :=
  f <- write_field "chain_id: " (chain_id_display (p2930_chain_id p)) [] ;;
  f <- write_field "nonce: " (Ret (nonce_display (p2930_nonce p))) f ;;
  f <- write_field "gas_price: " (wei_display (p2930_gas_price p)) f ;;
  f <- write_field "gas_limit: 0x" (Ret (fmt_lower_hex (p2930_gas_limit p))) f ;;
  f <- write_field "destination: " (address_display be (p2930_destination p)) f ;;
  f <- write_field "amount: " (wei_display (p2930_amount p)) f ;;
  f <- write_field "data: 0x" (Ret (bytes_to_lower_hex (p2930_data p))) f ;;
  write_field "access_list: " (access_list_display be (p2930_access_list p)) f.
(** payload/eip_1559.rs:64-82 *)
Definition payload_1559_display (be : bool) (p : PayloadEip1559) : outcome (list Z) :=
  f <- write_field "chain_id: " (chain_id_display (p1559_chain_id p)) [] ;;
  f <- write_field "nonce: " (Ret (nonce_display (p1559_nonce p))) f ;;
  f <- write_field "max_priority_fee_per_gas: " (wei_display (p1559_max_priority_fee_per_gas p)) f ;;
  f <- write_field "max_fee_per_gas: " (wei_display (p1559_max_fee_per_gas p)) f ;;
  f <- write_field "gas_limit: 0x" (Ret (fmt_lower_hex (p1559_gas_limit p))) f ;;
  f <- write_field "destination: " (address_display be (p1559_destination p)) f ;;
  f <- write_field "amount: " (wei_display (p1559_amount p)) f ;;
  f <- write_field "data: 0x" (Ret (bytes_to_lower_hex (p1559_data p))) f ;;
  write_field "access_list: " (access_list_display be (p1559_access_list p)) f.
Definition payload_display (be : bool) (p : payload) : outcome (list Z) :=
  match p with
  | PLegacy p => payload_legacy_display be p
  | P155 p => payload_155_display be p
  | P2930 p => payload_2930_display be p
  | P1559 p => payload_1559_display be p
  end.

(** types/transaction_legacy.rs:57-76 *)
Definition transaction_legacy_display (be : bool) (t : TransactionLegacy) : outcome (list Z) :=
  let f := line (txt "==================") ++ line (txt "Transaction Legacy") ++ line (txt "==================") ++ line [] ++
           line (txt "-------") ++ line (txt "Payload") ++ line (txt "-------") in
  f <- write_field "" (payload_legacy_display be (tl_payload t)) f ;;
  let f := f ++ line (txt "---------") ++ line (txt "Signature") ++ line (txt "---------") in
  f <- write_field "v: 0x" (Ret (fmt_lower_hex (tl_v t) ++ txt " (" ++ fmt_u8 (tl_v t) ++ txt ")")) f ;;
  f <- write_field "r: " (bu_display (tl_r t)) f ;;
  write_field "s: " (bu_display (tl_s t)) f.
(** types/transaction_eip_155.rs:59-78 *)
Definition transaction_155_display (be : bool) (t : TransactionEip155) : outcome (list Z) :=
  let f := line (txt "===================") ++ line (txt "Transaction EIP 155") ++ line (txt "===================") ++ line [] ++
           line (txt "-------") ++ line (txt "Payload") ++ line (txt "-------") in
  f <- write_field "" (payload_155_display be (t155_payload t)) f ;;
  let f := f ++ line (txt "---------") ++ line (txt "Signature") ++ line (txt "---------") in
  f <- write_field "v: " (bu_display (t155_v t)) f ;;
  f <- write_field "r: " (bu_display (t155_r t)) f ;;
  write_field "s: " (bu_display (t155_s t)) f.
(** types/transaction_eip_2930.rs:76-95 *)
Definition transaction_2930_display (be : bool) (t : TransactionEip2930) : outcome (list Z) :=
  let f := line (txt "====================") ++ line (txt "Transaction EIP 2930") ++ line (txt "====================") ++ line [] ++
           line (txt "-------") ++ line (txt "Payload") ++ line (txt "-------") in
  f <- write_field "" (payload_2930_display be (t2930_payload t)) f ;;
  let f := f ++ line (txt "---------") ++ line (txt "Signature") ++ line (txt "---------") in
  f <- write_field "y_parity: " (Ret (y_parity_display (t2930_y_parity t))) f ;;
  f <- write_field "r: " (bu_display (t2930_r t)) f ;;
  write_field "s: " (bu_display (t2930_s t)) f.
(** types/transaction_eip_1559.rs:71-90 *)
Definition transaction_1559_display (be : bool) (t : TransactionEip1559) : outcome (list Z) :=
  let f := line (txt "====================") ++ line (txt "Transaction EIP 1559") ++ line (txt "====================") ++ line [] ++
           line (txt "-------") ++ line (txt "Payload") ++ line (txt "-------") in
  f <- write_field "" (payload_1559_display be (t1559_payload t)) f ;;
  let f := f ++ line (txt "---------") ++ line (txt "Signature") ++ line (txt "---------") in
  f <- write_field "y_parity: " (Ret (y_parity_display (t1559_y_parity t))) f ;;
  f <- write_field "r: " (bu_display (t1559_r t)) f ;;
  write_field "s: " (bu_display (t1559_s t)) f.
Definition transaction_display (be : bool) (t : transaction) : outcome (list Z) :=
  match t with
  | TLegacy t => transaction_legacy_display be t
  | T155 t => transaction_155_display be t
  | T2930 t => transaction_2930_display be t
  | T1559 t => transaction_1559_display be t
  end.
End WithCfg.

(** Specification of the text of payloads and transactions: what a reader sees, line by line. *)

From Coq Require Import String Ascii.
From Verif Require Import Base M_Parity M_BigInt M_EthTypes M_Tx M_TxSign S_BigInt S_Codec S_EthTypes S_Tx S_Eoa.
Open Scope Z_scope.
Local Open Scope list_scope.

(** The ASCII codes of a string. *)
Definition ascii (s : string) : list Z := map (fun c => Z.of_nat (nat_of_ascii c)) (list_ascii_of_string s).
Definition newline : list Z := [10].

(** A value that is shown. *)
Inductive shown :=
| Word (n : Z)           (* u64 *)
| Big (n : Z)            (* BigUint, Wei, ChainId *)
| Data (bs : list Z)     (* bytes *)
| Addr (a : list Z)
| Access (l : AccessList)
| VByte (n : Z)          (* the v of a legacy transaction *)
| Parity (y : y_parity).

(** [t] is the number [n] in lower case digits of the radix. *)
Definition numeral (radix : Z) (t : list Z) (n : Z) : Prop :=
  exists ds, t = map lower_hex_digit ds /\ ds <> [] /\ Forall (fun d => 0 <= d < radix) ds /\ positional radix ds = n.
Definition no_leading_zero (t : list Z) : Prop := hd 0 t = 48 -> t = [48].
(** The bytes in hexadecimal, two digits each. *)
Definition hex (bs : list Z) : list Z := flat_map (fun b => [lower_hex_digit (b / 16); lower_hex_digit (b mod 16)]) bs.

(** An access list: the addresses, and under each its storage keys. *)
Definition access_text (l : AccessList) : list Z :=
  ascii "[" ++ newline ++
  flat_map (fun i =>
    ascii "  0x" ++ EIP55 (ali_address i) ++ ascii ": " ++ newline ++
    ascii "  [" ++ newline ++
    flat_map (fun k => ascii "    0x" ++ hex k ++ ascii "," ++ newline) (ali_storage_keys i) ++
    ascii "  ]" ++ newline ++ newline) l ++
  ascii "]".

(** The text [t] shows the value: without leading zeros for a u64, with two digits for each byte and without leading zero
    bytes for a BigUint, with the checksum of EIP-55 for an address. *)
Definition shows (v : shown) (t : list Z) : Prop :=
  match v with
  | Word n => exists h, t = ascii "0x" ++ h /\ numeral 16 h n /\ no_leading_zero h
  | Big n => exists h, t = ascii "0x" ++ h /\ numeral 16 h n /\ Nat.even (length h) = true /\ (firstn 2 h = [48; 48] -> h = [48; 48])
  | Data bs => t = ascii "0x" ++ hex bs
  | Addr a => t = ascii "0x" ++ EIP55 a
  | Access l => t = access_text l
  | VByte n => exists h d, t = ascii "0x" ++ h ++ ascii " (" ++ d ++ ascii ")" /\
      numeral 16 h n /\ numeral 10 d n /\ no_leading_zero h /\ no_leading_zero d
  | Parity y => t = match y with Even => ascii "0 (even)" | Odd => ascii "1 (odd)" end
  end.
(** Lines "label: value", one for each field. *)
Fixpoint shows_fields (fs : list (string * shown)) (t : list Z) : Prop :=
  match fs with
  | [] => t = []
  | (label, v) :: fs => exists x rest, t = ascii label ++ ascii ": " ++ x ++ newline ++ rest /\ shows v x /\ shows_fields fs rest
  end.

Section WithCfg.
Context {cfg : digit_cfg}.
Definition fields_of (p : payload) : list (string * shown) :=
  match p with
  | PLegacy p =>
      [("nonce", Word (pl_nonce p)); ("gas_price", Big (bi_val (pl_gas_price p))); ("gas_limit", Word (pl_gas_limit p));
       ("destination", Addr (pl_destination p)); ("amount", Big (bi_val (pl_amount p))); ("data", Data (pl_data p))]
  | P155 p =>
      [("chain_id", Big (bi_val (p155_chain_id p)));
       ("nonce", Word (p155_nonce p)); ("gas_price", Big (bi_val (p155_gas_price p))); ("gas_limit", Word (p155_gas_limit p));
       ("destination", Addr (p155_destination p)); ("amount", Big (bi_val (p155_amount p))); ("data", Data (p155_data p))]
  | P2930 p =>
      [("chain_id", Big (bi_val (p2930_chain_id p)));
       ("nonce", Word (p2930_nonce p)); ("gas_price", Big (bi_val (p2930_gas_price p))); ("gas_limit", Word (p2930_gas_limit p));
       ("destination", Addr (p2930_destination p)); ("amount", Big (bi_val (p2930_amount p))); ("data", Data (p2930_data p));
       ("access_list", Access (p2930_access_list p))]
  | P1559 p =>
      [("chain_id", Big (bi_val (p1559_chain_id p)));
       ("nonce", Word (p1559_nonce p)); ("max_priority_fee_per_gas", Big (bi_val (p1559_max_priority_fee_per_gas p)));
       ("max_fee_per_gas", Big (bi_val (p1559_max_fee_per_gas p))); ("gas_limit", Word (p1559_gas_limit p));
       ("destination", Addr (p1559_destination p)); ("amount", Big (bi_val (p1559_amount p))); ("data", Data (p1559_data p));
       ("access_list", Access (p1559_access_list p))]
  end%string.
Definition signature_fields_of (t : transaction) : list (string * shown) :=
  match t with
  | TLegacy t => [("v", VByte (tl_v t)); ("r", Big (bi_val (tl_r t))); ("s", Big (bi_val (tl_s t)))]
  | T155 t => [("v", Big (bi_val (t155_v t))); ("r", Big (bi_val (t155_r t))); ("s", Big (bi_val (t155_s t)))]
  | T2930 t => [("y_parity", Parity (t2930_y_parity t)); ("r", Big (bi_val (t2930_r t))); ("s", Big (bi_val (t2930_s t)))]
  | T1559 t => [("y_parity", Parity (t1559_y_parity t)); ("r", Big (bi_val (t1559_r t))); ("s", Big (bi_val (t1559_s t)))]
  end%string.
(** A heading: the title between two rules of its length. *)
Definition heading (rule : string) (title : string) : list Z :=
  let r := flat_map (fun _ => ascii rule) (ascii title) in
  r ++ newline ++ ascii title ++ newline ++ r ++ newline.
Definition title_of (t : transaction) : string :=
  match t with
  | TLegacy _ => "Transaction Legacy" | T155 _ => "Transaction EIP 155" | T2930 _ => "Transaction EIP 2930" | T1559 _ => "Transaction EIP 1559"
  end.
Definition shows_transaction (t : transaction) (text : list Z) : Prop :=
  exists pt st, shows_fields (fields_of (tx_payload t)) pt /\ shows_fields (signature_fields_of t) st /\
  text = heading "=" (title_of t) ++ newline ++ heading "-" "Payload" ++ pt ++ newline ++ heading "-" "Signature" ++ st.

(** The same payload and the same signature, integers being compared as numbers. *)
Definition tx_same (t u : transaction) : Prop :=
  payload_same (tx_payload t) (tx_payload u) /\ same_int (tx_r t) (tx_r u) /\ same_int (tx_s t) (tx_s u) /\
  match t, u with
  | TLegacy t, TLegacy u => tl_v t = tl_v u
  | T155 t, T155 u => same_int (t155_v t) (t155_v u)
  | T2930 t, T2930 u => t2930_y_parity t = t2930_y_parity u
  | T1559 t, T1559 u => t1559_y_parity t = t1559_y_parity u
  | _, _ => False
  end.
End WithCfg.

(** Specification of addresses and of what the signature of a transaction is about. *)

From Verif Require Import Base M_BigInt M_Curve M_Hmac M_Ecdsa M_Rlp M_EthTypes M_Tx M_Eoa M_TxSign.
From Verif Require Import S_BigInt S_Curve S_EcModel S_Ecdsa S_Hash S_Rlp S_EthTypes S_Tx.
From Verif Require S_Sha3.
Open Scope Z_scope.

Definition KECCAK256 : list Z -> list Z := on_bytes_le S_Sha3.Keccak_256.
(** Yellow paper, appendix F: the last 20 of the 32 bytes of the hash of the two coordinates, each as 32 bytes. *)
Definition ADDRESS (x y : Z) : list Z := skipn 12 (KECCAK256 (to_be 32 x ++ to_be 32 y)).

Section WithCfg.
Context {cfg : digit_cfg}.

(** What is hashed and signed: the list of the fields, without the signature; for EIP-155 followed by chain id, 0, 0;
    for EIP-2930 and EIP-1559 preceded by the type of the transaction.  [None] if it has 2^64 bytes or more. *)
Definition PREIMAGE (p : payload) : option (list Z) :=
  match p with
  | PLegacy p => RLP (signed_item_legacy p)
  | P155 p => RLP (signed_item_155 p)
  | P2930 p => option_map (cons 1) (RLP (signed_item_2930 p))
  | P1559 p => option_map (cons 2) (RLP (signed_item_1559 p))
  end.
Definition payload_ok (p : payload) : Prop :=
  match p with PLegacy p => payload_ok_legacy p | P155 p => payload_ok_155 p | P2930 p => payload_ok_2930 p | P1559 p => payload_ok_1559 p end.

(** The same kind of transaction and the same fields, integers being compared as numbers. *)
Definition payload_same (p q : payload) : Prop :=
  match p, q with
  | PLegacy p, PLegacy q => payload_same_legacy p q
  | P155 p, P155 q => payload_same_but_chain_155 p q /\ same_int (p155_chain_id p) (p155_chain_id q)
  | P2930 p, P2930 q => payload_same_2930 p q
  | P1559 p, P1559 q => payload_same_1559 p q
  | _, _ => False
  end.

Definition tx_payload (t : transaction) : payload :=
  match t with TLegacy t => PLegacy (tl_payload t) | T155 t => P155 (t155_payload t) | T2930 t => P2930 (t2930_payload t) | T1559 t => P1559 (t1559_payload t) end.
Definition tx_r (t : transaction) : bigint := match t with TLegacy t => tl_r t | T155 t => t155_r t | T2930 t => t2930_r t | T1559 t => t1559_r t end.
Definition tx_s (t : transaction) : bigint := match t with TLegacy t => tl_s t | T155 t => t155_s t | T2930 t => t2930_s t | T1559 t => t1559_s t end.
(** The transaction says that the parity is [b]: 27 + b (yellow paper), 35 + 2 chain id + b (EIP-155), or b itself. *)
Definition has_parity (t : transaction) (b : Z) : Prop :=
  match t with
  | TLegacy t => tl_v t = 27 + b
  | T155 t => bi_val (t155_v t) = 35 + 2 * bi_val (p155_chain_id (t155_payload t)) + b
  | T2930 t => parity (t2930_y_parity t) = b
  | T1559 t => parity (t1559_y_parity t) = b
  end.
Definition tx_ok (t : transaction) : Prop :=
  match t with TLegacy t => tx_ok_legacy t | T155 t => tx_ok_155 t | T2930 t => tx_ok_2930 t | T1559 t => tx_ok_1559 t end.
(** The RLP list of a transaction. *)
Definition tx_item (t : transaction) : item :=
  match t with TLegacy t => tx_item_legacy t | T155 t => tx_item_155 t | T2930 t => tx_item_2930 t | T1559 t => tx_item_1559 t end.

Definition kind_of (p : payload) : payload_kind := match p with PLegacy _ => KLegacy | P155 _ => K155 | P2930 _ => K2930 | P1559 _ => K1559 end.

(** From the transaction alone - hash, r, s and parity - comes the key, and its address.
    The parity is the whole recovery id unless r is less than p - n: then one of the two ids with that parity is the right one. *)
Definition identifies (be : bool) (D : params) (t : transaction) (pk : public_key) : Prop :=
  exists m sg, PREIMAGE (tx_payload t) = Some m /\ signature_new (tx_r t) (tx_s t) D = Ret (Some sg) /\
  let gives id := exists pk', recover sg (KECCAK256 m) (Some id) = Ret (Ok [pk']) /\ pt_val (pk_data pk') = pt_val (pk_data pk) /\ eoa_address be pk' = eoa_address be pk in
  (exists id, has_parity t (recid_u8 id mod 2) /\ gives id) /\
  (forall id, ep (e_curve SECP256K1) - e_order SECP256K1 <= bi_val (tx_r t) -> has_parity t (recid_u8 id) -> gives id).
End WithCfg.

(** Specification of the transaction builder and of the transaction formats. *)

From Verif Require Import Base M_Parity M_BigInt M_Rlp M_EthTypes M_Tx S_BigInt S_Rlp S_EthTypes.
Open Scope Z_scope.

(** * The builder *)
Inductive field := FChainId | FNonce | FGasPrice | FMaxPriorityFee | FMaxFee | FGasLimit | FDestination | FAmount | FData | FAccessList.
Definition field_ty (f : field) : Type :=
  match f with
  | FNonce | FGasLimit => Z
  | FDestination | FData => list Z
  | FAccessList => AccessList
  | _ => bigint
  end.
(** what each kind of transaction needs, and what it may leave out *)
Definition required (k : payload_kind) : list field :=
  match k with
  | KLegacy => [FNonce; FGasPrice; FGasLimit; FDestination; FAmount]
  | K155 | K2930 => [FChainId; FNonce; FGasPrice; FGasLimit; FDestination; FAmount]
  | K1559 => [FChainId; FNonce; FMaxPriorityFee; FMaxFee; FGasLimit; FDestination; FAmount]
  end.
Definition optional (k : payload_kind) : list field :=
  match k with KLegacy | K155 => [FData] | K2930 | K1559 => [FData; FAccessList] end.

Definition field_eqb (f g : field) : bool :=
  match f, g with
  | FChainId, FChainId | FNonce, FNonce | FGasPrice, FGasPrice | FMaxPriorityFee, FMaxPriorityFee | FMaxFee, FMaxFee | FGasLimit, FGasLimit | FDestination, FDestination | FAmount, FAmount | FData, FData | FAccessList, FAccessList => true
  | _, _ => false
  end.
Definition has (l : list field) (f : field) : bool := existsb (field_eqb f) l.

(** the value a call gives to a field *)
Definition sets (c : builder_call) (f : field) : option (field_ty f) :=
  match f as f return option (field_ty f) with
  | FChainId => match c with SetChainId v => Some v | _ => None end
  | FNonce => match c with SetNonce v => Some v | _ => None end
  | FGasPrice => match c with SetGasPrice v => Some v | _ => None end
  | FMaxPriorityFee => match c with SetMaxPriorityFee v => Some v | _ => None end
  | FMaxFee => match c with SetMaxFee v => Some v | _ => None end
  | FGasLimit => match c with SetGasLimit v => Some v | _ => None end
  | FDestination => match c with SetDestination v => Some v | _ => None end
  | FAmount => match c with SetAmount v => Some v | _ => None end
  | FData => match c with SetData v => Some v | _ => None end
  | FAccessList => match c with SetAccessList v => Some v | _ => None end
  end.

(** the value a field holds after the calls [h], the last one first: the last one it was
    given, unless a build that succeeded has taken it since.  A build succeeds when
    every field it requires holds a value. *)
Definition is_some {A} (o : option A) : bool := match o with Some _ => true | None => false end.
Fixpoint held (h : list builder_call) (f : field) : option (field_ty f) :=
  match h with
  | [] => None
  | Build k :: h' =>
      if forallb (fun g => is_some (held h' g)) (required k) && has (required k ++ optional k) f then None
      else held h' f
  | c :: h' => match sets c f with Some v => Some v | None => held h' f end
  end.
Definition complete (k : payload_kind) (h : list builder_call) : bool :=
  forallb (fun g => is_some (held h g)) (required k).

(** the value of an optional field that was not given *)
Definition default (f : field) : option (field_ty f) :=
  match f as f return option (field_ty f) with FData => Some [] | FAccessList => Some [] | _ => None end.
Definition kind_of (p : payload) : payload_kind :=
  match p with PLegacy _ => KLegacy | P155 _ => K155 | P2930 _ => K2930 | P1559 _ => K1559 end.
(** the fields of a payload *)
Definition payload_field (p : payload) (f : field) : option (field_ty f) :=
  match f as f return option (field_ty f) with
  | FChainId => match p with PLegacy p => None | P155 p => Some (p155_chain_id p) | P2930 p => Some (p2930_chain_id p) | P1559 p => Some (p1559_chain_id p) end
  | FNonce => match p with PLegacy p => Some (pl_nonce p) | P155 p => Some (p155_nonce p) | P2930 p => Some (p2930_nonce p) | P1559 p => Some (p1559_nonce p) end
  | FGasPrice => match p with PLegacy p => Some (pl_gas_price p) | P155 p => Some (p155_gas_price p) | P2930 p => Some (p2930_gas_price p) | P1559 p => None end
  | FMaxPriorityFee => match p with PLegacy p => None | P155 p => None | P2930 p => None | P1559 p => Some (p1559_max_priority_fee_per_gas p) end
  | FMaxFee => match p with PLegacy p => None | P155 p => None | P2930 p => None | P1559 p => Some (p1559_max_fee_per_gas p) end
  | FGasLimit => match p with PLegacy p => Some (pl_gas_limit p) | P155 p => Some (p155_gas_limit p) | P2930 p => Some (p2930_gas_limit p) | P1559 p => Some (p1559_gas_limit p) end
  | FDestination => match p with PLegacy p => Some (pl_destination p) | P155 p => Some (p155_destination p) | P2930 p => Some (p2930_destination p) | P1559 p => Some (p1559_destination p) end
  | FAmount => match p with PLegacy p => Some (pl_amount p) | P155 p => Some (p155_amount p) | P2930 p => Some (p2930_amount p) | P1559 p => Some (p1559_amount p) end
  | FData => match p with PLegacy p => Some (pl_data p) | P155 p => Some (p155_data p) | P2930 p => Some (p2930_data p) | P1559 p => Some (p1559_data p) end
  | FAccessList => match p with PLegacy p => None | P155 p => None | P2930 p => Some (p2930_access_list p) | P1559 p => Some (p1559_access_list p) end
  end.

(** * Formats

    The items of the RLP list of a transaction, from the yellow paper (legacy), EIP-155,
    EIP-2930 and EIP-1559. *)
Section WithCfg.
Context {cfg : digit_cfg}.
Definition num (n : Z) : item := Str (BE n).
Definition big (x : bigint) : item := Str (BE (bi_val x)).
Definition access (l : AccessList) : item := Lst (map ali_item l).

Definition items_legacy (p : PayloadLegacy) : list item :=
  [num (pl_nonce p); big (pl_gas_price p); num (pl_gas_limit p); Str (pl_destination p); big (pl_amount p); Str (pl_data p)].
Definition items_155 (p : PayloadEip155) : list item :=
  [num (p155_nonce p); big (p155_gas_price p); num (p155_gas_limit p); Str (p155_destination p); big (p155_amount p); Str (p155_data p)].
Definition items_2930 (p : PayloadEip2930) : list item :=
  [big (p2930_chain_id p); num (p2930_nonce p); big (p2930_gas_price p); num (p2930_gas_limit p); Str (p2930_destination p);
   big (p2930_amount p); Str (p2930_data p); access (p2930_access_list p)].
Definition items_1559 (p : PayloadEip1559) : list item :=
  [big (p1559_chain_id p); num (p1559_nonce p); big (p1559_max_priority_fee_per_gas p); big (p1559_max_fee_per_gas p);
   num (p1559_gas_limit p); Str (p1559_destination p); big (p1559_amount p); Str (p1559_data p); access (p1559_access_list p)].

Definition parity (y : y_parity) : Z := match y with Even => 0 | Odd => 1 end.
Definition tx_item_legacy (t : TransactionLegacy) : item :=
  Lst (items_legacy (tl_payload t) ++ [num (tl_v t); big (tl_r t); big (tl_s t)]).
Definition tx_item_155 (t : TransactionEip155) : item :=
  Lst (items_155 (t155_payload t) ++ [big (t155_v t); big (t155_r t); big (t155_s t)]).
Definition tx_item_2930 (t : TransactionEip2930) : item :=
  Lst (items_2930 (t2930_payload t) ++ [num (parity (t2930_y_parity t)); big (t2930_r t); big (t2930_s t)]).
Definition tx_item_1559 (t : TransactionEip1559) : item :=
  Lst (items_1559 (t1559_payload t) ++ [num (parity (t1559_y_parity t)); big (t1559_r t); big (t1559_s t)]).

(** what is hashed and signed: for EIP-155 with the chain id and two zeros appended *)
Definition signed_item_legacy (p : PayloadLegacy) : item := Lst (items_legacy p).
Definition signed_item_155 (p : PayloadEip155) : item := Lst (items_155 p ++ [big (p155_chain_id p); num 0; num 0]).
Definition signed_item_2930 (p : PayloadEip2930) : item := Lst (items_2930 p).
Definition signed_item_1559 (p : PayloadEip1559) : item := Lst (items_1559 p).

(** the invariants of the types of the fields *)
Definition big_ok (x : bigint) : Prop := wf x /\ 0 <= bi_val x.
Definition nonce_ok (n : Z) : Prop := 0 <= n < 2 ^ 64 - 1.
Definition u64_ok (n : Z) : Prop := 0 <= n < 2 ^ 64.
Definition address_ok (a : list Z) : Prop := bytes a /\ length a = 20%nat.
Definition payload_ok_legacy (p : PayloadLegacy) : Prop :=
  nonce_ok (pl_nonce p) /\ big_ok (pl_gas_price p) /\ u64_ok (pl_gas_limit p) /\ address_ok (pl_destination p) /\
  big_ok (pl_amount p) /\ bytes (pl_data p).
Definition payload_ok_155 (p : PayloadEip155) : Prop :=
  big_ok (p155_chain_id p) /\ nonce_ok (p155_nonce p) /\ big_ok (p155_gas_price p) /\ u64_ok (p155_gas_limit p) /\
  address_ok (p155_destination p) /\ big_ok (p155_amount p) /\ bytes (p155_data p).
Definition payload_ok_2930 (p : PayloadEip2930) : Prop :=
  big_ok (p2930_chain_id p) /\ nonce_ok (p2930_nonce p) /\ big_ok (p2930_gas_price p) /\ u64_ok (p2930_gas_limit p) /\
  address_ok (p2930_destination p) /\ big_ok (p2930_amount p) /\ bytes (p2930_data p) /\ ok TAccessList (p2930_access_list p).
Definition payload_ok_1559 (p : PayloadEip1559) : Prop :=
  big_ok (p1559_chain_id p) /\ nonce_ok (p1559_nonce p) /\ big_ok (p1559_max_priority_fee_per_gas p) /\
  big_ok (p1559_max_fee_per_gas p) /\ u64_ok (p1559_gas_limit p) /\
  address_ok (p1559_destination p) /\ big_ok (p1559_amount p) /\ bytes (p1559_data p) /\ ok TAccessList (p1559_access_list p).
Definition tx_ok_legacy (t : TransactionLegacy) : Prop :=
  payload_ok_legacy (tl_payload t) /\ 0 <= tl_v t < 256 /\ big_ok (tl_r t) /\ big_ok (tl_s t).
Definition tx_ok_155 (t : TransactionEip155) : Prop :=
  payload_ok_155 (t155_payload t) /\ big_ok (t155_v t) /\ big_ok (t155_r t) /\ big_ok (t155_s t).
Definition tx_ok_2930 (t : TransactionEip2930) : Prop :=
  payload_ok_2930 (t2930_payload t) /\ big_ok (t2930_r t) /\ big_ok (t2930_s t).
Definition tx_ok_1559 (t : TransactionEip1559) : Prop :=
  payload_ok_1559 (t1559_payload t) /\ big_ok (t1559_r t) /\ big_ok (t1559_s t).

(** equality of transactions, integers being compared as numbers *)
Definition payload_same_legacy (p q : PayloadLegacy) : Prop :=
  pl_nonce p = pl_nonce q /\ same_int (pl_gas_price p) (pl_gas_price q) /\ pl_gas_limit p = pl_gas_limit q /\
  pl_destination p = pl_destination q /\ same_int (pl_amount p) (pl_amount q) /\ pl_data p = pl_data q.
(** without the chain id *)
Definition payload_same_but_chain_155 (p q : PayloadEip155) : Prop :=
  p155_nonce p = p155_nonce q /\ same_int (p155_gas_price p) (p155_gas_price q) /\
  p155_gas_limit p = p155_gas_limit q /\ p155_destination p = p155_destination q /\
  same_int (p155_amount p) (p155_amount q) /\ p155_data p = p155_data q.
Definition payload_same_2930 (p q : PayloadEip2930) : Prop :=
  same_int (p2930_chain_id p) (p2930_chain_id q) /\ p2930_nonce p = p2930_nonce q /\
  same_int (p2930_gas_price p) (p2930_gas_price q) /\ p2930_gas_limit p = p2930_gas_limit q /\
  p2930_destination p = p2930_destination q /\ same_int (p2930_amount p) (p2930_amount q) /\
  p2930_data p = p2930_data q /\ p2930_access_list p = p2930_access_list q.
Definition payload_same_1559 (p q : PayloadEip1559) : Prop :=
  same_int (p1559_chain_id p) (p1559_chain_id q) /\ p1559_nonce p = p1559_nonce q /\
  same_int (p1559_max_priority_fee_per_gas p) (p1559_max_priority_fee_per_gas q) /\
  same_int (p1559_max_fee_per_gas p) (p1559_max_fee_per_gas q) /\ p1559_gas_limit p = p1559_gas_limit q /\
  p1559_destination p = p1559_destination q /\ same_int (p1559_amount p) (p1559_amount q) /\
  p1559_data p = p1559_data q /\ p1559_access_list p = p1559_access_list q.
Definition tx_same_legacy (t u : TransactionLegacy) : Prop :=
  payload_same_legacy (tl_payload t) (tl_payload u) /\ tl_v t = tl_v u /\ same_int (tl_r t) (tl_r u) /\ same_int (tl_s t) (tl_s u).
Definition tx_same_but_chain_155 (t u : TransactionEip155) : Prop :=
  payload_same_but_chain_155 (t155_payload t) (t155_payload u) /\ same_int (t155_v t) (t155_v u) /\
  same_int (t155_r t) (t155_r u) /\ same_int (t155_s t) (t155_s u).
Definition tx_same_2930 (t u : TransactionEip2930) : Prop :=
  payload_same_2930 (t2930_payload t) (t2930_payload u) /\ t2930_y_parity t = t2930_y_parity u /\
  same_int (t2930_r t) (t2930_r u) /\ same_int (t2930_s t) (t2930_s u).
Definition tx_same_1559 (t u : TransactionEip1559) : Prop :=
  payload_same_1559 (t1559_payload t) (t1559_payload u) /\ t1559_y_parity t = t1559_y_parity u /\
  same_int (t1559_r t) (t1559_r u) /\ same_int (t1559_s t) (t1559_s u).
End WithCfg.

(** Model of src/blockchain/ethereum/transaction: the builder, the payloads and the
    codecs of the signed transactions.  Signing is in M_TxSign.v. *)

From Verif Require Import Base M_BigInt M_BigText M_Rlp M_EthTypes.
From Verif Require Export M_Parity.
Open Scope Z_scope.

(** [u8::try_from(n: u64)] *)
Definition u8_try_from (n : Z) : option Z := if n <? 256 then Some n else None.

(** * The builder *)

(** builder.rs:15-20; the variant SigningError is only produced by the signing functions
    (M_TxSign.v), never by the builder *)
Inductive TransactionBuildingError := MissingFields.

(** builder.rs:33-44 *)
Record TransactionBuilder : Type := {
  b_chain_id : option bigint; b_nonce : option Z; b_gas_price : option bigint;
  b_max_priority_fee_per_gas : option bigint; b_max_fee_per_gas : option bigint;
  b_gas_limit : option Z; b_destination : option (list Z); b_amount : option bigint;
  b_data : option (list Z); b_access_list : option AccessList }.

(** builder.rs:47-60 *)
Definition builder_new : TransactionBuilder :=
  {| b_chain_id := None; b_nonce := None; b_gas_price := None; b_max_priority_fee_per_gas := None;
     b_max_fee_per_gas := None; b_gas_limit := None; b_destination := None; b_amount := None;
     b_data := None; b_access_list := None |}.

(** builder.rs:62-65 *)
Definition with_chain_id (v : bigint) (b : TransactionBuilder) : TransactionBuilder :=
  {| b_chain_id := Some v; b_nonce := b_nonce b; b_gas_price := b_gas_price b;
       b_max_priority_fee_per_gas := b_max_priority_fee_per_gas b;
       b_max_fee_per_gas := b_max_fee_per_gas b; b_gas_limit := b_gas_limit b;
       b_destination := b_destination b; b_amount := b_amount b; b_data := b_data b;
       b_access_list := b_access_list b |}.
(** builder.rs:67-70 *)
Definition with_nonce (v : Z) (b : TransactionBuilder) : TransactionBuilder :=
  {| b_chain_id := b_chain_id b; b_nonce := Some v; b_gas_price := b_gas_price b;
       b_max_priority_fee_per_gas := b_max_priority_fee_per_gas b;
       b_max_fee_per_gas := b_max_fee_per_gas b; b_gas_limit := b_gas_limit b;
       b_destination := b_destination b; b_amount := b_amount b; b_data := b_data b;
       b_access_list := b_access_list b |}.
(** builder.rs:72-75 *)
Definition with_gas_price (v : bigint) (b : TransactionBuilder) : TransactionBuilder :=
  {| b_chain_id := b_chain_id b; b_nonce := b_nonce b; b_gas_price := Some v;
       b_max_priority_fee_per_gas := b_max_priority_fee_per_gas b;
       b_max_fee_per_gas := b_max_fee_per_gas b; b_gas_limit := b_gas_limit b;
       b_destination := b_destination b; b_amount := b_amount b; b_data := b_data b;
       b_access_list := b_access_list b |}.
(** builder.rs:77-83 *)
Definition with_max_priority_fee_per_gas (v : bigint) (b : TransactionBuilder) : TransactionBuilder :=
  {| b_chain_id := b_chain_id b; b_nonce := b_nonce b; b_gas_price := b_gas_price b;
       b_max_priority_fee_per_gas := Some v; b_max_fee_per_gas := b_max_fee_per_gas b;
       b_gas_limit := b_gas_limit b; b_destination := b_destination b; b_amount := b_amount b;
       b_data := b_data b; b_access_list := b_access_list b |}.
(** builder.rs:85-88 *)
Definition with_max_fee_per_gas (v : bigint) (b : TransactionBuilder) : TransactionBuilder :=
  {| b_chain_id := b_chain_id b; b_nonce := b_nonce b; b_gas_price := b_gas_price b;
       b_max_priority_fee_per_gas := b_max_priority_fee_per_gas b; b_max_fee_per_gas := Some v;
       b_gas_limit := b_gas_limit b; b_destination := b_destination b; b_amount := b_amount b;
       b_data := b_data b; b_access_list := b_access_list b |}.
(** builder.rs:90-93 *)
Definition with_gas_limit (v : Z) (b : TransactionBuilder) : TransactionBuilder :=
  {| b_chain_id := b_chain_id b; b_nonce := b_nonce b; b_gas_price := b_gas_price b;
       b_max_priority_fee_per_gas := b_max_priority_fee_per_gas b;
       b_max_fee_per_gas := b_max_fee_per_gas b; b_gas_limit := Some v;
       b_destination := b_destination b; b_amount := b_amount b; b_data := b_data b;
       b_access_list := b_access_list b |}.
(** builder.rs:95-98 *)
Definition with_destination (v : list Z) (b : TransactionBuilder) : TransactionBuilder :=
  {| b_chain_id := b_chain_id b; b_nonce := b_nonce b; b_gas_price := b_gas_price b;
       b_max_priority_fee_per_gas := b_max_priority_fee_per_gas b;
       b_max_fee_per_gas := b_max_fee_per_gas b; b_gas_limit := b_gas_limit b; b_destination := Some v;
       b_amount := b_amount b; b_data := b_data b; b_access_list := b_access_list b |}.
(** builder.rs:100-103 *)
Definition with_amount (v : bigint) (b : TransactionBuilder) : TransactionBuilder :=
  {| b_chain_id := b_chain_id b; b_nonce := b_nonce b; b_gas_price := b_gas_price b;
       b_max_priority_fee_per_gas := b_max_priority_fee_per_gas b;
       b_max_fee_per_gas := b_max_fee_per_gas b; b_gas_limit := b_gas_limit b;
       b_destination := b_destination b; b_amount := Some v; b_data := b_data b;
       b_access_list := b_access_list b |}.
(** builder.rs:105-108 *)
Definition with_data (v : list Z) (b : TransactionBuilder) : TransactionBuilder :=
  {| b_chain_id := b_chain_id b; b_nonce := b_nonce b; b_gas_price := b_gas_price b;
       b_max_priority_fee_per_gas := b_max_priority_fee_per_gas b;
       b_max_fee_per_gas := b_max_fee_per_gas b; b_gas_limit := b_gas_limit b;
       b_destination := b_destination b; b_amount := b_amount b; b_data := Some v;
       b_access_list := b_access_list b |}.
(** builder.rs:110-113 *)
Definition with_access_list (v : AccessList) (b : TransactionBuilder) : TransactionBuilder :=
  {| b_chain_id := b_chain_id b; b_nonce := b_nonce b; b_gas_price := b_gas_price b;
       b_max_priority_fee_per_gas := b_max_priority_fee_per_gas b;
       b_max_fee_per_gas := b_max_fee_per_gas b; b_gas_limit := b_gas_limit b;
       b_destination := b_destination b; b_amount := b_amount b; b_data := b_data b;
       b_access_list := Some v |}.

(** * Payloads *)
(** [Option::unwrap_or_default] on a vector *)
Definition unwrap_or_default {A} (o : option (list A)) : list A := match o with Some l => l | None => [] end.

(** payload/legacy.rs:17-24 *)
Record PayloadLegacy : Type := {
  pl_nonce : Z; pl_gas_price : bigint; pl_gas_limit : Z; pl_destination : list Z; pl_amount :
  bigint; pl_data : list Z }.
(** payload/legacy.rs:27-54: the payload or the error, and the builder left behind *)
Definition take_and_build_payload_legacy (b : TransactionBuilder)
  : result TransactionBuildingError PayloadLegacy * TransactionBuilder :=
  match b_nonce b, b_gas_price b, b_gas_limit b, b_destination b, b_amount b with
  | Some nonce, Some gas_price, Some gas_limit, Some destination, Some amount =>
      (Ok {| pl_nonce := nonce; pl_gas_price := gas_price; pl_gas_limit := gas_limit; pl_destination
              := destination; pl_amount := amount; pl_data := unwrap_or_default (b_data b) |},
       {| b_chain_id := b_chain_id b; b_nonce := None; b_gas_price := None;
       b_max_priority_fee_per_gas := b_max_priority_fee_per_gas b;
       b_max_fee_per_gas := b_max_fee_per_gas b; b_gas_limit := None; b_destination := None;
       b_amount := None; b_data := None; b_access_list := b_access_list b |})
  | _, _, _, _, _ => (Err MissingFields, b)
  end.

(** payload/eip_155.rs:15-23 *)
Record PayloadEip155 : Type := {
  p155_chain_id : bigint; p155_nonce : Z; p155_gas_price : bigint; p155_gas_limit : Z;
  p155_destination : list Z; p155_amount : bigint; p155_data : list Z }.
(** payload/eip_155.rs:26-56: the payload or the error, and the builder left behind *)
Definition take_and_build_payload_eip_155 (b : TransactionBuilder)
  : result TransactionBuildingError PayloadEip155 * TransactionBuilder :=
  match b_chain_id b, b_nonce b, b_gas_price b, b_gas_limit b, b_destination b, b_amount b with
  | Some chain_id, Some nonce, Some gas_price, Some gas_limit, Some destination, Some amount =>
      (Ok {| p155_chain_id := chain_id; p155_nonce := nonce; p155_gas_price := gas_price;
              p155_gas_limit := gas_limit; p155_destination := destination; p155_amount := amount;
              p155_data := unwrap_or_default (b_data b) |},
       {| b_chain_id := None; b_nonce := None; b_gas_price := None;
       b_max_priority_fee_per_gas := b_max_priority_fee_per_gas b;
       b_max_fee_per_gas := b_max_fee_per_gas b; b_gas_limit := None; b_destination := None;
       b_amount := None; b_data := None; b_access_list := b_access_list b |})
  | _, _, _, _, _, _ => (Err MissingFields, b)
  end.

(** payload/eip_2930.rs:13-22 *)
Record PayloadEip2930 : Type := {
  p2930_chain_id : bigint; p2930_nonce : Z; p2930_gas_price : bigint; p2930_gas_limit : Z;
  p2930_destination : list Z; p2930_amount : bigint; p2930_data : list Z; p2930_access_list :
  AccessList }.
(** payload/eip_2930.rs:25-57: the payload or the error, and the builder left behind *)
Definition take_and_build_payload_eip_2930 (b : TransactionBuilder)
  : result TransactionBuildingError PayloadEip2930 * TransactionBuilder :=
  match b_chain_id b, b_nonce b, b_gas_price b, b_gas_limit b, b_destination b, b_amount b with
  | Some chain_id, Some nonce, Some gas_price, Some gas_limit, Some destination, Some amount =>
      (Ok {| p2930_chain_id := chain_id; p2930_nonce := nonce; p2930_gas_price := gas_price;
              p2930_gas_limit := gas_limit; p2930_destination := destination; p2930_amount :=
              amount; p2930_data := unwrap_or_default (b_data b); p2930_access_list :=
              unwrap_or_default (b_access_list b) |},
       {| b_chain_id := None; b_nonce := None; b_gas_price := None;
       b_max_priority_fee_per_gas := b_max_priority_fee_per_gas b;
       b_max_fee_per_gas := b_max_fee_per_gas b; b_gas_limit := None; b_destination := None;
       b_amount := None; b_data := None; b_access_list := None |})
  | _, _, _, _, _, _ => (Err MissingFields, b)
  end.

(** payload/eip_1559.rs:13-23 *)
Record PayloadEip1559 : Type := {
  p1559_chain_id : bigint; p1559_nonce : Z; p1559_max_priority_fee_per_gas : bigint;
  p1559_max_fee_per_gas : bigint; p1559_gas_limit : Z; p1559_destination : list Z; p1559_amount :
  bigint; p1559_data : list Z; p1559_access_list : AccessList }.
(** payload/eip_1559.rs:26-61: the payload or the error, and the builder left behind *)
Definition take_and_build_payload_eip_1559 (b : TransactionBuilder)
  : result TransactionBuildingError PayloadEip1559 * TransactionBuilder :=
  match b_chain_id b, b_nonce b, b_max_priority_fee_per_gas b, b_max_fee_per_gas b, b_gas_limit b,
        b_destination b, b_amount b with
  | Some chain_id, Some nonce, Some max_priority_fee_per_gas, Some max_fee_per_gas, Some gas_limit,
    Some destination, Some amount =>
      (Ok {| p1559_chain_id := chain_id; p1559_nonce := nonce; p1559_max_priority_fee_per_gas :=
              max_priority_fee_per_gas; p1559_max_fee_per_gas := max_fee_per_gas; p1559_gas_limit :=
              gas_limit; p1559_destination := destination; p1559_amount := amount; p1559_data :=
              unwrap_or_default (b_data b); p1559_access_list := unwrap_or_default (b_access_list b)
              |},
       {| b_chain_id := None; b_nonce := None; b_gas_price := b_gas_price b;
       b_max_priority_fee_per_gas := None; b_max_fee_per_gas := None; b_gas_limit := None;
       b_destination := None; b_amount := None; b_data := None; b_access_list := None |})
  | _, _, _, _, _, _, _ => (Err MissingFields, b)
  end.

(** * Histories of a builder

    The calls made on one builder: the setters and the four take_and_build functions. *)
Inductive payload_kind := KLegacy | K155 | K2930 | K1559.
Inductive builder_call : Type :=
| SetChainId (v : bigint)
| SetNonce (v : Z)
| SetGasPrice (v : bigint)
| SetMaxPriorityFee (v : bigint)
| SetMaxFee (v : bigint)
| SetGasLimit (v : Z)
| SetDestination (v : list Z)
| SetAmount (v : bigint)
| SetData (v : list Z)
| SetAccessList (v : AccessList)
| Build (k : payload_kind).
Inductive payload : Type :=
| PLegacy (p : PayloadLegacy) | P155 (p : PayloadEip155) | P2930 (p : PayloadEip2930) | P1559 (p : PayloadEip1559).
Definition res_map {E A B} (g : A -> B) (r : result E A) : result E B := match r with Ok a => Ok (g a) | Err e => Err e end.
Definition take_and_build (k : payload_kind) (b : TransactionBuilder) : result TransactionBuildingError payload * TransactionBuilder :=
  match k with
  | KLegacy => let '(r, b') := take_and_build_payload_legacy b in (res_map PLegacy r, b')
  | K155 => let '(r, b') := take_and_build_payload_eip_155 b in (res_map P155 r, b')
  | K2930 => let '(r, b') := take_and_build_payload_eip_2930 b in (res_map P2930 r, b')
  | K1559 => let '(r, b') := take_and_build_payload_eip_1559 b in (res_map P1559 r, b')
  end.
Definition builder_step (b : TransactionBuilder) (c : builder_call) : TransactionBuilder :=
  match c with
  | SetChainId v => with_chain_id v b
  | SetNonce v => with_nonce v b
  | SetGasPrice v => with_gas_price v b
  | SetMaxPriorityFee v => with_max_priority_fee_per_gas v b
  | SetMaxFee v => with_max_fee_per_gas v b
  | SetGasLimit v => with_gas_limit v b
  | SetDestination v => with_destination v b
  | SetAmount v => with_amount v b
  | SetData v => with_data v b
  | SetAccessList v => with_access_list v b
  | Build k => snd (take_and_build k b)
  end.
(** the builder after a sequence of calls on a new one *)
Definition builder_after (h : list builder_call) : TransactionBuilder := fold_left builder_step h builder_new.

Section WithCfg.
Context {cfg : digit_cfg}.

(** payload/legacy_rlp.rs:11-23 *)
Definition encode_payload_legacy (p : PayloadLegacy) (it : encoding_item) : outcome encoding_item :=
  let l := enc_new in
  l <- encode_nonce (pl_nonce p) l ;;
  l <- encode_wei (pl_gas_price p) l ;;
  l <- encode_u64 (pl_gas_limit p) l ;;
  l <- encode_address (pl_destination p) l ;;
  l <- encode_wei (pl_amount p) l ;;
  l <- encode_vec_u8 (pl_data p) l ;;
  encode_list_payload l it.
(** payload/eip_155_rlp.rs:17-32 *)
Definition encode_payload_eip_155 (p : PayloadEip155) (it : encoding_item) : outcome encoding_item :=
  let l := enc_new in
  l <- encode_nonce (p155_nonce p) l ;;
  l <- encode_wei (p155_gas_price p) l ;;
  l <- encode_u64 (p155_gas_limit p) l ;;
  l <- encode_address (p155_destination p) l ;;
  l <- encode_wei (p155_amount p) l ;;
  l <- encode_vec_u8 (p155_data p) l ;;
  l <- encode_chain_id (p155_chain_id p) l ;;
  l <- encode_u64 0 l ;;
  l <- encode_u64 0 l ;;
  encode_list_payload l it.
(** payload/eip_2930_rlp.rs:13-28 *)
Definition encode_payload_eip_2930 (p : PayloadEip2930) (it : encoding_item) : outcome encoding_item :=
  let l := enc_new in
  l <- encode_chain_id (p2930_chain_id p) l ;;
  l <- encode_nonce (p2930_nonce p) l ;;
  l <- encode_wei (p2930_gas_price p) l ;;
  l <- encode_u64 (p2930_gas_limit p) l ;;
  l <- encode_address (p2930_destination p) l ;;
  l <- encode_wei (p2930_amount p) l ;;
  l <- encode_vec_u8 (p2930_data p) l ;;
  l <- encode_access_list (p2930_access_list p) l ;;
  encode_list_payload l it.
(** payload/eip_1559_rlp.rs:13-30 *)
Definition encode_payload_eip_1559 (p : PayloadEip1559) (it : encoding_item) : outcome encoding_item :=
  let l := enc_new in
  l <- encode_chain_id (p1559_chain_id p) l ;;
  l <- encode_nonce (p1559_nonce p) l ;;
  l <- encode_wei (p1559_max_priority_fee_per_gas p) l ;;
  l <- encode_wei (p1559_max_fee_per_gas p) l ;;
  l <- encode_u64 (p1559_gas_limit p) l ;;
  l <- encode_address (p1559_destination p) l ;;
  l <- encode_wei (p1559_amount p) l ;;
  l <- encode_vec_u8 (p1559_data p) l ;;
  l <- encode_access_list (p1559_access_list p) l ;;
  encode_list_payload l it.

(** * Signed transactions *)

(** types/transaction_legacy.rs:16-21 *)
Record TransactionLegacy : Type := { tl_payload : PayloadLegacy; tl_v : Z; tl_r : bigint; tl_s : bigint }.
(** types/transaction_legacy_rlp.rs:17-32 *)
Definition encode_transaction_legacy (t : TransactionLegacy) (it : encoding_item) : outcome encoding_item :=
  let p := tl_payload t in
  let l := enc_new in
  l <- encode_nonce (pl_nonce p) l ;;
  l <- encode_wei (pl_gas_price p) l ;;
  l <- encode_u64 (pl_gas_limit p) l ;;
  l <- encode_address (pl_destination p) l ;;
  l <- encode_wei (pl_amount p) l ;;
  l <- encode_vec_u8 (pl_data p) l ;;
  l <- encode_u64 (tl_v t) l ;;
  l <- encode_biguint (tl_r t) l ;;
  l <- encode_biguint (tl_s t) l ;;
  encode_list_payload l it.
(** types/transaction_legacy_rlp.rs:34-64; the match on the list of items is the length test and the calls of [iter.next()] *)
Definition decode_transaction_legacy (dbg : bool) (d : decoding_item) : outcome (result RlpDataDecodingError TransactionLegacy) :=
  match fst d with
  | SingleValue => Ret (Err InvalidFormat)
  | List =>
      items <-? decode_as_items dbg d ;;
      match items with
      | [i0; i1; i2; i3; i4; i5; i6; i7; i8] =>
          let b := builder_new in
          nonce <-? decode_nonce i0 ;;
          let b := with_nonce nonce b in
          gas_price <-? decode_wei i1 ;;
          let b := with_gas_price gas_price b in
          gas_limit <-? decode_u64 i2 ;;
          let b := with_gas_limit gas_limit b in
          destination <-? decode_address i3 ;;
          let b := with_destination destination b in
          amount <-? decode_wei i4 ;;
          let b := with_amount amount b in
          data <-? decode_vec_u8 i5 ;;
          let b := with_data data b in
          payload <-? Ret (map_err (fun _ => InvalidFormat) (fst (take_and_build_payload_legacy b))) ;;
          v_u64 <-? decode_u64 i6 ;;
          match u8_try_from v_u64 with
          | None => Ret (Err InvalidFormat)
          | Some v =>
              r <-? decode_biguint i7 ;;
              s <-? decode_biguint i8 ;;
              Ret (Ok {| tl_payload := payload; tl_v := v; tl_r := r; tl_s := s |})
          end
      | _ => Ret (Err InvalidFormat)
      end
  end.

(** types/transaction_eip_155.rs:16-21 *)
Record TransactionEip155 : Type := { t155_payload : PayloadEip155; t155_v : bigint; t155_r : bigint; t155_s : bigint }.
(** types/transaction_eip_155_rlp.rs:17-32 *)
Definition encode_transaction_eip_155 (t : TransactionEip155) (it : encoding_item) : outcome encoding_item :=
  let p := t155_payload t in
  let l := enc_new in
  l <- encode_nonce (p155_nonce p) l ;;
  l <- encode_wei (p155_gas_price p) l ;;
  l <- encode_u64 (p155_gas_limit p) l ;;
  l <- encode_address (p155_destination p) l ;;
  l <- encode_wei (p155_amount p) l ;;
  l <- encode_vec_u8 (p155_data p) l ;;
  l <- encode_biguint (t155_v t) l ;;
  l <- encode_biguint (t155_r t) l ;;
  l <- encode_biguint (t155_s t) l ;;
  encode_list_payload l it.
(** types/transaction_eip_155_rlp.rs:34-79; the match on the list of items is the length test and the calls of [iter.next()] *)
Definition decode_transaction_eip_155 (dbg : bool) (d : decoding_item) : outcome (result RlpDataDecodingError TransactionEip155) :=
  match fst d with
  | SingleValue => Ret (Err InvalidFormat)
  | List =>
      items <-? decode_as_items dbg d ;;
      match items with
      | [i0; i1; i2; i3; i4; i5; i6; i7; i8] =>
          nonce <-? decode_nonce i0 ;;
          gas_price <-? decode_wei i1 ;;
          gas_limit <-? decode_u64 i2 ;;
          destination <-? decode_address i3 ;;
          amount <-? decode_wei i4 ;;
          data <-? decode_vec_u8 i5 ;;
          v <-? decode_biguint i6 ;;
          r <-? decode_biguint i7 ;;
          s <-? decode_biguint i8 ;;
          n_35 <- bu_from_uint 35 ;;
          lt <- bi_lt v n_35 ;;
          if (lt : bool) then Ret (Err TransactionTypeMismatch) else
          n <- bu_sub v n_35 ;;
          chain_id_n <- bu_shr n 2 ;;
          let b := builder_new in
          let b := with_chain_id chain_id_n b in
          let b := with_nonce nonce b in
          let b := with_gas_price gas_price b in
          let b := with_gas_limit gas_limit b in
          let b := with_destination destination b in
          let b := with_amount amount b in
          let b := with_data data b in
          payload <-? Ret (map_err (fun _ => InvalidFormat) (fst (take_and_build_payload_eip_155 b))) ;;
          Ret (Ok {| t155_payload := payload; t155_v := v; t155_r := r; t155_s := s |})
      | _ => Ret (Err InvalidFormat)
      end
  end.

(** types/transaction_eip_2930.rs:18-23 *)
Record TransactionEip2930 : Type := { t2930_payload : PayloadEip2930; t2930_y_parity : y_parity; t2930_r : bigint; t2930_s : bigint }.
(** types/transaction_eip_2930_rlp.rs:18-36 *)
Definition encode_transaction_eip_2930 (t : TransactionEip2930) (it : encoding_item) : outcome encoding_item :=
  let p := t2930_payload t in
  let l := enc_new in
  l <- encode_chain_id (p2930_chain_id p) l ;;
  l <- encode_nonce (p2930_nonce p) l ;;
  l <- encode_wei (p2930_gas_price p) l ;;
  l <- encode_u64 (p2930_gas_limit p) l ;;
  l <- encode_address (p2930_destination p) l ;;
  l <- encode_wei (p2930_amount p) l ;;
  l <- encode_vec_u8 (p2930_data p) l ;;
  l <- encode_access_list (p2930_access_list p) l ;;
  l <- encode_u64 (y_parity_u8 (t2930_y_parity t)) l ;;
  l <- encode_biguint (t2930_r t) l ;;
  l <- encode_biguint (t2930_s t) l ;;
  encode_list_payload l it.
(** types/transaction_eip_2930_rlp.rs:38-81; the match on the list of items is the length test and the calls of [iter.next()] *)
Definition decode_transaction_eip_2930 (dbg : bool) (d : decoding_item) : outcome (result RlpDataDecodingError TransactionEip2930) :=
  match fst d with
  | SingleValue => Ret (Err InvalidFormat)
  | List =>
      items <-? decode_as_items dbg d ;;
      match items with
      | [i0; i1; i2; i3; i4; i5; i6; i7; i8; i9; i10] =>
          let b := builder_new in
          chain_id <-? decode_chain_id i0 ;;
          let b := with_chain_id chain_id b in
          nonce <-? decode_nonce i1 ;;
          let b := with_nonce nonce b in
          gas_price <-? decode_wei i2 ;;
          let b := with_gas_price gas_price b in
          gas_limit <-? decode_u64 i3 ;;
          let b := with_gas_limit gas_limit b in
          destination <-? decode_address i4 ;;
          let b := with_destination destination b in
          amount <-? decode_wei i5 ;;
          let b := with_amount amount b in
          data <-? decode_vec_u8 i6 ;;
          let b := with_data data b in
          access_list <-? decode_access_list dbg i7 ;;
          let b := with_access_list access_list b in
          payload <-? Ret (map_err (fun _ => InvalidFormat) (fst (take_and_build_payload_eip_2930 b))) ;;
          y_parity_u64 <-? decode_u64 i8 ;;
          match u8_try_from y_parity_u64 with
          | None => Ret (Err InvalidFormat)
          | Some parity_u8 =>
              match y_parity_from_u8 parity_u8 with
              | None => Ret (Err InvalidFormat)
              | Some y_parity =>
                  r <-? decode_biguint i9 ;;
                  s <-? decode_biguint i10 ;;
                  Ret (Ok {| t2930_payload := payload; t2930_y_parity := y_parity; t2930_r := r; t2930_s := s |})
              end
          end
      | _ => Ret (Err InvalidFormat)
      end
  end.

(** types/transaction_eip_1559.rs:18-23 *)
Record TransactionEip1559 : Type := { t1559_payload : PayloadEip1559; t1559_y_parity : y_parity; t1559_r : bigint; t1559_s : bigint }.
(** types/transaction_eip_1559_rlp.rs:18-41 *)
Definition encode_transaction_eip_1559 (t : TransactionEip1559) (it : encoding_item) : outcome encoding_item :=
  let p := t1559_payload t in
  let l := enc_new in
  l <- encode_chain_id (p1559_chain_id p) l ;;
  l <- encode_nonce (p1559_nonce p) l ;;
  l <- encode_wei (p1559_max_priority_fee_per_gas p) l ;;
  l <- encode_wei (p1559_max_fee_per_gas p) l ;;
  l <- encode_u64 (p1559_gas_limit p) l ;;
  l <- encode_address (p1559_destination p) l ;;
  l <- encode_wei (p1559_amount p) l ;;
  l <- encode_vec_u8 (p1559_data p) l ;;
  l <- encode_access_list (p1559_access_list p) l ;;
  l <- encode_u64 (y_parity_u8 (t1559_y_parity t)) l ;;
  l <- encode_biguint (t1559_r t) l ;;
  l <- encode_biguint (t1559_s t) l ;;
  encode_list_payload l it.
(** types/transaction_eip_1559_rlp.rs:43-87; the match on the list of items is the length test and the calls of [iter.next()] *)
Definition decode_transaction_eip_1559 (dbg : bool) (d : decoding_item) : outcome (result RlpDataDecodingError TransactionEip1559) :=
  match fst d with
  | SingleValue => Ret (Err InvalidFormat)
  | List =>
      items <-? decode_as_items dbg d ;;
      match items with
      | [i0; i1; i2; i3; i4; i5; i6; i7; i8; i9; i10; i11] =>
          let b := builder_new in
          chain_id <-? decode_chain_id i0 ;;
          let b := with_chain_id chain_id b in
          nonce <-? decode_nonce i1 ;;
          let b := with_nonce nonce b in
          max_priority_fee_per_gas <-? decode_wei i2 ;;
          let b := with_max_priority_fee_per_gas max_priority_fee_per_gas b in
          max_fee_per_gas <-? decode_wei i3 ;;
          let b := with_max_fee_per_gas max_fee_per_gas b in
          gas_limit <-? decode_u64 i4 ;;
          let b := with_gas_limit gas_limit b in
          destination <-? decode_address i5 ;;
          let b := with_destination destination b in
          amount <-? decode_wei i6 ;;
          let b := with_amount amount b in
          data <-? decode_vec_u8 i7 ;;
          let b := with_data data b in
          access_list <-? decode_access_list dbg i8 ;;
          let b := with_access_list access_list b in
          payload <-? Ret (map_err (fun _ => InvalidFormat) (fst (take_and_build_payload_eip_1559 b))) ;;
          y_parity_u64 <-? decode_u64 i9 ;;
          match u8_try_from y_parity_u64 with
          | None => Ret (Err InvalidFormat)
          | Some parity_u8 =>
              match y_parity_from_u8 parity_u8 with
              | None => Ret (Err InvalidFormat)
              | Some y_parity =>
                  r <-? decode_biguint i10 ;;
                  s <-? decode_biguint i11 ;;
                  Ret (Ok {| t1559_payload := payload; t1559_y_parity := y_parity; t1559_r := r; t1559_s := s |})
              end
          end
      | _ => Ret (Err InvalidFormat)
      end
  end.

(** types/transaction_eip_2930.rs:25-29 and 63-74 *)
Definition eip_2930_type : Z := 1.
Definition transaction_eip_2930_encode (t : TransactionEip2930) : outcome (list Z) :=
  rlp_data <- encode encode_transaction_eip_2930 t ;; Ret (eip_2930_type :: rlp_data).
(** types/transaction_eip_1559.rs:25-29 and 59-69 *)
Definition eip_1559_type : Z := 2.
Definition transaction_eip_1559_encode (t : TransactionEip1559) : outcome (list Z) :=
  rlp_data <- encode encode_transaction_eip_1559 t ;; Ret (eip_1559_type :: rlp_data).

End WithCfg.

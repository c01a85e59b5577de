(** Specification of typed RLP decoding on arbitrary bytes: which byte strings are
    accepted and as what, and which make the decoder panic. *)

From Verif Require Import Base M_Parity M_BigInt M_Rlp M_EthTypes M_Tx S_BigInt S_Rlp S_EthTypes S_Tx.
Open Scope Z_scope.

(** * Acceptance

    [means t i v]: the tree [i] is a value [v] of type [t].  Integers may have leading
    zeros. *)
Definition ali_means (i : item) (v : AccessListItem) : Prop :=
  i = ali_item v /\ length (ali_address v) = 20%nat /\ Forall (fun k => length k = 32%nat) (ali_storage_keys v).

Section WithCfg.
Context {cfg : digit_cfg}.
Fixpoint means (t : rlp_ty) : item -> den t -> Prop :=
  match t as t return item -> den t -> Prop with
  | Tu64 => fun i n => exists b, i = Str b /\ (length b <= 8)%nat /\ n = be_val b
  | TNonce => fun i n => exists b, i = Str b /\ (length b <= 8)%nat /\ n = be_val b /\ n <> 2 ^ 64 - 1
  | TBigUint | TChainId | TWei => fun i x => exists b, i = Str b /\ wf x /\ bi_val x = be_val b
  | TBytes => fun i b => i = Str b
  | TString => fun i b => i = Str b /\ UTF8 b
  | TAddress => fun i b => i = Str b /\ length b = 20%nat
  | TStorageKey => fun i b => i = Str b /\ length b = 32%nat
  | TAccessListItem => ali_means
  | TAccessList => fun i v => exists l, i = Lst l /\ Forall2 ali_means l v
  | TVec t => fun i v => exists l, i = Lst l /\ Forall2 (means t) l v
  end.

Definition means_legacy (i : item) (t : TransactionLegacy) : Prop :=
  let p := tl_payload t in
  exists i0 i1 i2 i3 i4 i5 i6 i7 i8, i = Lst [i0; i1; i2; i3; i4; i5; i6; i7; i8] /\
    means TNonce i0 (pl_nonce p) /\ means TWei i1 (pl_gas_price p) /\ means Tu64 i2 (pl_gas_limit p) /\
    means TAddress i3 (pl_destination p) /\ means TWei i4 (pl_amount p) /\ means TBytes i5 (pl_data p) /\
    (means Tu64 i6 (tl_v t) /\ tl_v t < 256) /\ means TBigUint i7 (tl_r t) /\ means TBigUint i8 (tl_s t).
(** what an EIP-155 transaction is read from, all but the chain id *)
Definition means_155_fields (i : item) (t : TransactionEip155) : Prop :=
  let p := t155_payload t in
  exists i0 i1 i2 i3 i4 i5 i6 i7 i8, i = Lst [i0; i1; i2; i3; i4; i5; i6; i7; i8] /\
    means TNonce i0 (p155_nonce p) /\ means TWei i1 (p155_gas_price p) /\ means Tu64 i2 (p155_gas_limit p) /\
    means TAddress i3 (p155_destination p) /\ means TWei i4 (p155_amount p) /\ means TBytes i5 (p155_data p) /\
    means TBigUint i6 (t155_v t) /\ means TBigUint i7 (t155_r t) /\ means TBigUint i8 (t155_s t).
(** the chain id is what the code makes of v: a quarter of v - 35, not half of it *)
Definition means_155 (i : item) (t : TransactionEip155) : Prop :=
  means_155_fields i t /\ 35 <= bi_val (t155_v t) /\
  wf (p155_chain_id (t155_payload t)) /\ bi_val (p155_chain_id (t155_payload t)) = (bi_val (t155_v t) - 35) / 4.
Definition means_2930 (i : item) (t : TransactionEip2930) : Prop :=
  let p := t2930_payload t in
  exists i0 i1 i2 i3 i4 i5 i6 i7 i8 i9 i10, i = Lst [i0; i1; i2; i3; i4; i5; i6; i7; i8; i9; i10] /\
    means TChainId i0 (p2930_chain_id p) /\ means TNonce i1 (p2930_nonce p) /\ means TWei i2 (p2930_gas_price p) /\
    means Tu64 i3 (p2930_gas_limit p) /\ means TAddress i4 (p2930_destination p) /\ means TWei i5 (p2930_amount p) /\
    means TBytes i6 (p2930_data p) /\ means TAccessList i7 (p2930_access_list p) /\
    means Tu64 i8 (parity (t2930_y_parity t)) /\ means TBigUint i9 (t2930_r t) /\ means TBigUint i10 (t2930_s t).
Definition means_1559 (i : item) (t : TransactionEip1559) : Prop :=
  let p := t1559_payload t in
  exists i0 i1 i2 i3 i4 i5 i6 i7 i8 i9 i10 i11, i = Lst [i0; i1; i2; i3; i4; i5; i6; i7; i8; i9; i10; i11] /\
    means TChainId i0 (p1559_chain_id p) /\ means TNonce i1 (p1559_nonce p) /\
    means TWei i2 (p1559_max_priority_fee_per_gas p) /\ means TWei i3 (p1559_max_fee_per_gas p) /\
    means Tu64 i4 (p1559_gas_limit p) /\ means TAddress i5 (p1559_destination p) /\ means TWei i6 (p1559_amount p) /\
    means TBytes i7 (p1559_data p) /\ means TAccessList i8 (p1559_access_list p) /\
    means Tu64 i9 (parity (t1559_y_parity t)) /\ means TBigUint i10 (t1559_r t) /\ means TBigUint i11 (t1559_s t).
(** equality of EIP-155 transactions, with the chain id *)
Definition tx_same_155 (t u : TransactionEip155) : Prop :=
  tx_same_but_chain_155 t u /\ same_int (p155_chain_id (t155_payload t)) (p155_chain_id (t155_payload u)).
End WithCfg.

(** * Panics *)

(** an item that has not been looked into: its type and its payload *)
Definition chunk : Type := RlpItemType * list Z.
(** the bytes of one item, header included *)
Inductive chunk_bytes : chunk -> list Z -> Prop :=
| chunk_byte b : 0 <= b < 128 -> chunk_bytes (SingleValue, [b]) [b]
| chunk_header t h p : header t h (Z.of_nat (length p)) -> chunk_bytes (t, p) (h ++ p).
Inductive chunks_bytes : list chunk -> list Z -> Prop :=
| chunks_nil : chunks_bytes [] []
| chunks_cons d x ds y : chunk_bytes d x -> chunks_bytes ds y -> chunks_bytes (d :: ds) (x ++ y).
(** after some items comes a header whose length overflows *)
Definition jams (p : list Z) : Prop :=
  exists ds x y, chunks_bytes ds x /\ overflowing_header y /\ p = x ++ y.

(** an item that is the tree [i] *)
Definition chunk_tree (i : item) (d : chunk) : Prop :=
  match i with Str b => d = (SingleValue, b) | Lst l => fst d = List /\ lax_items l (snd d) end.

(** a list whose items jam, or of which one breaks and those before are good *)
Definition list_breaks (good breaks : chunk -> Prop) (d : chunk) : Prop :=
  fst d = List /\
  (jams (snd d) \/
   exists before x after, chunks_bytes (before ++ x :: after) (snd d) /\ Forall good before /\ breaks x).
(** in debug builds decoding a Vec from something that is not a list panics *)
Definition vec_breaks (dbg : bool) (good breaks : chunk -> Prop) (d : chunk) : Prop :=
  dbg = true /\ fst d = SingleValue \/ list_breaks good breaks d.

Inductive tree_breaks : chunk -> Prop :=
| tree_jams p : jams p -> tree_breaks (List, p)
| tree_inside p before x after : chunks_bytes (before ++ x :: after) p ->
    Forall (fun d => exists i, chunk_tree i d) before -> tree_breaks x -> tree_breaks (List, p).

Definition never (d : chunk) : Prop := False.
Definition is_key (d : chunk) : Prop := exists k, d = (SingleValue, k) /\ length k = 32%nat.
Definition is_ali (d : chunk) : Prop := exists i v, chunk_tree i d /\ ali_means i v.
(** an access list item: jams, or an address is followed by something that is no list of keys *)
Definition ali_breaks (dbg : bool) (d : chunk) : Prop :=
  fst d = List /\
  (jams (snd d) \/
   exists a k, chunks_bytes [(SingleValue, a); k] (snd d) /\ length a = 20%nat /\ vec_breaks dbg is_key never k).

Section WithCfg2.
Context {cfg : digit_cfg}.
Fixpoint breaks (dbg : bool) (t : rlp_ty) : chunk -> Prop :=
  match t with
  | TVec t => vec_breaks dbg (fun d => exists i v, chunk_tree i d /\ means t i v) (breaks dbg t)
  | TAccessListItem => ali_breaks dbg
  | TAccessList => list_breaks is_ali (ali_breaks dbg)
  | _ => never
  end.

(** the items before the access list are as they have to be, and the access list breaks *)
Definition starts (ts : list rlp_ty) (ds : list chunk) : Prop :=
  Forall2 (fun t d => exists i v, chunk_tree i d /\ means t i v) ts ds.
Definition tx_breaks (dbg : bool) (ts : list rlp_ty) (k : nat) (d : chunk) : Prop :=
  fst d = List /\
  (jams (snd d) \/
   exists before x after, chunks_bytes (before ++ x :: after) (snd d) /\ starts ts before /\ length after = k /\
     list_breaks is_ali (ali_breaks dbg) x).
Definition flat_breaks (d : chunk) : Prop := fst d = List /\ jams (snd d).
Definition breaks_2930 (dbg : bool) : chunk -> Prop := tx_breaks dbg [TChainId; TNonce; TWei; Tu64; TAddress; TWei; TBytes] 3.
Definition breaks_1559 (dbg : bool) : chunk -> Prop := tx_breaks dbg [TChainId; TNonce; TWei; TWei; Tu64; TAddress; TWei; TBytes] 3.
End WithCfg2.

(** decoding the bytes [data]: the outermost header overflows, or the item breaks *)
Definition data_breaks (dbg : bool) (B : chunk -> Prop) (data : list Z) : Prop :=
  dbg = true /\ overflowing_header data \/ exists d, chunk_bytes d data /\ B d.

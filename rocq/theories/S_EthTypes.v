(** Specification of the RLP form of the Ethereum types, and of EIP-55. *)

From Verif Require Import Base M_BigInt M_Hmac M_Rlp M_EthTypes S_BigInt S_Hash S_Rlp.
Open Scope Z_scope.

(** UTF-8 (RFC 3629): the concatenation of the forms of Unicode scalar values *)
Definition scalar (c : Z) : Prop := 0 <= c <= 0x10ffff /\ ~ 0xd800 <= c <= 0xdfff.
Definition utf8_form (c : Z) : list Z :=
  if c <? 0x80 then [c]
  else if c <? 0x800 then [0xc0 + c / 64; 0x80 + c mod 64]
  else if c <? 0x10000 then [0xe0 + c / 64 / 64; 0x80 + c / 64 mod 64; 0x80 + c mod 64]
  else [0xf0 + c / 64 / 64 / 64; 0x80 + c / 64 / 64 mod 64; 0x80 + c / 64 mod 64; 0x80 + c mod 64].
Definition UTF8 (s : list Z) : Prop := exists cs, Forall scalar cs /\ s = flat_map utf8_form cs.

Section WithCfg.
Context {cfg : digit_cfg}.

(** the invariants of the Rust types: u64 and u8 ranges, array lengths, UTF-8 strings,
    nonces below 2^64-1, non-negative BigUints *)
Fixpoint ok (t : rlp_ty) : den t -> Prop :=
  match t as t return den t -> Prop with
  | Tu64 => fun n => 0 <= n < 2 ^ 64
  | TNonce => fun n => 0 <= n < 2 ^ 64 - 1
  | TBigUint | TChainId | TWei => fun x => wf x /\ 0 <= bi_val x
  | TBytes => bytes
  | TString => fun s => bytes s /\ UTF8 s
  | TAddress => fun a => bytes a /\ length a = 20%nat
  | TStorageKey => fun k => bytes k /\ length k = 32%nat
  | TAccessListItem => fun i =>
      (bytes (ali_address i) /\ length (ali_address i) = 20%nat) /\
      Forall (fun k => bytes k /\ length k = 32%nat) (ali_storage_keys i)
  | TAccessList => Forall (fun i =>
      (bytes (ali_address i) /\ length (ali_address i) = 20%nat) /\
      Forall (fun k => bytes k /\ length k = 32%nat) (ali_storage_keys i))
  | TVec t => Forall (ok t)
  end.

(** the RLP item of a value: integers are byte strings without leading zeros,
    records and vectors are lists *)
Definition ali_item (i : AccessListItem) : item := Lst [Str (ali_address i); Lst (map Str (ali_storage_keys i))].
Fixpoint item_of (t : rlp_ty) : den t -> item :=
  match t as t return den t -> item with
  | Tu64 | TNonce => fun n => Str (BE n)
  | TBigUint | TChainId | TWei => fun x => Str (BE (bi_val x))
  | TBytes | TString | TAddress | TStorageKey => fun b => Str b
  | TAccessListItem => ali_item
  | TAccessList => fun l => Lst (map ali_item l)
  | TVec t => fun l => Lst (map (item_of t) l)
  end.

(** equality of values; two BigUints are compared as numbers *)
Definition same_int (x y : bigint) : Prop := wf y /\ bi_val x = bi_val y.
Fixpoint same (t : rlp_ty) : den t -> den t -> Prop :=
  match t as t return den t -> den t -> Prop with
  | TBigUint | TChainId | TWei => same_int
  | TVec t => Forall2 (same t)
  | _ => fun x y => x = y
  end.
End WithCfg.

(** EIP-55: the hexadecimal address with the i-th digit in upper case when it is a
    letter and the i-th hexadecimal digit of keccak256 of the (lower case, ASCII)
    hexadecimal address is at least 8. *)
Definition hex_digit (d : Z) : Z := if d <? 10 then 48 + d else 87 + d.
Definition HEX_digit (d : Z) : Z := if d <? 10 then 48 + d else 55 + d.
(** the hexadecimal digits (as numbers) of a byte string *)
Definition nibbles (bs : list Z) : list Z := flat_map (fun b => [b / 16; b mod 16]) bs.
Definition EIP55 (a : list Z) : list Z :=
  let h := nibbles (HASH Keccak256 (map hex_digit (nibbles a))) in
  map (fun '(d, x) => if 8 <=? x then HEX_digit d else hex_digit d) (combine (nibbles a) h).

(** ** Histories of an encoder *)
Section History.
Context {cfg : digit_cfg}.
Definition RLP_of (t : rlp_ty) (v : den t) : option (list Z) := RLP (item_of t v).
(** each take_data is due the concatenation of the RLPs of the values encoded since the
    one before; [acc]: what is already there; the second result is left in the encoder *)
Fixpoint due (cs : list rlp_call) (acc : list Z) : option (list (list Z) * list Z) :=
  match cs with
  | [] => Some ([], acc)
  | CEncode t v :: cs' => match RLP_of t v with Some s => due cs' (acc ++ s) | None => None end
  | CTake :: cs' => match due cs' [] with Some (outs, rest) => Some (acc :: outs, rest) | None => None end
  end.
Definition call_ok (c : rlp_call) : Prop := match c with CEncode t v => ok t v | CTake => True end.
End History.

(** types whose decoder never reaches the one of Vec<T>, which asserts in debug builds
    that the item is a list *)
Definition no_vec (t : rlp_ty) : bool :=
  match t with TVec _ | TAccessList | TAccessListItem => false | _ => true end.

(** ** Chain ids, as registered in EIP-155: the id and the chain with that id *)
Definition registered : list (Z * Chain) :=
  [(1, EthereumMainnet); (2, ExpanseMainnet); (3, Ropsten); (4, Rinkeby); (5, Goerli); (42, Kovan); (1337, GethPrivateChains)].

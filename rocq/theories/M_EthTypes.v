(** Model of src/blockchain/ethereum/types. *)

From Verif Require Import Base M_Codec M_BigInt M_BigText M_Hmac M_Rlp.
Open Scope Z_scope.

(** * Byte arrays *)

(** src/blockchain/ethereum/types/address.rs:20, storage_key.rs:15: an array [u8; n]
    is the list of its n elements *)
Definition ADDRESS_DATA_BYTE_LENGTH : nat := 20.
Definition STORAGE_KEY_DATA_BYTE_LENGTH : nat := 32.

(** [<[u8; n]>::try_from(&[u8])] *)
Definition array_try_from (n : nat) (bs : list Z) : option (list Z) :=
  if Nat.eqb (length bs) n then Some bs else None.

(** address.rs:24-26, null *)
Definition address_null : list Z := repeat 0 20.
(** address.rs:28-34 *)
Definition address_from_bytes (bs : list Z) : option (list Z) := array_try_from ADDRESS_DATA_BYTE_LENGTH bs.
(** address.rs:36-42 *)
Definition address_from_hex (hex : list Z) : option (list Z) :=
  match hex_to_bytes hex with Ok bs => address_from_bytes bs | Err _ => None end.
(** address.rs:94-116, eip_55_checksum_encode: the loop over [zip] *)
Fixpoint eip_55_loop (zipped : list (Z * Z)) (acc : list Z) : outcome (list Z) :=
  match zipped with
  | [] => Ret acc
  | (c1, c2) :: t =>
      if (48 <=? c1) && (c1 <=? 57) then eip_55_loop t (acc ++ [c1])
      else if (97 <=? c1) && (c1 <=? 102) then
        if 55 <? c2 then eip_55_loop t (acc ++ [c1 - 32]) else eip_55_loop t (acc ++ [c1])
      else Panic
  end%bool.
(** [be]: big-endian target *)
Definition eip_55_checksum_encode (be : bool) (address_lower_hex : list Z) : outcome (list Z) :=
  '(d, _) <- h_digest (hasher_of be Keccak256) (h_new (hasher_of be Keccak256)) address_lower_hex ;;
  let hashed_address_lower_hex := bytes_to_lower_hex d in
  r <- eip_55_loop (combine address_lower_hex hashed_address_lower_hex) [] ;;
  assert! (Nat.eqb (length r) 40) ;;
  Ret r.
(** address.rs:50-53; String::from_utf8 does not fail on the ASCII bytes produced *)
Definition to_checksummed_hex (be : bool) (a : list Z) : outcome (list Z) :=
  eip_55_checksum_encode be (bytes_to_lower_hex a).
(** address.rs:56-61, Display *)
Definition address_display (be : bool) (a : list Z) : outcome (list Z) :=
  h <- to_checksummed_hex be a ;; Ret (48 :: 120 :: h).
(** address.rs:69-83, TryFrom<&str> *)
Definition address_try_from (s : list Z) : result parse_int_error (list Z) :=
  match s with
  | 48 :: 120 :: s' => match address_from_hex s' with Some a => Ok a | None => Err PInvalidInput end
  | _ => Err PInvalidInput
  end.

(** storage_key.rs:18-24 *)
Definition storage_key_from_bytes (bs : list Z) : option (list Z) := array_try_from STORAGE_KEY_DATA_BYTE_LENGTH bs.
(** storage_key.rs:26-32 *)
Definition storage_key_from_hex (hex : list Z) : option (list Z) :=
  match hex_to_bytes hex with Ok bs => storage_key_from_bytes bs | Err _ => None end.
(** storage_key.rs:36-46, Display *)
Definition storage_key_display (k : list Z) : list Z := 48 :: 120 :: bytes_to_lower_hex k.
(** storage_key.rs:54-68, TryFrom<&str> *)
Definition storage_key_try_from (s : list Z) : result parse_int_error (list Z) :=
  match s with
  | 48 :: 120 :: s' => match storage_key_from_hex s' with Some a => Ok a | None => Err PInvalidInput end
  | _ => Err PInvalidInput
  end.

(** * Integers *)

(** eoa_nonce.rs:25-31, EoaNonce::from_u64; an EoaNonce is its field 0 *)
Definition nonce_from_u64 (n : Z) : option Z := if n =? 2 ^ 64 - 1 then None else Some n.
(** eoa_nonce.rs:33-35 *)
Definition nonce_value (n : Z) : Z := n.
(** eoa_nonce.rs:38-47, TryFrom<u64>; the text of the error is not modelled *)
Definition nonce_try_from (n : Z) : result unit Z :=
  match nonce_from_u64 n with None => Err tt | Some n => Ok n end.

Section WithCfg.
Context {cfg : digit_cfg}.

(** currency_unit.rs:21: a Wei is its BigUint *)
(** currency_unit.rs:27-29 *)
Definition wei_from_hex (hex : list Z) : outcome (result parse_int_error bigint) := bu_from_hex hex.
(** currency_unit.rs:32-34 *)
Definition wei_from_decimal (s : list Z) : outcome (result parse_int_error bigint) := bu_from_str_radix s 10.
(** currency_unit.rs:36-38 *)
Definition wei_to_be_bytes (w : bigint) : outcome (list Z) := bu_to_be_bytes w.
(** currency_unit.rs:47-54 *)
Definition wei_try_from (s : list Z) : outcome (result parse_int_error bigint) := bu_try_from s.
(** currency_unit.rs:56-61 *)
Definition wei_display (w : bigint) : outcome (list Z) := hex <- bu_to_lower_hex w ;; Ret (48 :: 120 :: hex).

(** chain_id.rs:13-25: a ChainId is its BigUint *)
Definition chain_id_from_u64 (n : Z) : outcome bigint := bu_from_uint n.
(** chain_id.rs:27-31 *)
Definition chain_id_display (c : bigint) : outcome (list Z) := bu_display c.
(** chain_id.rs:33-49, Chain and Chain::id *)
Inductive Chain := EthereumMainnet | ExpanseMainnet | Ropsten | Rinkeby | Goerli | Kovan | GethPrivateChains.
Definition chain_u64 (c : Chain) : Z :=
  match c with
  | EthereumMainnet => 1 | ExpanseMainnet => 2 | Ropsten => 3 | Rinkeby => 4 | Goerli => 5 | Kovan => 42
  | GethPrivateChains => 1337
  end.
Definition chain_id_of (c : Chain) : outcome bigint := bu_from_uint (chain_u64 c).

(** * RLP *)

(** address_rlp.rs:14-18 *)
Definition encode_address (a : list Z) (it : encoding_item) : outcome encoding_item := encode_bytes a it.
(** address_rlp.rs:20-34 *)
Definition decode_address (d : decoding_item) : outcome (result RlpDataDecodingError (list Z)) :=
  match fst d with
  | SingleValue =>
      bs <-? decode_as_bytes d ;;
      match address_from_bytes bs with Some a => Ret (Ok a) | None => Ret (Err InvalidFormat) end
  | List => Ret (Err InvalidFormat)
  end.
(** storage_key_rlp.rs:13-17 *)
Definition encode_storage_key (k : list Z) (it : encoding_item) : outcome encoding_item := encode_bytes k it.
(** storage_key_rlp.rs:19-27 *)
Definition decode_storage_key (d : decoding_item) : outcome (result RlpDataDecodingError (list Z)) :=
  bs <-? decode_as_bytes d ;;
  match storage_key_from_bytes bs with None => Ret (Err InvalidFormat) | Some k => Ret (Ok k) end.
(** eoa_nonce_rlp.rs:13-17 *)
Definition encode_nonce (n : Z) (it : encoding_item) : outcome encoding_item := encode_u64 (nonce_value n) it.
(** eoa_nonce_rlp.rs:19-27 *)
Definition decode_nonce (d : decoding_item) : outcome (result RlpDataDecodingError Z) :=
  n <-? decode_u64 d ;;
  nonce <-? Ret (map_err (fun _ => InvalidFormat) (nonce_try_from n)) ;;
  Ret (Ok nonce).
(** chain_id_rlp.rs:14-25 *)
Definition encode_chain_id (c : bigint) (it : encoding_item) : outcome encoding_item := encode_biguint c it.
Definition decode_chain_id (d : decoding_item) : outcome (result RlpDataDecodingError bigint) :=
  n <-? decode_biguint d ;; Ret (Ok n).
(** currency_unit_rlp.rs:14-25 *)
Definition encode_wei (w : bigint) (it : encoding_item) : outcome encoding_item := encode_biguint w it.
Definition decode_wei (d : decoding_item) : outcome (result RlpDataDecodingError bigint) :=
  n <-? decode_biguint d ;; Ret (Ok n).

End WithCfg.

(** access_list.rs:11-14 *)
Record AccessListItem : Type := { ali_address : list Z; ali_storage_keys : list (list Z) }.
(** access_list.rs:30 *)
Definition AccessList : Type := list AccessListItem.

(** access_list_rlp.rs:15-23 *)
Definition encode_access_list_item (a : AccessListItem) (it : encoding_item) : outcome encoding_item :=
  item <- encode_address (ali_address a) enc_new ;;
  item <- encode_vec encode_storage_key (ali_storage_keys a) item ;;
  encode_list_payload item it.
(** access_list_rlp.rs:25-45 *)
Definition decode_access_list_item (dbg : bool) (d : decoding_item) : outcome (result RlpDataDecodingError AccessListItem) :=
  match fst d with
  | SingleValue => Ret (Err InvalidFormat)
  | List =>
      items <-? decode_as_items dbg d ;;
      match items with
      | [i0; i1] =>
          address <-? decode_address i0 ;;
          storage_keys <-? decode_vec dbg decode_storage_key i1 ;;
          Ret (Ok {| ali_address := address; ali_storage_keys := storage_keys |})
      | _ => Ret (Err InvalidFormat)
      end
  end.
(** access_list_rlp.rs:47-51 *)
Definition encode_access_list (l : AccessList) (it : encoding_item) : outcome encoding_item :=
  encode_vec encode_access_list_item l it.
(** access_list_rlp.rs:53-63 *)
Definition decode_access_list (dbg : bool) (d : decoding_item) : outcome (result RlpDataDecodingError AccessList) :=
  match fst d with
  | SingleValue => Ret (Err InvalidFormat)
  | List => items <-? decode_vec dbg (decode_access_list_item dbg) d ;; Ret (Ok items)
  end.

(** * The types with RLP codecs

    [rlp_ty] names them, [Vec<T>] for every such [T]; [den] is the model of the type,
    [enc] and [dec] its trait implementations. *)
Inductive rlp_ty : Set :=
| Tu64 | TBigUint | TBytes | TString | TAddress | TStorageKey | TNonce | TChainId | TWei
| TAccessListItem | TAccessList
| TVec (t : rlp_ty).

Fixpoint den (t : rlp_ty) : Type :=
  match t with
  | Tu64 | TNonce => Z
  | TBigUint | TChainId | TWei => bigint
  | TBytes | TString | TAddress | TStorageKey => list Z
  | TAccessListItem => AccessListItem
  | TAccessList => AccessList
  | TVec t => list (den t)
  end.

Section WithCfg2.
Context {cfg : digit_cfg}.
Fixpoint enc (t : rlp_ty) : den t -> encoding_item -> outcome encoding_item :=
  match t as t return den t -> encoding_item -> outcome encoding_item with
  | Tu64 => encode_u64 | TBigUint => encode_biguint | TBytes => encode_vec_u8 | TString => encode_str
  | TAddress => encode_address | TStorageKey => encode_storage_key | TNonce => encode_nonce
  | TChainId => encode_chain_id | TWei => encode_wei
  | TAccessListItem => encode_access_list_item | TAccessList => encode_access_list
  | TVec t => encode_vec (enc t)
  end.
Fixpoint dec (dbg : bool) (t : rlp_ty) : decoding_item -> outcome (result RlpDataDecodingError (den t)) :=
  match t as t return decoding_item -> outcome (result RlpDataDecodingError (den t)) with
  | Tu64 => decode_u64 | TBigUint => decode_biguint | TBytes => decode_vec_u8 | TString => decode_string
  | TAddress => decode_address | TStorageKey => decode_storage_key | TNonce => decode_nonce
  | TChainId => decode_chain_id | TWei => decode_wei
  | TAccessListItem => decode_access_list_item dbg | TAccessList => decode_access_list dbg
  | TVec t => decode_vec dbg (dec dbg t)
  end.
End WithCfg2.

(** * Histories of an encoder object

    The calls on one RlpEncodingItem: encode a value of some type with [encode_to], or
    [take_data] (rlp/encoder.rs:43-45).  [run_calls] returns the outputs of the
    [take_data] calls, in order, and the final state. *)
Inductive rlp_call : Type := CEncode (t : rlp_ty) (v : den t) | CTake.
Fixpoint run_calls {cfg : digit_cfg} (cs : list rlp_call) (it : encoding_item) : outcome (list (list Z) * encoding_item) :=
  match cs with
  | [] => Ret ([], it)
  | CEncode t v :: cs' => it <- enc t v it ;; run_calls cs' it
  | CTake :: cs' => let '(data, it) := take_data it in
                    '(outs, it) <- run_calls cs' it ;; Ret (data :: outs, it)
  end.

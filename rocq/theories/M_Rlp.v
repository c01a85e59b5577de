(** Model of src/blockchain/ethereum/rlp (encoding.rs, decoding.rs, encoder.rs,
    decoder.rs), src/tools/bytes.rs and src/tools/codable/core.rs.

    [dbg] says whether the build has debug assertions and overflow checks.
    A 64-bit target is assumed: [usize] has 8 bytes. *)

From Verif Require Import Base M_BigInt M_BigText.
Open Scope Z_scope.

(** src/tools/bytes.rs:20-26, strip_leading_zeros *)
Definition strip_leading_zeros (bs : list Z) : outcome (list Z) :=
  match position (fun x => negb (x =? 0)) bs with
  | Some i => slice_from bs i
  | None => Ret []
  end.

(** src/blockchain/ethereum/rlp/core.rs:18-22 *)
Inductive RlpItemType : Set := SingleValue | List.
Definition item_type_eqb (a b : RlpItemType) : bool :=
  match a, b with SingleValue, SingleValue => true | List, List => true | _, _ => false end.

(** src/blockchain/ethereum/rlp/core.rs:29 *)
Definition MAX_BYTE_LENGTH_OF_PAYLOAD_BYTE_LENGTH : nat := 8.

(** addition of u8, and of usize in the given build *)
Definition u8_add (a b : Z) : outcome Z := if a + b <? 256 then Ret (a + b) else Panic.
Definition usize_add (dbg : bool) (a b : Z) : outcome Z :=
  if a + b <? 2 ^ 64 then Ret (a + b) else if dbg then Panic else Ret ((a + b) mod 2 ^ 64).

(** src/blockchain/ethereum/rlp/encoding.rs:35-89, encode_payload_length *)
Definition encode_payload_length (item_type : RlpItemType) (payload : list Z) : outcome (list Z) :=
  let payload_length := Z.of_nat (length payload) in
  b <- (if (item_type_eqb item_type SingleValue && (payload_length =? 1))%bool
        then x <- index payload 0 ;; Ret (x <? 0x80) else Ret false) ;;
  if (b : bool) then Ret []
  else if payload_length <? 56 then
    match item_type with
    | SingleValue => h <- u8_add 0x80 (payload_length mod 256) ;; Ret [h]
    | List => h <- u8_add 0xc0 (payload_length mod 256) ;; Ret [h]
    end
  else
    let base_value := match item_type with SingleValue => 0xb7 | List => 0xf7 end in
    payload_length_bytes <- strip_leading_zeros (to_be 8 payload_length) ;;
    assert! (Nat.leb (length payload_length_bytes) MAX_BYTE_LENGTH_OF_PAYLOAD_BYTE_LENGTH) ;;
    h <- u8_add base_value (Z.of_nat (length payload_length_bytes) mod 256) ;;
    Ret (h :: payload_length_bytes).

(** src/blockchain/ethereum/rlp/encoding.rs:20-27, encode_item *)
Definition encode_item (item_type : RlpItemType) (payload : list Z) : outcome (list Z) :=
  header <- encode_payload_length item_type payload ;;
  Ret (header ++ payload).

(** src/blockchain/ethereum/rlp/encoding.rs:14-16, encode_single_value *)
Definition encode_single_value (payload : list Z) : outcome (list Z) :=
  encode_item SingleValue payload.

(** src/blockchain/ethereum/rlp/decoding.rs:162-167; the message of the error is not modelled *)
Inductive RlpDataDecodingError : Set := InvalidFormat | TransactionTypeMismatch.

(** src/blockchain/ethereum/rlp/decoding.rs:91-117 and 134-158, the two branches for a
    long payload, which are the same code for the two item types.
    [n]: byte_length_of_payload_byte_length *)
Definition decode_long_header (dbg : bool) (item_type : RlpItemType) (n : Z) (data : list Z) :
  outcome (result RlpDataDecodingError (RlpItemType * Z * Z)) :=
  let len := Z.of_nat (length data) in
  t <- usize_add dbg 1 n ;;
  if len <? t then Ret (Err InvalidFormat) else
  assert! (n <=? 8) ;;
  src <- slice data 1 (Z.to_nat n + 1) ;;
  let payload_byte_length_bytes := repeat 0 (8 - Z.to_nat n) ++ src in
  let payload_byte_length := be_val payload_byte_length_bytes in
  t <- usize_add dbg 1 n ;;
  t <- usize_add dbg t payload_byte_length ;;
  if len <? t then Ret (Err InvalidFormat) else
  h <- u8_add 1 n ;;
  Ret (Ok (item_type, h, payload_byte_length)).

(** src/blockchain/ethereum/rlp/decoding.rs:60-160, decode_data_header *)
Definition decode_data_header (dbg : bool) (data : list Z) :
  outcome (result RlpDataDecodingError (RlpItemType * Z * Z)) :=
  match data with
  | [] => Ret (Err InvalidFormat)
  | first :: _ =>
      if first <=? 0x7f then Ret (Ok (SingleValue, 0, 1))
      else if first <=? 0xb7 then Ret (Ok (SingleValue, 1, first - 0x80))
      else if first <=? 0xbf then decode_long_header dbg SingleValue (first - 0xb7) data
      else if first <=? 0xf7 then Ret (Ok (List, 1, first - 0xc0))
      else decode_long_header dbg List (first - 0xf7) data
  end.

(** src/blockchain/ethereum/rlp/decoding.rs:18-25, decode_data *)
Definition decode_data (dbg : bool) (data : list Z) :
  outcome (result RlpDataDecodingError (RlpItemType * list Z)) :=
  '(item_type, header_byte_length, payload_byte_length) <-? decode_data_header dbg data ;;
  t <- usize_add dbg header_byte_length payload_byte_length ;;
  if negb (Z.of_nat (length data) =? t) then Ret (Err InvalidFormat) else
  payload <- slice_from data (Z.to_nat header_byte_length) ;;
  Ret (Ok (item_type, payload)).

(** src/blockchain/ethereum/rlp/decoding.rs:28-52, decode_list_payload: the loop *)
Fixpoint decode_list_loop (dbg : bool) (fuel : nat) (remaining : list Z) (item_list : list (RlpItemType * list Z)) :
  outcome (result RlpDataDecodingError (list (RlpItemType * list Z))) :=
  match fuel with
  | O => OutOfFuel
  | S fuel' =>
      match remaining with
      | [] => Ret (Ok item_list)
      | _ =>
          '(item_type, header_byte_length, payload_byte_length) <-? decode_data_header dbg remaining ;;
          t <- usize_add dbg header_byte_length payload_byte_length ;;
          if Z.of_nat (length remaining) <? t then Ret (Err InvalidFormat) else
          data1 <- slice_to remaining (Z.to_nat t) ;;
          data2 <- slice_from remaining (Z.to_nat t) ;;
          payload <- slice_from data1 (Z.to_nat header_byte_length) ;;
          decode_list_loop dbg fuel' data2 (item_list ++ [(item_type, payload)])
      end
  end.
Definition decode_list_payload (dbg : bool) (list_payload : list Z) :=
  decode_list_loop dbg (S (length list_payload)) list_payload [].

(** * Encoder objects: src/blockchain/ethereum/rlp/encoder.rs *)

(** encoder.rs:16-18, RlpEncodingItem: the field encoded_data *)
Definition encoding_item : Type := list Z.

(** encoder.rs:37-41, new *)
Definition enc_new : encoding_item := [].
(** encoder.rs:43-45, take_data: the data and the new state *)
Definition take_data (it : encoding_item) : list Z * encoding_item := (it, []).
(** encoder.rs:25-27, encode_bytes *)
Definition encode_bytes (bs : list Z) (it : encoding_item) : outcome encoding_item :=
  e <- encode_single_value bs ;; Ret (it ++ e).
(** encoder.rs:29-33, encode_list_payload *)
Definition encode_list_payload (item : encoding_item) (it : encoding_item) : outcome encoding_item :=
  header <- encode_payload_length List item ;;
  Ret ((it ++ header) ++ item).

(** encoder.rs:48-54, Encodable for u64 *)
Definition encode_u64 (n : Z) (it : encoding_item) : outcome encoding_item :=
  bs <- strip_leading_zeros (to_be 8 n) ;; e <- encode_single_value bs ;; Ret (it ++ e).

Section WithCfg.
Context {cfg : digit_cfg}.
(** encoder.rs:56-62, Encodable for BigUint *)
Definition encode_biguint (n : bigint) (it : encoding_item) : outcome encoding_item :=
  bs <- bu_to_be_bytes n ;; bs <- strip_leading_zeros bs ;; e <- encode_single_value bs ;; Ret (it ++ e).
End WithCfg.

(** encoder.rs:64-68, Encodable for &str; [s]: the bytes of the string *)
Definition encode_str (s : list Z) (it : encoding_item) : outcome encoding_item :=
  e <- encode_single_value s ;; Ret (it ++ e).

(** encoder.rs:77-79: [for value in self { value.encode_to(..) }] *)
Fixpoint encode_all {A} (enc : A -> encoding_item -> outcome encoding_item) (vs : list A) (it : encoding_item) :
  outcome encoding_item :=
  match vs with
  | [] => Ret it
  | v :: vs' => it <- enc v it ;; encode_all enc vs' it
  end.
(** encoder.rs:71-82, Encodable for Vec<T> *)
Definition encode_vec {A} (enc : A -> encoding_item -> outcome encoding_item) (vs : list A) (it : encoding_item) :
  outcome encoding_item :=
  values_encoding_item <- encode_all enc vs enc_new ;;
  encode_list_payload values_encoding_item it.
(** encoder.rs:84-88, Encodable for Vec<u8> *)
Definition encode_vec_u8 (bs : list Z) (it : encoding_item) : outcome encoding_item := encode_bytes bs it.

(** * Decoder objects: src/blockchain/ethereum/rlp/decoder.rs *)

(** decoder.rs:15-18, RlpDecodingItem: item_type and payload *)
Definition decoding_item : Type := RlpItemType * list Z.

(** decoder.rs:46-49, new_from_data *)
Definition new_from_data (dbg : bool) (data : list Z) : outcome (result RlpDataDecodingError decoding_item) :=
  decode_data dbg data.
(** decoder.rs:21-26, decode_as_bytes *)
Definition decode_as_bytes (d : decoding_item) : outcome (result RlpDataDecodingError (list Z)) :=
  if negb (item_type_eqb (fst d) SingleValue) then Ret (Err InvalidFormat) else Ret (Ok (snd d)).
(** decoder.rs:28-40, decode_as_items *)
Definition decode_as_items (dbg : bool) (d : decoding_item) : outcome (result RlpDataDecodingError (list decoding_item)) :=
  if negb (item_type_eqb (fst d) List) then Ret (Err InvalidFormat) else
  decode_list_payload dbg (snd d).

(** decoder.rs:52-69, Decodable for u64 *)
Definition decode_u64 (d : decoding_item) : outcome (result RlpDataDecodingError Z) :=
  if negb (item_type_eqb (fst d) SingleValue) then Ret (Err InvalidFormat) else
  if Nat.ltb 8 (length (snd d)) then Ret (Err InvalidFormat) else
  Ret (Ok (be_val (repeat 0 (8 - length (snd d)) ++ snd d))).

(** [String::from_utf8(bytes).is_ok()]: well-formed UTF-8 (the Unicode Standard, table 3-7) *)
Definition utf8_cont (b : Z) : bool := (0x80 <=? b) && (b <=? 0xbf).
Fixpoint utf8_valid (s : list Z) : bool :=
  match s with
  | [] => true
  | b0 :: r0 =>
      if b0 <=? 0x7f then utf8_valid r0 else
      match r0 with
      | [] => false
      | b1 :: r1 =>
          if (0xc2 <=? b0) && (b0 <=? 0xdf) then utf8_cont b1 && utf8_valid r1 else
          match r1 with
          | [] => false
          | b2 :: r2 =>
              if (0xe0 <=? b0) && (b0 <=? 0xef) then
                ((if b0 =? 0xe0 then 0xa0 else 0x80) <=? b1) && (b1 <=? (if b0 =? 0xed then 0x9f else 0xbf)) &&
                utf8_cont b2 && utf8_valid r2
              else
              match r2 with
              | [] => false
              | b3 :: r3 =>
                  (0xf0 <=? b0) && (b0 <=? 0xf4) &&
                  ((if b0 =? 0xf0 then 0x90 else 0x80) <=? b1) && (b1 <=? (if b0 =? 0xf4 then 0x8f else 0xbf)) &&
                  utf8_cont b2 && utf8_cont b3 && utf8_valid r3
              end
          end
      end
  end%bool.

(** decoder.rs:71-82, Decodable for String; the string is represented by its bytes *)
Definition decode_string (d : decoding_item) : outcome (result RlpDataDecodingError (list Z)) :=
  if negb (item_type_eqb (fst d) SingleValue) then Ret (Err InvalidFormat) else
  if utf8_valid (snd d) then Ret (Ok (snd d)) else Ret (Err InvalidFormat).

(** decoder.rs:84-92, Decodable for Vec<u8> *)
Definition decode_vec_u8 (d : decoding_item) : outcome (result RlpDataDecodingError (list Z)) :=
  if negb (item_type_eqb (fst d) SingleValue) then Ret (Err InvalidFormat) else Ret (Ok (snd d)).

Section WithCfg2.
Context {cfg : digit_cfg}.
(** decoder.rs:94-107, Decodable for BigUint *)
Definition decode_biguint (d : decoding_item) : outcome (result RlpDataDecodingError bigint) :=
  if negb (item_type_eqb (fst d) SingleValue) then Ret (Err InvalidFormat) else
  n <- (match snd d with [] => bu_from_be_bytes [0] | _ => bu_from_be_bytes (snd d) end) ;;
  Ret (Ok n).
End WithCfg2.

(** decoder.rs:119-122: [for item in items { values.push(T::decode_from(&item)?) }] *)
Fixpoint decode_all {A} (dec : decoding_item -> outcome (result RlpDataDecodingError A)) (items : list decoding_item) :
  outcome (result RlpDataDecodingError (list A)) :=
  match items with
  | [] => Ret (Ok [])
  | i :: items' => v <-? dec i ;; vs <-? decode_all dec items' ;; Ret (Ok (v :: vs))
  end.
(** decoder.rs:110-125, Decodable for Vec<T> *)
Definition decode_vec {A} (dbg : bool) (dec : decoding_item -> outcome (result RlpDataDecodingError A)) (d : decoding_item) :
  outcome (result RlpDataDecodingError (list A)) :=
  assert! (negb dbg || item_type_eqb (fst d) List) ;;
  items <-? decode_as_items dbg d ;;
  decode_all dec items.

(** src/tools/codable/core.rs:13-18, encode *)
Definition encode {A} (enc : A -> encoding_item -> outcome encoding_item) (v : A) : outcome (list Z) :=
  it <- enc v enc_new ;; Ret (fst (take_data it)).
(** src/tools/codable/core.rs:21-26, decode *)
Definition decode {A} (dbg : bool) (dec : decoding_item -> outcome (result RlpDataDecodingError A)) (data : list Z) :
  outcome (result RlpDataDecodingError A) :=
  root_decoding_item <-? new_from_data dbg data ;;
  dec root_decoding_item.

(** * Trees of items

    The encoding traits are open: a caller encodes nested data with [encode_bytes] and
    [encode_list_payload], and decodes with [item_type], [decode_as_bytes] and
    [decode_as_items], as the implementations for serde_json::Value in the tests of
    encoder.rs and decoder.rs do.  [encode_tree] and [decode_tree] are such callers for
    the type of all trees; [fuel] bounds the depth. *)
Inductive item : Type := Str (b : list Z) | Lst (l : list item).

Fixpoint encode_tree (i : item) (it : encoding_item) : outcome encoding_item :=
  match i with
  | Str b => encode_bytes b it
  | Lst l =>
      sub <- (fix go (l : list item) (it : encoding_item) : outcome encoding_item :=
                match l with [] => Ret it | i :: l' => it <- encode_tree i it ;; go l' it end) l enc_new ;;
      encode_list_payload sub it
  end.

Fixpoint decode_tree (dbg : bool) (fuel : nat) (d : decoding_item) : outcome (result RlpDataDecodingError item) :=
  match fuel with
  | O => OutOfFuel
  | S fuel' =>
      match fst d with
      | SingleValue => b <-? decode_as_bytes d ;; Ret (Ok (Str b))
      | List => ds <-? decode_as_items dbg d ;; l <-? decode_all (decode_tree dbg fuel') ds ;; Ret (Ok (Lst l))
      end
  end.

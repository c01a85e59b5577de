(** Model of src/blockchain/ethereum/ssz.

    Rust resolves the implementations of the trait SszType statically, for types built
    from unsigned integers, bool, arrays, Vec and user structs.  Here [sty] names the
    types and the functions of the trait are functions of the name.  A value of any type
    is a [sval]; the functions panic on a value that is not of the type, which Rust
    rules out (theorems are about values of the type).

    Containers are user structs, for which the crate gives building blocks
    (encode_as_container_element, decode_as_items).  They are modelled the way the
    crate's tests and example implement the trait for them. *)

From Verif Require Import Base.
Open Scope Z_scope.

Inductive width : Set := W8 | W16 | W32 | W64 | W128.
(** [std::mem::size_of::<uN>()] *)
Definition width_bytes (w : width) : nat := match w with W8 => 1 | W16 => 2 | W32 => 4 | W64 => 8 | W128 => 16 end.
Inductive sty : Set :=
| SUint (w : width)
| SBool
| SArray (t : sty) (n : nat)
| SVec (t : sty)
| SStruct (ts : list sty).
Inductive sval : Set := VNum (n : Z) | VBool (b : bool) | VSeq (l : list sval).

(** decoder.rs:27-31 *)
Inductive SszDataDecodingError : Set := SszInvalidFormat.

(** [to_le_bytes], [from_le_bytes] *)
Definition to_le (n : nat) (v : Z) : list Z := rev (to_be n v).
Definition le_val (l : list Z) : Z := be_val (rev l).

(** [u32::try_from(n).unwrap()], [checked_add(..).unwrap()], [checked_mul(..).unwrap()] *)
Definition u32_unwrap (n : Z) : outcome Z := if n <? 2 ^ 32 then Ret n else Panic.

(** A debug build checks debug_assert and the overflow of [+] and [-]; in a release build
    debug_assert does nothing, and [+] and [-] wrap around. *)
Inductive build : Set := DebugBuild | ReleaseBuild.
Existing Class build.
Definition is_debug (b : build) : bool := match b with DebugBuild => true | ReleaseBuild => false end.

Section Ssz.
Context {bld : build}.
(** debug_assert!(c) *)
Definition sassert {A} (c : bool) (k : outcome A) : outcome A := if is_debug bld && negb c then Panic else k.
(** [+] and [-] of u32; the first is given the sum *)
Definition u32_plus (n : Z) : outcome Z := if n <? 2 ^ 32 then Ret n else if is_debug bld then Panic else Ret (n mod 2 ^ 32).
Definition u32_sub (a b : Z) : outcome Z := if b <=? a then Ret (a - b) else if is_debug bld then Panic else Ret ((a - b) mod 2 ^ 32).

(** core.rs:40 *)
Definition BYTES_PER_LENGTH_OFFSET : Z := 4.

(** * Encoder: encoder.rs *)

(** encoder.rs:12-15, HeaderType *)
Inductive HeaderType : Set :=
| FixedSizeObjectData (d : list Z)
| VariableSizeObjectDataRelativeOffset (o : Z).
(** encoder.rs:18-22, SszEncodingItem *)
Record SszEncodingItem : Set := { headers : list HeaderType; headers_byte_len : Z; encoded_variable_size_objects : list Z }.
(** encoder.rs:53-59, new *)
Definition ssz_new : SszEncodingItem := {| headers := []; headers_byte_len := 0; encoded_variable_size_objects := [] |}.
(** encoder.rs:26-28, is_empty *)
Definition ssz_is_empty (it : SszEncodingItem) : bool := headers_byte_len it =? 0.
(** encoder.rs:30-35, encode_fixed_size_data *)
Definition encode_fixed_size_data (bs : list Z) (it : SszEncodingItem) : outcome SszEncodingItem :=
  bytes_len <- u32_unwrap (Z.of_nat (length bs)) ;;
  h <- u32_unwrap (headers_byte_len it + bytes_len) ;;
  Ret {| headers := headers it ++ [FixedSizeObjectData bs]; headers_byte_len := h;
         encoded_variable_size_objects := encoded_variable_size_objects it |}.
(** encoder.rs:37-49, encode_variable_size_data *)
Definition encode_variable_size_data (bs : list Z) (it : SszEncodingItem) : outcome SszEncodingItem :=
  relative_offset <- u32_unwrap (Z.of_nat (length (encoded_variable_size_objects it))) ;;
  h <- u32_unwrap (headers_byte_len it + BYTES_PER_LENGTH_OFFSET) ;;
  Ret {| headers := headers it ++ [VariableSizeObjectDataRelativeOffset relative_offset]; headers_byte_len := h;
         encoded_variable_size_objects := encoded_variable_size_objects it ++ bs |}.
(** encoder.rs:66-78: the loop over the headers; [len]: self.headers_byte_len *)
Fixpoint build_headers (len : Z) (hs : list HeaderType) (data : list Z) : outcome (list Z) :=
  match hs with
  | [] => Ret data
  | FixedSizeObjectData d :: hs' => build_headers len hs' (data ++ d)
  | VariableSizeObjectDataRelativeOffset relative_offset :: hs' =>
      offset <- u32_unwrap (relative_offset + len) ;;
      build_headers len hs' (data ++ to_le 4 offset)
  end.
(** encoder.rs:61-84, take_data: the data and the new state *)
Definition ssz_take_data (it : SszEncodingItem) : outcome (list Z * SszEncodingItem) :=
  data <- build_headers (headers_byte_len it) (headers it) [] ;;
  Ret (data ++ encoded_variable_size_objects it,
       {| headers := []; headers_byte_len := 0; encoded_variable_size_objects := [] |}).

(** * Sizes *)
(** basic_types.rs:15-17 and 38-40, array_types.rs:20-27, list_types.rs:18-21; a struct has
    the sum of the sizes of its fields, or none if one of them has none
    (container_types.rs:161-163, 213-215, 281-283 and the other structs of the tests) *)
Fixpoint size (t : sty) : outcome (option Z) :=
  match t with
  | SUint w => Ret (Some (Z.of_nat (width_bytes w)))
  | SBool => Ret (Some 1)
  | SArray t n =>
      s <- size t ;;
      match s with
      | None => Ret None
      | Some element_size => n <- u32_unwrap (Z.of_nat n) ;; m <- u32_unwrap (element_size * n) ;; Ret (Some m)
      end
  | SVec _ => Ret None
  | SStruct ts =>
      (fix sum (ts : list sty) (acc : option Z) : outcome (option Z) :=
         match ts with
         | [] => Ret acc
         | t :: ts' =>
             s <- size t ;;
             match acc, s with
             | Some a, Some b => c <- u32_plus (a + b) ;; sum ts' (Some c)
             | _, _ => sum ts' None
             end
         end) ts (Some 0)
  end.

(** * to_bytes *)
Definition opt_none {A} (o : option A) : bool := match o with None => true | Some _ => false end.
(** one element: [encode_variable_size_data] or [encode_fixed_size_data] *)
Definition encode_part (variable : bool) (bs : list Z) (it : SszEncodingItem) : outcome SszEncodingItem :=
  if variable then encode_variable_size_data bs it else encode_fixed_size_data bs it.
(** the [for value in self] loops of array_types.rs:32-40 and list_types.rs:26-34 *)
Fixpoint encode_values (to_bytes : sval -> outcome (list Z)) (variable : bool) (l : list sval) (it : SszEncodingItem) : outcome SszEncodingItem :=
  match l with
  | [] => Ret it
  | v :: l' => bs <- to_bytes v ;; it <- encode_part variable bs it ;; encode_values to_bytes variable l' it
  end.
(** basic_types.rs:19-21 and 42-44, array_types.rs:29-43, list_types.rs:23-37; structs: one
    encode_as_container_element (container_types.rs:17-23) per field, then take_data *)
Fixpoint to_bytes (t : sty) (v : sval) : outcome (list Z) :=
  match t, v with
  | SUint w, VNum n => Ret (to_le (width_bytes w) n)
  | SBool, VBool b => Ret [if b then 1 else 0]
  | SArray t n, VSeq l =>
      assert! (Nat.eqb (length l) n) ;;
      s <- size t ;;
      it <- encode_values (to_bytes t) (opt_none s) l ssz_new ;;
      '(data, _) <- ssz_take_data it ;; Ret data
  | SVec t, VSeq l =>
      s <- size t ;;
      it <- encode_values (to_bytes t) (opt_none s) l ssz_new ;;
      '(data, _) <- ssz_take_data it ;; Ret data
  | SStruct ts, VSeq l =>
      it <- (fix fields (ts : list sty) (l : list sval) (it : SszEncodingItem) : outcome SszEncodingItem :=
               match ts, l with
               | [], [] => Ret it
               | t :: ts', v :: l' =>
                   s <- size t ;; bs <- to_bytes t v ;; it <- encode_part (opt_none s) bs it ;; fields ts' l' it
               | _, _ => Panic
               end) ts l ssz_new ;;
      '(data, _) <- ssz_take_data it ;; Ret data
  | _, _ => Panic
  end.

(** container_types.rs:17-23, encode_as_container_element *)
Definition encode_as_container_element (t : sty) (v : sval) (it : SszEncodingItem) : outcome SszEncodingItem :=
  s <- size t ;; bs <- to_bytes t v ;; encode_part (opt_none s) bs it.
(** core.rs:23-31, Encodable::encode_to *)
Definition ssz_encode_to (t : sty) (v : sval) (it : SszEncodingItem) : outcome SszEncodingItem :=
  sassert (ssz_is_empty it) (
  bs <- to_bytes t v ;; encode_fixed_size_data bs it).

(** * try_from_bytes *)
(** basic_types.rs:23-25, for u32 *)
Definition decode_u32 (bs : list Z) : result SszDataDecodingError Z :=
  if Nat.eqb (length bs) 4 then Ok (le_val bs) else Err SszInvalidFormat.

(** [chunks_exact(n)]: n is not zero (otherwise it panics) *)
Fixpoint chunks_exact_loop (fuel : nat) (n : nat) (bs : list Z) : list (list Z) :=
  match fuel with
  | O => []
  | S fuel' => if Nat.ltb (length bs) n then [] else firstn n bs :: chunks_exact_loop fuel' n (skipn n bs)
  end.
Definition chunks_exact (n : nat) (bs : list Z) : outcome (list (list Z)) :=
  assert! (negb (Nat.eqb n 0)) ;; Ret (chunks_exact_loop (length bs) n bs).

(** the loops [for chunk in ..] that decode one object after another
    (array_types.rs:60-64, list_types.rs:65-69) *)
Fixpoint decode_objects (dec : list Z -> outcome (result SszDataDecodingError sval)) (chunks : list (list Z)) :
  outcome (result SszDataDecodingError (list sval)) :=
  match chunks with
  | [] => Ret (Ok [])
  | c :: cs => v <-? dec c ;; vs <-? decode_objects dec cs ;; Ret (Ok (v :: vs))
  end.

(** array_types.rs:98-109: the loop over the offsets *)
Fixpoint read_offsets (bytes_len : Z) (chunks : list (list Z)) (previous_offset : Z) (offsets : list Z) : result SszDataDecodingError (list Z) :=
  match chunks with
  | [] => Ok offsets
  | c :: cs =>
      match decode_u32 c with
      | Err e => Err e
      | Ok offset =>
          if (offset <? previous_offset) || (bytes_len <? offset) then Err SszInvalidFormat
          else read_offsets bytes_len cs offset (offsets ++ [offset])
      end
  end%bool.
(** array_types.rs:118-128: [for w in offsets.windows(2)] *)
Fixpoint decode_windows (dec : list Z -> outcome (result SszDataDecodingError sval)) (bs : list Z) (offsets : list Z) :
  outcome (result SszDataDecodingError (list sval)) :=
  match offsets with
  | offset1 :: (offset2 :: _) as rest =>
      sassert (offset1 <=? offset2) (
      d <- slice bs (Z.to_nat offset1) (Z.to_nat offset2) ;;
      v <-? dec d ;;
      vs <-? decode_windows dec bs rest ;;
      Ret (Ok (v :: vs)))
  | _ => Ret (Ok [])
  end.
(** array_types.rs:77-131, decode_variable_size_objects_from_bytes; the first
    debug_assert holds at both calls; the second panics if its [unwrap] does or if its sides differ *)
Definition decode_variable_size_objects (dec : list Z -> outcome (result SszDataDecodingError sval))
  (bs : list Z) (objects_number headers_len : Z) : outcome (result SszDataDecodingError (list sval)) :=
  sassert ((objects_number * BYTES_PER_LENGTH_OFFSET <? 2 ^ 32) && (objects_number * BYTES_PER_LENGTH_OFFSET =? headers_len)) (
  let bytes_len := Z.of_nat (length bs) in
  if 2 ^ 32 <=? bytes_len then Ret (Err SszInvalidFormat) else
  if bytes_len <? headers_len then Ret (Err SszInvalidFormat) else
  head <- slice bs 0 (Z.to_nat headers_len) ;;
  cs <- chunks_exact 4 head ;;
  offsets <-? Ret (read_offsets bytes_len cs 0 []) ;;
  let offsets := match offsets with [] => [] | _ => offsets ++ [bytes_len] end in
  decode_windows dec bs offsets)%bool.

(** container_types.rs:39-48 *)
Fixpoint headers_len_of (sizes : list (option Z)) (acc : Z) : outcome Z :=
  match sizes with
  | [] => Ret acc
  | None :: r => acc <- u32_plus (acc + BYTES_PER_LENGTH_OFFSET) ;; headers_len_of r acc
  | Some s :: r => acc <- u32_plus (acc + s) ;; headers_len_of r acc
  end.
(** container_types.rs:71-107: the loop over the sizes, in reverse *)
Fixpoint items_rev (data : list Z) (sizes_rev : list (option Z)) (previous_offset_rev header_cursor_rev : Z) (items : list (list Z)) :
  outcome (result SszDataDecodingError (list (list Z))) :=
  match sizes_rev with
  | [] => Ret (Ok items)
  | None :: r =>
      start <- u32_sub header_cursor_rev BYTES_PER_LENGTH_OFFSET ;;
      d <- slice data (Z.to_nat start) (Z.to_nat header_cursor_rev) ;;
      offset <-? Ret (decode_u32 d) ;;
      if previous_offset_rev <? offset then Ret (Err SszInvalidFormat) else
      item <- slice data (Z.to_nat offset) (Z.to_nat previous_offset_rev) ;;
      items_rev data r offset start (items ++ [item])
  | Some s :: r =>
      if header_cursor_rev <? s then Ret (Err SszInvalidFormat) else
      start <- u32_sub header_cursor_rev s ;;
      item <- slice data (Z.to_nat start) (Z.to_nat header_cursor_rev) ;;
      items_rev data r previous_offset_rev start (items ++ [item])
  end.
(** container_types.rs:33-111, decode_as_items *)
Definition ssz_decode_as_items (data : list Z) (sizes : list (option Z)) : outcome (result SszDataDecodingError (list (list Z))) :=
  headers_len <- headers_len_of sizes 0 ;;
  let bytes_len := Z.of_nat (length data) in
  if 2 ^ 32 <=? bytes_len then Ret (Err SszInvalidFormat) else
  if bytes_len <? headers_len then Ret (Err SszInvalidFormat) else
  items <-? items_rev data (rev sizes) bytes_len headers_len [] ;;
  Ret (Ok (rev items)).

(** [let sizes = [T1::size(), T2::size(), ..]] *)
Fixpoint sizes_of (ts : list sty) : outcome (list (option Z)) :=
  match ts with
  | [] => Ret []
  | t :: ts' => s <- size t ;; r <- sizes_of ts' ;; Ret (s :: r)
  end.

(** basic_types.rs:23-25 and 46-57, array_types.rs:45-68, list_types.rs:39-72;
    structs as in container_types.rs:173-182: decode_as_items with the sizes of the
    fields, then one decode_from per field *)
Fixpoint try_from_bytes (t : sty) (bs : list Z) : outcome (result SszDataDecodingError sval) :=
  match t with
  | SUint w => if Nat.eqb (length bs) (width_bytes w) then Ret (Ok (VNum (le_val bs))) else Ret (Err SszInvalidFormat)
  | SBool =>
      match bs with
      | [b] => if b =? 0 then Ret (Ok (VBool false)) else if b =? 1 then Ret (Ok (VBool true)) else Ret (Err SszInvalidFormat)
      | _ => Ret (Err SszInvalidFormat)
      end
  | SArray t n =>
      s <- size t ;;
      match s with
      | None =>
          m <- u32_unwrap (Z.of_nat n) ;;
          headers_len <- u32_unwrap (m * BYTES_PER_LENGTH_OFFSET) ;;
          objects <-? decode_variable_size_objects (try_from_bytes t) bs m headers_len ;;
          assert! (Nat.eqb (length objects) n) ;;
          Ret (Ok (VSeq objects))
      | Some size =>
          m <- u32_unwrap (Z.of_nat n) ;;
          total <- u32_unwrap (size * m) ;;
          if negb (Z.of_nat (length bs) =? total) then Ret (Err SszInvalidFormat) else
          cs <- chunks_exact (Z.to_nat size) bs ;;
          objects <-? decode_objects (try_from_bytes t) cs ;;
          assert! (Nat.eqb (length objects) n) ;;
          Ret (Ok (VSeq objects))
      end
  | SVec t =>
      s <- size t ;;
      match s with
      | None =>
          d <- slice bs 0 4 ;;
          payload_offset <-? Ret (decode_u32 d) ;;
          if (payload_offset <? BYTES_PER_LENGTH_OFFSET) || negb (payload_offset mod BYTES_PER_LENGTH_OFFSET =? 0)
          then Ret (Err SszInvalidFormat) else
          let headers_len := payload_offset in
          let n := headers_len / BYTES_PER_LENGTH_OFFSET in
          objects <-? decode_variable_size_objects (try_from_bytes t) bs n headers_len ;;
          Ret (Ok (VSeq objects))
      | Some size =>
          assert! (negb (size =? 0)) ;;
          if negb (Z.of_nat (length bs) mod size =? 0) then Ret (Err SszInvalidFormat) else
          cs <- chunks_exact (Z.to_nat size) bs ;;
          objects <-? decode_objects (try_from_bytes t) cs ;;
          Ret (Ok (VSeq objects))
      end
  | SStruct ts =>
      sizes <- sizes_of ts ;;
      items <-? ssz_decode_as_items bs sizes ;;
      vs <-? (fix fields (ts : list sty) (items : list (list Z)) : outcome (result SszDataDecodingError (list sval)) :=
                match ts with
                | [] => Ret (Ok [])
                | t :: ts' =>
                    match items with
                    | [] => Panic
                    | d :: items' => v <-? try_from_bytes t d ;; vs <-? fields ts' items' ;; Ret (Ok (v :: vs))
                    end
                end) ts items ;;
      Ret (Ok (VSeq vs))
  end%bool.

(** src/tools/codable/core.rs:12-26, encode and decode, for SSZ *)
Definition ssz_encode (t : sty) (v : sval) : outcome (list Z) :=
  it <- ssz_encode_to t v ssz_new ;; '(data, _) <- ssz_take_data it ;; Ret data.
Definition ssz_decode (t : sty) (data : list Z) : outcome (result SszDataDecodingError sval) := try_from_bytes t data.

(** * Histories of an encoder object: the outputs of its take_data calls *)
Inductive ssz_call : Set := SszEncode (t : sty) (v : sval) | SszElement (t : sty) (v : sval) | SszTake.
Fixpoint run_ssz (cs : list ssz_call) (it : SszEncodingItem) : outcome (list (list Z) * SszEncodingItem) :=
  match cs with
  | [] => Ret ([], it)
  | SszEncode t v :: cs' => it <- ssz_encode_to t v it ;; run_ssz cs' it
  | SszElement t v :: cs' => it <- encode_as_container_element t v it ;; run_ssz cs' it
  | SszTake :: cs' => '(data, it) <- ssz_take_data it ;; '(outs, it) <- run_ssz cs' it ;; Ret (data :: outs, it)
  end.
End Ssz.

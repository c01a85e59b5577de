(** Specification of RLP (Ethereum Yellow Paper, appendix B). *)

From Verif Require Import Base M_Rlp.
Open Scope Z_scope.

(** BE: big-endian representation without leading zeros *)
Definition BE (n : Z) : list Z := if n <=? 0 then [] else to_be (Z.to_nat (Z.log2 n / 8 + 1)) n.

(** prefix a serialised payload with its length; [o] = 128 for byte strings, 192 for lists *)
Definition with_length (o : Z) (x : list Z) : option (list Z) :=
  let n := Z.of_nat (length x) in
  if n <? 56 then Some ((o + n) :: x)
  else if n <? 2 ^ 64 then Some ((o + 55 + Z.of_nat (length (BE n))) :: BE n ++ x)
  else None.

(** (180): R_b *)
Definition R_b (x : list Z) : option (list Z) :=
  match x with
  | [b] => if b <? 128 then Some [b] else with_length 128 x
  | _ => with_length 128 x
  end.

(** (179), (181)-(183): RLP, R_l and s; undefined on data of 2^64 bytes or more *)
Fixpoint RLP (i : item) : option (list Z) :=
  match i with
  | Str b => R_b b
  | Lst l =>
      match (fix s (l : list item) : option (list Z) :=
               match l with
               | [] => Some []
               | i :: l' => match RLP i, s l' with Some x, Some y => Some (x ++ y) | _, _ => None end
               end) l with
      | Some x => with_length 192 x
      | None => None
      end
  end.

(** every string in the tree consists of bytes *)
Fixpoint item_bytes (i : item) : Prop :=
  match i with
  | Str b => bytes b
  | Lst l => (fix go (l : list item) : Prop := match l with [] => True | i :: l' => item_bytes i /\ go l' end) l
  end.

(** A string or list header as the decoder understands it: [header t h n]: the bytes [h]
    announce an item of type [t] with a payload of [n] bytes.  Unlike RLP it does not ask
    for the shortest header. *)
Inductive header : RlpItemType -> list Z -> Z -> Prop :=
| header_str n : 0 <= n <= 55 -> header SingleValue [128 + n] n
| header_list n : 0 <= n <= 55 -> header List [192 + n] n
| header_long_str l : bytes l -> (1 <= length l <= 8)%nat -> header SingleValue ((183 + Z.of_nat (length l)) :: l) (be_val l)
| header_long_list l : bytes l -> (1 <= length l <= 8)%nat -> header List ((247 + Z.of_nat (length l)) :: l) (be_val l).

(** what the decoder accepts as the serialisation of a tree *)
Inductive lax_rlp : item -> list Z -> Prop :=
| lax_byte b : 0 <= b < 128 -> lax_rlp (Str [b]) [b]
| lax_str h x : header SingleValue h (Z.of_nat (length x)) -> bytes x -> lax_rlp (Str x) (h ++ x)
| lax_list h l x : header List h (Z.of_nat (length x)) -> lax_items l x -> lax_rlp (Lst l) (h ++ x)
with lax_items : list item -> list Z -> Prop :=
| lax_nil : lax_items [] []
| lax_cons i x l y : lax_rlp i x -> lax_items l y -> lax_items (i :: l) (x ++ y).

(** a header whose announced length makes the total overflow 64 bits *)
Definition overflowing_header (data : list Z) : Prop :=
  exists b l rest, (b = 0xbf \/ b = 0xff) /\ length l = 8%nat /\ 2 ^ 64 - 9 <= be_val l /\ data = b :: l ++ rest.

(** no suffix of the data starts with an overflowing header *)
Definition overflow_free (data : list Z) : Prop :=
  forall pre suf, data = pre ++ suf -> ~ overflowing_header suf.

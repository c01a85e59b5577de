(** Specification of what the SSZ decoder reads: the byte strings it takes apart, the values
    it finds in them, and the byte strings that make it panic.  Read beside S_Ssz. *)

From Verif Require Import Base M_Ssz S_Ssz.
Open Scope Z_scope.

(** In the bytes of a composite value, each element has a slot: its own bytes if it is of a
    fixed-size type, the offset of its bytes if not. *)
Inductive slot : Set := Inline (d : list Z) | Offset (o : Z).
Definition slot_bytes (s : slot) : list Z := match s with Inline d => d | Offset o => LE 4 o end.
Definition slot_for (t : sty) (s : slot) : Prop :=
  match s with
  | Inline d => is_variable_size t = false /\ Z.of_nat (length d) = fixed_size t
  | Offset o => is_variable_size t = true /\ 0 <= o < 2 ^ 32
  end.
(** where the element before these slots ends: at the next offset, or at the end of all bytes *)
Fixpoint next_offset (ss : list slot) (stop : Z) : Z :=
  match ss with [] => stop | Offset o :: _ => o | Inline _ :: ss' => next_offset ss' stop end.
(** no element ends before its start, and none after the end of all bytes *)
Fixpoint ascending (ss : list slot) (stop : Z) : bool :=
  match ss with
  | [] => true
  | Inline _ :: ss' => ascending ss' stop
  | Offset o :: ss' => (o <=? next_offset ss' stop) && ascending ss' stop
  end%bool.
(** the bytes from [a] (included) to [b] (excluded) *)
Definition cut (bs : list Z) (a b : Z) : list Z := firstn (Z.to_nat (b - a)) (skipn (Z.to_nat a) bs).
(** the bytes of each element *)
Fixpoint elements (bs : list Z) (ss : list slot) : list (list Z) :=
  match ss with
  | [] => []
  | Inline d :: ss' => d :: elements bs ss'
  | Offset o :: ss' => cut bs o (next_offset ss' (Z.of_nat (length bs))) :: elements bs ss'
  end.
(** the slots, one for each type, come first, and their offsets are in order *)
Definition opens (ts : list sty) (bs : list Z) (ss : list slot) : Prop :=
  Forall2 slot_for ts ss /\ (exists rest, bs = concat (map slot_bytes ss) ++ rest) /\ ascending ss (Z.of_nat (length bs)) = true.
(** what follows the slots starts right after them, and nothing follows if no slot is an offset *)
Definition snug (bs : list Z) (ss : list slot) : Prop :=
  next_offset ss (Z.of_nat (length bs)) = Z.of_nat (length (concat (map slot_bytes ss))).
Definition small (bs : list Z) : Prop := Z.of_nat (length bs) < 2 ^ 32.

(** [reads strict t bs v]: from the bytes [bs], as of type [t], the value [v] is read.
    [strict] asks for two checks more: that the bytes of the elements of an array, and of
    the fields of a container, start right after the slots, and that nothing follows the
    slots of a container without offsets. *)
Fixpoint reads (strict : bool) (t : sty) (bs : list Z) (v : sval) : Prop :=
  match t, v with
  | SUint w, VNum n => 0 <= n < 2 ^ (8 * Z.of_nat (uint_bytes w)) /\ bs = LE (uint_bytes w) n
  | SBool, VBool b => bs = [if b then 1 else 0]
  | SArray t n, VSeq l =>
      exists ss, opens (repeat t n) bs ss /\ (if is_variable_size t then small bs /\ (strict = true -> snug bs ss) else snug bs ss) /\
        Forall2 (reads strict t) (elements bs ss) l
  | SVec t, VSeq l =>
      exists n ss, opens (repeat t n) bs ss /\ (is_variable_size t = true -> small bs /\ (0 < n)%nat) /\ snug bs ss /\
        Forall2 (reads strict t) (elements bs ss) l
  | SStruct ts, VSeq l =>
      exists ss, opens ts bs ss /\ small bs /\ (strict = true -> snug bs ss) /\
        (fix fields (ts : list sty) (es : list (list Z)) (l : list sval) : Prop :=
           match ts, es, l with
           | [], [], [] => True
           | t :: ts', e :: es', v :: l' => reads strict t e v /\ fields ts' es' l'
           | _, _, _ => False
           end) ts (elements bs ss) l
  | _, _ => False
  end.

(** [breaks t bs]: some list of variable-size elements is reached with fewer than four bytes,
    when all that comes before it has been read *)
Fixpoint breaks (t : sty) (bs : list Z) : Prop :=
  match t with
  | SUint _ | SBool => False
  | SArray t n =>
      exists ss es e es' l, opens (repeat t n) bs ss /\ (if is_variable_size t then small bs else snug bs ss) /\
        elements bs ss = es ++ e :: es' /\ Forall2 (reads false t) es l /\ breaks t e
  | SVec t =>
      (is_variable_size t = true /\ (length bs < 4)%nat) \/
      (exists n ss es e es' l, opens (repeat t n) bs ss /\ (is_variable_size t = true -> small bs /\ (0 < n)%nat) /\ snug bs ss /\
        elements bs ss = es ++ e :: es' /\ Forall2 (reads false t) es l /\ breaks t e)
  | SStruct ts =>
      exists ss, opens ts bs ss /\ small bs /\
        (fix fields (ts : list sty) (es : list (list Z)) : Prop :=
           match ts, es with
           | t :: ts', e :: es' => breaks t e \/ ((exists v, reads false t e v) /\ fields ts' es')
           | _, _ => False
           end) ts (elements bs ss)
  end.

(** Specification of SSZ: the serialisation of the Ethereum consensus specification
    (ssz/simple-serialize.md). *)

From Verif Require Import Base M_Ssz.
Open Scope Z_scope.

(** "uintN: N-bit unsigned integer value", here in bytes *)
Definition uint_bytes (w : width) : nat := match w with W8 => 1 | W16 => 2 | W32 => 4 | W64 => 8 | W128 => 16 end.

(** the values of a type *)
Fixpoint has_type (t : sty) (v : sval) : Prop :=
  match t, v with
  | SUint w, VNum n => 0 <= n < 2 ^ (8 * Z.of_nat (uint_bytes w))
  | SBool, VBool _ => True
  | SArray t n, VSeq l => length l = n /\ Forall (has_type t) l
  | SVec t, VSeq l => Forall (has_type t) l
  | SStruct ts, VSeq l =>
      (fix fields (ts : list sty) (l : list sval) : Prop :=
         match ts, l with
         | [], [] => True
         | t :: ts', v :: l' => has_type t v /\ fields ts' l'
         | _, _ => False
         end) ts l
  | _, _ => False
  end.

(** "variable-size" types: lists and all types that contain a variable-size type *)
Fixpoint is_variable_size (t : sty) : bool :=
  match t with
  | SUint _ | SBool => false
  | SArray t _ => is_variable_size t
  | SVec _ => true
  | SStruct ts => existsb is_variable_size ts
  end.
(** the number of bytes of a value of a fixed-size type *)
Fixpoint fixed_size (t : sty) : Z :=
  match t with
  | SUint w => Z.of_nat (uint_bytes w)
  | SBool => 1
  | SArray t n => fixed_size t * Z.of_nat n
  | SVec _ => 0
  | SStruct ts => fold_right (fun t s => fixed_size t + s) 0 ts
  end.

(** The n bytes of a number, the least significant first. *)
Fixpoint LE (n : nat) (v : Z) : list Z := match n with O => [] | S n' => v mod 256 :: LE n' (v / 256) end.

(** Composite types: the serialisations of the elements, with a mark on the ones of
    variable-size types.  First come the fixed parts: the serialisation itself, or for
    the i-th element, variable, the 4-byte offset of its serialisation, which is the
    length of all fixed parts plus the lengths of the variable parts before it.  Then
    come the variable parts. *)
Definition fixed_length (p : bool * list Z) : Z := if fst p then 4 else Z.of_nat (length (snd p)).
Definition variable_part (p : bool * list Z) : list Z := if fst p then snd p else [].
Fixpoint fixed_parts (offset : Z) (ps : list (bool * list Z)) : list Z :=
  match ps with
  | [] => []
  | p :: ps' => (if fst p then LE 4 offset else snd p) ++ fixed_parts (offset + Z.of_nat (length (variable_part p))) ps'
  end.
Definition sum (l : list Z) : Z := fold_right Z.add 0 l.
Definition composite (ps : list (bool * list Z)) : list Z :=
  fixed_parts (sum (map fixed_length ps)) ps ++ concat (map variable_part ps).

Fixpoint SSZ (t : sty) (v : sval) : list Z :=
  match t, v with
  | SUint w, VNum n => LE (uint_bytes w) n
  | SBool, VBool b => [if b then 1 else 0]
  | SArray t _, VSeq l | SVec t, VSeq l => composite (map (fun v => (is_variable_size t, SSZ t v)) l)
  | SStruct ts, VSeq l =>
      composite ((fix parts (ts : list sty) (l : list sval) : list (bool * list Z) :=
         match ts, l with t :: ts', v :: l' => (is_variable_size t, SSZ t v) :: parts ts' l' | _, _ => [] end) ts l)
  | _, _ => []
  end.

(** "Illegal types": empty vectors and empty containers.  Also, a fixed-size type of 2^32
    bytes or more has no offsets that fit in 4 bytes. *)
Fixpoint legal (t : sty) : Prop :=
  match t with
  | SUint _ | SBool => True
  | SArray t' n => legal t' /\ (0 < n)%nat /\ (if is_variable_size t' then Z.of_nat n * 4 < 2 ^ 32 else fixed_size t < 2 ^ 32)
  | SVec t' => legal t'
  | SStruct ts =>
      ts <> [] /\ fold_right (fun t s => (if is_variable_size t then 4 else fixed_size t) + s) 0 ts < 2 ^ 32 /\
      (fix all (ts : list sty) : Prop := match ts with [] => True | t :: ts' => legal t /\ all ts' end) ts
  end.

(** no empty list of variable-size elements anywhere in the value *)
Fixpoint no_empty_var_list (t : sty) (v : sval) : Prop :=
  match t, v with
  | SArray t _, VSeq l => Forall (no_empty_var_list t) l
  | SVec t, VSeq l => (is_variable_size t = true -> l <> []) /\ Forall (no_empty_var_list t) l
  | SStruct ts, VSeq l =>
      (fix fields (ts : list sty) (l : list sval) : Prop :=
         match ts, l with t :: ts', v :: l' => no_empty_var_list t v /\ fields ts' l' | _, _ => True end) ts l
  | _, _ => True
  end.

(** no list of variable-size elements anywhere in the type *)
Fixpoint no_var_list (t : sty) : bool :=
  match t with
  | SUint _ | SBool => true
  | SArray t _ => no_var_list t
  | SVec t => negb (is_variable_size t) && no_var_list t
  | SStruct ts => forallb no_var_list ts
  end.

(** ** Histories of an encoder: each take_data is due the composite of the elements added
    since the one before; encode_to adds its value as one fixed part, and in a debug
    build may only be called when there is nothing yet. *)
Definition call_legal (c : ssz_call) : Prop :=
  match c with SszEncode t v | SszElement t v => legal t /\ has_type t v | SszTake => True end.
Fixpoint ssz_due (debug : bool) (cs : list ssz_call) (acc : list (bool * list Z)) : option (list (list Z) * list (bool * list Z)) :=
  match cs with
  | [] => Some ([], acc)
  | SszEncode t v :: cs' =>
      let acc' := acc ++ [(false, SSZ t v)] in
      if (negb debug || (sum (map fixed_length acc) =? 0)) && (Z.of_nat (length (composite acc')) <? 2 ^ 32) then ssz_due debug cs' acc' else None
  | SszElement t v :: cs' =>
      let acc' := acc ++ [(is_variable_size t, SSZ t v)] in
      if Z.of_nat (length (composite acc')) <? 2 ^ 32 then ssz_due debug cs' acc' else None
  | SszTake :: cs' => match ssz_due debug cs' [] with Some (outs, rest) => Some (composite acc :: outs, rest) | None => None end
  end%bool.

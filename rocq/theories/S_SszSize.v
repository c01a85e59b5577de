(** How large a decoded SSZ value can be.  Read beside S_Ssz. *)

From Verif Require Import Base M_Ssz S_Ssz.
Open Scope Z_scope.

(** The number of levels of offsets in the bytes of a type, and one more: 1 for types of a
    fixed size and for lists of them, 2 for a container of those, and so on. *)
Fixpoint levels (t : sty) : Z :=
  match t with
  | SUint _ | SBool => 1
  | SArray t' _ | SVec t' => if is_variable_size t' then 1 + levels t' else 1
  | SStruct ts => 1 + fold_right (fun t m => if is_variable_size t then Z.max (levels t) m else m) 0 ts
  end.

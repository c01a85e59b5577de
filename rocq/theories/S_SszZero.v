(** Types whose values take no bytes.  The standard calls them illegal ("empty vector types", "containers with no
    fields"), but Rust has them: [T; 0], a struct without fields, and what is made of these. *)

From Verif Require Import Base M_Ssz S_Ssz.
Open Scope Z_scope.

Fixpoint no_bytes (t : sty) : Prop :=
  match t with
  | SUint _ | SBool | SVec _ => False
  | SArray t' n => no_bytes t' /\ Z.of_nat n < 2 ^ 32 \/ n = O /\ legal t' /\ is_variable_size t' = false
  | SStruct ts => (fix all (ts : list sty) : Prop := match ts with [] => True | t :: ts' => no_bytes t /\ all ts' end) ts
  end.

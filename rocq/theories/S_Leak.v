(** Specification for C73. *)

From Verif Require Import Base S_Codec.
Open Scope Z_scope.

(** The position of the first character which is no hexadecimal digit. *)
Fixpoint first_bad (s : list Z) : option nat :=
  match s with
  | [] => None
  | c :: s' =>
    match alnum_value c with
    | Some v => if v <? 16 then match first_bad s' with Some i => Some (S i) | None => None end else Some O
    | None => Some O
    end
  end.

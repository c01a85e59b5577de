(** Specification for C74. *)

From Verif Require Import Base.
Open Scope Z_scope.

(** Printable ASCII characters and line breaks. *)
Definition plain (t : list Z) : Prop := Forall (fun c => c = 10 \/ 32 <= c <= 126) t.

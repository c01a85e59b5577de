(** How large a decoded RLP tree can be.  Read beside S_Rlp. *)

From Verif Require Import Base M_Rlp.
Open Scope Z_scope.

(** strings and lists in a tree, and the bytes of its strings *)
Fixpoint nodes (i : item) : nat := match i with Str _ => 1 | Lst l => S (fold_right (fun j n => nodes j + n)%nat O l) end.
Fixpoint content (i : item) : nat := match i with Str b => length b | Lst l => fold_right (fun j n => content j + n)%nat O l end.

(** Model of the type YParity of src/crypto/ecdsa/ecdsa_core.rs, used by signatures and by transactions. *)

From Verif Require Import Base.
Open Scope Z_scope.

(** src/crypto/ecdsa/ecdsa_core.rs:228-231 *)
Inductive y_parity := Even | Odd.
(** [y_parity as u8], [y_parity as u64] *)
Definition y_parity_u8 (y : y_parity) : Z := match y with Even => 0 | Odd => 1 end.
(** src/crypto/ecdsa/ecdsa_core.rs:234-240 *)
Definition y_parity_from_u8 (n : Z) : option y_parity :=
  if n =? 0 then Some Even else if n =? 1 then Some Odd else None.

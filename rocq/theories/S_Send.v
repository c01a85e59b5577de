(** Specification of sending ether: the fields of a transaction, from the numbers and bytes that are asked for (yellow paper; EIP-2930; EIP-1559).  Numbers are written as their shortest big-endian bytes. *)

From Verif Require Import Base M_Rlp S_Rlp.
Open Scope Z_scope.

Definition legacy_fields (nonce gas_price gas : Z) (destination : list Z) (amount : Z) (data : list Z) : list item :=
  [Str (BE nonce); Str (BE gas_price); Str (BE gas); Str destination; Str (BE amount); Str data].
(** An access list: addresses, each with its storage keys. *)
Definition access_entry (e : list Z * list (list Z)) : item := Lst [Str (fst e); Lst (map Str (snd e))].
Definition access_entry_ok (e : list Z * list (list Z)) : Prop :=
  bytes (fst e) /\ length (fst e) = 20%nat /\ Forall (fun k => bytes k /\ length k = 32%nat) (snd e).
Definition eip_1559_fields (chain nonce priority_fee max_fee gas : Z) (destination : list Z) (amount : Z) (data : list Z) (access : list (list Z * list (list Z))) : list item :=
  [Str (BE chain); Str (BE nonce); Str (BE priority_fee); Str (BE max_fee); Str (BE gas); Str destination; Str (BE amount); Str data; Lst (map access_entry access)].
Definition eip_2930_fields (chain nonce gas_price gas : Z) (destination : list Z) (amount : Z) (data : list Z) (access : list (list Z * list (list Z))) : list item :=
  [Str (BE chain); Str (BE nonce); Str (BE gas_price); Str (BE gas); Str destination; Str (BE amount); Str data; Lst (map access_entry access)].
(** the signature that ends each: a number that holds the parity, r and s; what is signed for EIP-155 has the chain id and two zeros there *)
Definition signature_fields (v r s : Z) : list item := [Str (BE v); Str (BE r); Str (BE s)].

(** Property C76: decoding does not amplify untrusted input.  Read beside S_Ssz, S_SszSize,
    S_Rlp and S_RlpSize.  For SSZ the library does not ask that the parts which offsets
    point at be disjoint, so the value can be larger than the data: at most by the number
    of levels of offsets in the type, and for each such number some data reaches it. *)

From Verif Require Import Base M_Ssz M_Rlp S_Ssz S_SszSize S_Rlp S_RlpSize P_SszSize P_RlpSize.
Open Scope Z_scope.

Theorem C76_ssz_bound : forall (bld : build) t data v, legal t -> bytes data ->
  ssz_decode t data = Ret (Ok v) -> Z.of_nat (length (SSZ t v)) <= levels t * Z.of_nat (length data).
Proof. exact @decode_size. Qed.
Print Assumptions C76_ssz_bound.

Theorem C76_ssz_reached : forall (bld : build) k, 1 <= k ->
  exists t data v, legal t /\ bytes data /\ data <> [] /\ levels t = k /\
    ssz_decode t data = Ret (Ok v) /\ Z.of_nat (length (SSZ t v)) = k * Z.of_nat (length data).
Proof. exact @size_tight. Qed.
Print Assumptions C76_ssz_reached.

(** The tree that the data describes has at most as many strings and lists as the data has
    bytes, its strings together at most as many bytes, and its encoding is not longer.
    For the library's own types see C67. *)
Theorem C76_rlp : forall dbg i data, bytes data -> Z.of_nat (length data) < 2 ^ 63 ->
  decode dbg (decode_tree dbg (S (length data))) data = Ret (Ok i) ->
  (nodes i <= length data)%nat /\ (content i <= length data)%nat /\ exists s, RLP i = Some s /\ (length s <= length data)%nat.
Proof. exact tree_size. Qed.
Print Assumptions C76_rlp.

(** Four zero bytes as a struct of one list of bytes: the offset is one of the list's
    elements.  And a tree whose four nodes take four bytes. *)
Example C76_witness : forall (bld : build) dbg,
  (let t := SStruct [SVec (SUint W8)] in let v := VSeq [VSeq [VNum 0; VNum 0; VNum 0; VNum 0]] in
   legal t /\ levels t = 2 /\ ssz_decode t [0; 0; 0; 0] = Ret (Ok v) /\ SSZ t v = [4; 0; 0; 0; 0; 0; 0; 0]) /\
  (let i := Lst [Str [5]; Lst []; Str []] in
   decode dbg (decode_tree dbg 5) [0xc3; 0x05; 0xc0; 0x80] = Ret (Ok i) /\ nodes i = 4%nat /\ content i = 1%nat).
Proof. intros [] []; vm_compute; repeat split; congruence. Qed.

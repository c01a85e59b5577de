(** Proofs about the size of decoded RLP trees. *)

From Verif Require Import Base M_Rlp S_Rlp S_RlpSize P_Rlp P_Rlp2 P_RlpNorm.
Open Scope Z_scope.

Lemma lax_size i : forall data, lax_rlp i data -> (nodes i <= length data)%nat /\ (content i <= length data)%nat.
Proof.
  induction i as [b|l IH] using item_rect'; intros data X.
  - destruct (lax_str_inv _ _ X) as [(y & -> & -> & _)|(h & -> & H)]; cbn [nodes content]; [cbn [length]; lia|].
    destruct (header_length _ _ _ H). rewrite app_length. lia.
  - destruct (lax_list_inv _ _ X) as (h & x & -> & H & LI). destruct (header_length _ _ _ H) as [Lh _]. rewrite app_length. cbn [nodes content].
    assert (G : (fold_right (fun j n => nodes j + n)%nat O l <= length x)%nat /\ (fold_right (fun j n => content j + n)%nat O l <= length x)%nat); [|lia].
    clear X H Lh h. revert x LI. induction IH as [|i l I0 I1 IHl]; intros x LI; inversion LI; subst; cbn [fold_right length]; [lia|].
    rewrite app_length. match goal with A : lax_rlp i ?a, B : lax_items l ?b |- _ => destruct (I0 a A); destruct (IHl b B) end. lia.
Qed.
Lemma tree_size dbg i data : bytes data -> Z.of_nat (length data) < 2 ^ 63 ->
  decode dbg (decode_tree dbg (S (length data))) data = Ret (Ok i) ->
  (nodes i <= length data)%nat /\ (content i <= length data)%nat /\ exists s, RLP i = Some s /\ (length s <= length data)%nat.
Proof.
  intros B L E. destruct (decode_sound dbg data B L) as [(j & E' & X)|[E'|[E' _]]]; rewrite E in E'; try discriminate.
  injection E' as <-. destruct (lax_size i data X) as [N C]. split; [exact N|]. split; [exact C|]. exact (thin_len i i data (thin_refl i) X).
Qed.

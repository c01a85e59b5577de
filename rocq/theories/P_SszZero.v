(** Types whose values take no bytes. *)

From Coq Require Import Lia.
From Verif Require Import Base M_Ssz S_Ssz S_SszZero P_Ssz.
Open Scope Z_scope.

Section Zero.
Context {bld : build}.

Lemma zero_size t : no_bytes t -> size t = Ret (Some 0).
Proof.
  induction t as [w| |t n IH|t IH|ts IH] using sty_ind'; cbn [no_bytes]; try contradiction.
  - intros [[H Hn]|(-> & L & V)]; cbn [size].
    + rewrite (IH H). cbn [obind]. unfold u32_unwrap. replace (Z.of_nat n <? 2 ^ 32) with true by (symmetry; now apply Z.ltb_lt). reflexivity.
    + rewrite (size_spec t L), V. cbn [obind]. unfold u32_unwrap. change (Z.of_nat 0 <? 2 ^ 32) with true. cbv iota. cbn [obind]. rewrite Z.mul_0_r. reflexivity.
  - intros H. cbn [size]. induction IH as [|t ts H0 IH IH2]; [reflexivity|]. destruct H as [Ht H]. rewrite (H0 Ht). cbn [obind]. exact (IH2 H).
Qed.

Lemma zero_list t bs : no_bytes t -> ssz_decode (SVec t) bs = Panic.
Proof. intros H. unfold ssz_decode. cbn [try_from_bytes]. rewrite (zero_size t H). reflexivity. Qed.
Lemma zero_array t n bs : no_bytes t -> Z.of_nat n < 2 ^ 32 ->
  ssz_decode (SArray t n) bs = match bs with [] => Panic | _ => Ret (Err SszInvalidFormat) end.
Proof.
  intros H Hn. unfold ssz_decode. cbn [try_from_bytes]. rewrite (zero_size t H). cbn [obind]. unfold u32_unwrap.
  replace (Z.of_nat n <? 2 ^ 32) with true by (symmetry; now apply Z.ltb_lt). cbn [obind]. change (0 * Z.of_nat n) with 0. change (0 <? 2 ^ 32) with true. cbv iota. cbn [obind].
  destruct bs as [|b bs]; reflexivity.
Qed.

(** writing: no bytes *)
Definition nothing (it : SszEncodingItem) : Prop :=
  Forall (fun h => h = FixedSizeObjectData []) (headers it) /\ headers_byte_len it = 0 /\ encoded_variable_size_objects it = [].
Lemma nothing_more it : nothing it -> exists it', encode_part false [] it = Ret it' /\ nothing it'.
Proof.
  intros (H1 & H2 & H3). cbn [encode_part]. unfold encode_fixed_size_data, u32_unwrap. cbn [length]. change (Z.of_nat 0 <? 2 ^ 32) with true. cbv iota. cbn [obind].
  rewrite H2. change (0 + Z.of_nat 0 <? 2 ^ 32) with true. cbv iota. cbn [obind]. eexists. split; [reflexivity|]. split; [|split; [reflexivity|exact H3]].
  cbn [headers]. apply Forall_app. split; [exact H1|]. repeat constructor.
Qed.
Lemma nothing_taken it : nothing it -> exists it', ssz_take_data it = Ret ([], it').
Proof.
  intros (H1 & H2 & H3). unfold ssz_take_data. assert (B : build_headers (headers_byte_len it) (headers it) [] = Ret []).
  { induction H1 as [|h hs -> H1 IH]; [reflexivity|]. exact IH. }
  rewrite B. cbn [obind]. rewrite H3. eauto.
Qed.
Lemma nothing_new : nothing ssz_new. Proof. repeat split; constructor. Qed.
Lemma nothing_values t l it : Forall (fun v => to_bytes t v = Ret []) l -> nothing it -> exists it', encode_values (to_bytes t) false l it = Ret it' /\ nothing it'.
Proof.
  intros H. revert it. induction H as [|v l Hv H IH]; intros it Hi; cbn [encode_values]; [eauto|]. rewrite Hv. cbn [obind].
  destruct (nothing_more it Hi) as (it' & -> & Hi'). exact (IH it' Hi').
Qed.
Lemma zero_bytes t v : no_bytes t -> has_type t v -> to_bytes t v = Ret [].
Proof.
  revert v. induction t as [w| |t n IH|t IH|ts IH] using sty_ind'; intros v H HT; cbn [no_bytes] in H; try contradiction; destruct v as [k|b|l]; try contradiction.
  - cbn [has_type] in HT. destruct HT as [L HT]. cbn [to_bytes]. rewrite L, Nat.eqb_refl. cbn [oassert].
    assert (S : exists z, size t = Ret (Some z)).
    { destruct H as [[H _]|(_ & Lg & V)]; [exists 0; now apply zero_size|]. rewrite (size_spec t Lg), V. eauto. }
    destruct S as (z & ->). cbn [obind opt_none].
    assert (F : Forall (fun v => to_bytes t v = Ret []) l).
    { destruct H as [[H _]|(-> & _)]; [|destruct l; [constructor|discriminate]]. revert HT. apply Forall_impl. intros v Hv. now apply IH. }
    destruct (nothing_values t l ssz_new F nothing_new) as (it & -> & Hi). cbn [obind]. destruct (nothing_taken it Hi) as (it' & ->). reflexivity.
  - cbn [to_bytes].
    match goal with |- obind (?f ts l ssz_new) _ = _ => assert (F : forall l it, has_type (SStruct ts) (VSeq l) -> nothing it -> exists it', f ts l it = Ret it' /\ nothing it') end.
    { clear l HT. induction IH as [|t ts H0 IH IH2]; intros l it HT Hi; destruct l as [|v l]; cbn [has_type] in HT; try contradiction; [eauto|].
      destruct HT as [Hv HT]. destruct H as [Ht H]. rewrite (zero_size t Ht), (H0 v Ht Hv). cbn [obind opt_none].
      destruct (nothing_more it Hi) as (it' & -> & Hi'). cbn [obind]. exact (IH2 H l it' HT Hi'). }
    destruct (F l ssz_new HT nothing_new) as (it & -> & Hi). cbn [obind]. destruct (nothing_taken it Hi) as (it' & ->). reflexivity.
Qed.
Lemma encode_nothing t v : to_bytes t v = Ret [] -> ssz_encode t v = Ret [].
Proof.
  intros E. unfold ssz_encode, ssz_encode_to, sassert. cbn [ssz_is_empty]. rewrite E. change (is_debug bld && negb (ssz_is_empty ssz_new))%bool with (is_debug bld && false)%bool. rewrite andb_false_r. cbn [obind].
  destruct (nothing_more ssz_new nothing_new) as (it & EI & Hi). cbn [encode_part] in EI. rewrite EI. cbn [obind]. destruct (nothing_taken it Hi) as (it' & ->). reflexivity.
Qed.
(** lists and arrays of such values are written as no bytes, and what is written cannot be read *)
Theorem zero_unreadable t : no_bytes t ->
  (forall l, has_type (SVec t) (VSeq l) -> ssz_encode (SVec t) (VSeq l) = Ret []) /\
  (forall bs, ssz_decode (SVec t) bs = Panic) /\
  (forall n, Z.of_nat n < 2 ^ 32 ->
    (forall l, has_type (SArray t n) (VSeq l) -> ssz_encode (SArray t n) (VSeq l) = Ret []) /\
    (forall bs, ssz_decode (SArray t n) bs = match bs with [] => Panic | _ => Ret (Err SszInvalidFormat) end)).
Proof.
  intros H. split; [|split; [intros bs; now apply zero_list|]].
  - intros l HT. apply encode_nothing. cbn [to_bytes]. rewrite (zero_size t H). cbn [obind opt_none].
    assert (F : Forall (fun v => to_bytes t v = Ret []) l) by (revert HT; apply Forall_impl; intros v Hv; now apply zero_bytes).
    destruct (nothing_values t l ssz_new F nothing_new) as (it & -> & Hi). cbn [obind]. destruct (nothing_taken it Hi) as (it' & ->). reflexivity.
  - intros n Hn. split; [|intros bs; now apply zero_array]. intros l HT. apply encode_nothing. apply zero_bytes; [|exact HT]. left. auto.
Qed.
End Zero.

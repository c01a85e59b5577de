(** Debug and release builds, continued: SSZ. *)

From Verif Require Import Base M_Ssz S_Release P_Ssz P_Ssz2 P_Release.
Open Scope Z_scope.
Local Notation "f ~ g" := (follows f g) (at level 70).
Local Notation D := DebugBuild.
Local Notation R := ReleaseBuild.

Lemma fo_sassert {A} c (k k' : outcome A) : k ~ k' -> @sassert D A c k ~ @sassert R A c k'.
Proof. intros H. unfold sassert. cbn [is_debug andb]. destruct c; cbn [negb]; [exact H|apply fo_panic]. Qed.
Lemma u32_plus_fo n : @u32_plus D n ~ @u32_plus R n.
Proof. unfold u32_plus. destruct (_ <? _); [apply fo_refl|apply fo_panic]. Qed.
Lemma u32_sub_fo a b : @u32_sub D a b ~ @u32_sub R a b.
Proof. unfold u32_sub. destruct (_ <=? _); [apply fo_refl|apply fo_panic]. Qed.
Ltac go := repeat (cbv beta zeta; match goal with
  | |- follows ?a ?a => apply fo_refl
  | |- follows Panic _ => apply fo_panic
  | |- follows (obind _ _) (obind _ _) => apply fo_bind; [|intros]
  | |- follows (rbind _ _) (rbind _ _) => apply fo_rbind; [|intros]
  | |- follows (oassert _ _) _ => apply fo_assert
  | |- follows (sassert _ _) _ => apply fo_sassert
  | |- follows (if ?x then _ else _) _ => destruct x
  | |- follows (match ?x with _ => _ end) _ => destruct x
  | |- follows (u32_plus _) _ => apply u32_plus_fo
  | |- follows (u32_sub _ _) _ => apply u32_sub_fo
  | |- _ => assumption
  | H : forall _, _ |- _ => solve [apply H; auto]
  end).

Lemma size_fo t : @size D t ~ @size R t.
Proof.
  induction t as [w| |t n IH|t IH|ts IH] using sty_ind'; try apply fo_refl.
  - cbn [size]. apply fo_bind; [exact IH|]. intros. apply fo_refl.
  - change (@size D (SStruct ts)) with (@sum_loop D ts (Some 0)). change (@size R (SStruct ts)) with (@sum_loop R ts (Some 0)).
    generalize (Some 0) as acc. induction IH as [|t ts I0 I1 IHt]; intros acc; [apply fo_refl|].
    unfold sum_loop; fold (@sum_loop D) (@sum_loop R). apply fo_bind; [exact I0|]. intros s. go.
Qed.
Lemma encode_values_fo (f g : sval -> outcome (list Z)) v l it : (forall x, f x ~ g x) -> encode_values f v l it ~ encode_values g v l it.
Proof. intros H. revert it. induction l as [|x l IH]; intros; cbn [encode_values]; go. Qed.
Lemma to_bytes_fo t : forall v, @to_bytes D t v ~ @to_bytes R t v.
Proof.
  induction t as [w| |t n IH|t IH|ts IH] using sty_ind'; intros v; try apply fo_refl; destruct v as [k|b|l]; try apply fo_refl.
  - cbn [to_bytes]. apply fo_assert. apply fo_bind; [apply size_fo|]. intros. apply fo_bind; [now apply encode_values_fo|]. intros. apply fo_refl.
  - cbn [to_bytes]. apply fo_bind; [apply size_fo|]. intros. apply fo_bind; [now apply encode_values_fo|]. intros. apply fo_refl.
  - change (@to_bytes D (SStruct ts) (VSeq l)) with (it <- @fields_encode D ts l ssz_new ;; '(data, _) <- ssz_take_data it ;; Ret data).
    change (@to_bytes R (SStruct ts) (VSeq l)) with (it <- @fields_encode R ts l ssz_new ;; '(data, _) <- ssz_take_data it ;; Ret data).
    apply fo_bind; [|intros; apply fo_refl]. generalize ssz_new as it. revert l. induction IH as [|t ts I0 I1 IHt]; intros l it; [apply fo_refl|].
    unfold fields_encode; fold (@fields_encode D) (@fields_encode R). destruct l as [|v l]; [apply fo_refl|].
    apply fo_bind; [apply size_fo|]. intros. apply fo_bind; [apply I0|]. intros. apply fo_bind; [apply fo_refl|]. intros. apply IHt.
Qed.
Lemma element_fo t v it : @encode_as_container_element D t v it ~ @encode_as_container_element R t v it.
Proof. unfold encode_as_container_element. apply fo_bind; [apply size_fo|]. intros. apply fo_bind; [apply to_bytes_fo|]. intros. apply fo_refl. Qed.
Lemma encode_to_fo t v it : @ssz_encode_to D t v it ~ @ssz_encode_to R t v it.
Proof. unfold ssz_encode_to. apply fo_sassert. apply fo_bind; [apply to_bytes_fo|]. intros. apply fo_refl. Qed.
Lemma ssz_encode_fo t v : @ssz_encode D t v ~ @ssz_encode R t v.
Proof. unfold ssz_encode. apply fo_bind; [apply encode_to_fo|]. intros. apply fo_refl. Qed.
Lemma run_ssz_fo cs : forall it, @run_ssz D cs it ~ @run_ssz R cs it.
Proof.
  induction cs as [|[t v|t v|] cs IH]; intros it; cbn [run_ssz]; [apply fo_refl| | |].
  - apply fo_bind; [apply encode_to_fo|]. exact IH.
  - apply fo_bind; [apply element_fo|]. exact IH.
  - apply fo_bind; [apply fo_refl|]. intros [d i]. apply fo_bind; [apply IH|]. intros. apply fo_refl.
Qed.
Lemma decode_objects_fo (f g : list Z -> outcome (result SszDataDecodingError sval)) l : (forall b, f b ~ g b) -> decode_objects f l ~ decode_objects g l.
Proof. intros H. induction l as [|c l IH]; cbn [decode_objects]; go. Qed.
Lemma decode_windows_fo (f g : list Z -> outcome (result SszDataDecodingError sval)) b l : (forall b, f b ~ g b) ->
  @decode_windows D f b l ~ @decode_windows R g b l.
Proof. intros H. induction l as [|o l IH]; [apply fo_refl|]. destruct l as [|o' l]; [apply fo_refl|]. rewrite !decode_windows_step. go. Qed.
Lemma decode_variable_fo (f g : list Z -> outcome (result SszDataDecodingError sval)) b n h : (forall b, f b ~ g b) ->
  @decode_variable_size_objects D f b n h ~ @decode_variable_size_objects R g b n h.
Proof. intros H. unfold decode_variable_size_objects. go; now apply decode_windows_fo. Qed.
Lemma headers_len_fo l : forall a, @headers_len_of D l a ~ @headers_len_of R l a.
Proof. induction l as [|[s|] l IH]; intros a; cbn [headers_len_of]; go. Qed.
Lemma items_rev_fo d l : forall p h acc, @items_rev D d l p h acc ~ @items_rev R d l p h acc.
Proof. induction l as [|[s|] l IH]; intros p h acc; cbn [items_rev]; go. Qed.
Lemma decode_as_items_fo d l : @ssz_decode_as_items D d l ~ @ssz_decode_as_items R d l.
Proof.
  unfold ssz_decode_as_items. apply fo_bind; [apply headers_len_fo|]. intros. cbv zeta. destruct (_ <=? _); [apply fo_refl|]. destruct (_ <? _); [apply fo_refl|].
  apply fo_rbind; [apply items_rev_fo|]. intros. apply fo_refl.
Qed.
Lemma sizes_of_fo ts : @sizes_of D ts ~ @sizes_of R ts.
Proof. induction ts as [|t ts IH]; cbn [sizes_of]; [apply fo_refl|]. apply fo_bind; [apply size_fo|]. intros. go. Qed.
Lemma ssz_decode_fo t : forall bs, @ssz_decode D t bs ~ @ssz_decode R t bs.
Proof.
  unfold ssz_decode. induction t as [w| |t n IH|t IH|ts IH] using sty_ind'; intros bs; try apply fo_refl.
  - cbn [try_from_bytes]. apply fo_bind; [apply size_fo|]. intros s. go; [now apply decode_objects_fo|now apply decode_variable_fo].
  - cbn [try_from_bytes]. apply fo_bind; [apply size_fo|]. intros s. go; [now apply decode_objects_fo|now apply decode_variable_fo].
  - change (@try_from_bytes D (SStruct ts) bs) with
      (sizes <- @sizes_of D ts ;; items <-? @ssz_decode_as_items D bs sizes ;; vs <-? @fields_decode D ts items ;; Ret (Ok (VSeq vs))).
    change (@try_from_bytes R (SStruct ts) bs) with
      (sizes <- @sizes_of R ts ;; items <-? @ssz_decode_as_items R bs sizes ;; vs <-? @fields_decode R ts items ;; Ret (Ok (VSeq vs))).
    apply fo_bind; [apply sizes_of_fo|]. intros. apply fo_rbind; [apply decode_as_items_fo|]. intros items. apply fo_rbind; [|intros; apply fo_refl].
    revert items. induction IH as [|t ts I0 I1 IHt]; intros items; [apply fo_refl|]. unfold fields_decode; fold (@fields_decode D) (@fields_decode R).
    destruct items as [|d items]; [apply fo_refl|]. apply fo_rbind; [apply I0|]. intros. apply fo_rbind; [apply IHt|]. intros. apply fo_refl.
Qed.

(** Proofs about SSZ: exactly which encodings decode, and which make the decoder panic. *)

From Verif Require Import Base M_Ssz S_Ssz P_Ssz P_Ssz2 P_Ssz3.
Open Scope Z_scope.

Section Ssz.
Context {bld : build}.

(** no empty list of variable-size elements, as a test *)
Fixpoint full (t : sty) (v : sval) : bool :=
  match t, v with
  | SArray t _, VSeq l => forallb (full t) l
  | SVec t, VSeq l => (if is_variable_size t then match l with [] => false | _ => true end else true) && forallb (full t) l
  | SStruct ts, VSeq l =>
      (fix fields (ts : list sty) (l : list sval) : bool :=
         match ts, l with t :: ts', v :: l' => full t v && fields ts' l' | _, _ => true end) ts l
  | _, _ => true
  end.
Definition fields_fullb := fix fields (ts : list sty) (l : list sval) : bool :=
         match ts, l with t :: ts', v :: l' => full t v && fields ts' l' | _, _ => true end.
Lemma full_spec t : forall v, full t v = true <-> no_empty_var_list t v.
Proof.
  induction t as [w| |t n IH|t IH|ts IH] using sty_ind'; intros v; destruct v as [k|b|l]; try (split; intros; (reflexivity || exact I)).
  - cbn [full no_empty_var_list]. rewrite forallb_forall, Forall_forall. split; intros H x Hx; apply IH, H, Hx.
  - cbn [full no_empty_var_list]. rewrite andb_true_iff, forallb_forall, Forall_forall.
    assert (E : (if is_variable_size t then match l with [] => false | _ => true end else true) = true <-> (is_variable_size t = true -> l <> [])).
    { destruct (is_variable_size t); [|split; [discriminate|reflexivity]]. destruct l; split; try discriminate; try reflexivity. intros H. now destruct (H eq_refl). }
    rewrite E. split; intros [H0 H]; (split; [exact H0|]); intros x Hx; apply IH, H, Hx.
  - change (fields_fullb ts l = true <-> fields_full ts l). revert l. induction IH as [|t ts I0 I1 IHt]; intros l; destruct l as [|v l]; try (split; intros; (reflexivity || exact I)).
    cbn [fields_fullb fields_full]. rewrite andb_true_iff, I0. fold fields_fullb. rewrite IHt. reflexivity.
Qed.
(** the outcome *)
Definition out {A} (b : bool) (x : A) : outcome (result SszDataDecodingError A) := if b then Ret (Ok x) else Panic.
Lemma decode_objects_out dec t l : Forall (fun v => dec (SSZ t v) = out (full t v) v) l -> decode_objects dec (map (SSZ t) l) = out (forallb (full t) l) l.
Proof. induction 1 as [|v l H0 H IH]; [reflexivity|]. cbn [map decode_objects]. cbn [forallb]. rewrite H0. unfold out. destruct (full t v); [|reflexivity]. cbn [rbind andb]. rewrite IH. unfold out. destruct (forallb _ l); reflexivity. Qed.
Lemma decode_windows_out dec t l : Forall (fun v => dec (SSZ t v) = out (full t v) v) l -> l <> [] -> forall pre,
  decode_windows dec (pre ++ concat (map (SSZ t) l)) (offs (Z.of_nat (length pre)) (map (SSZ t) l) ++ [Z.of_nat (length (pre ++ concat (map (SSZ t) l)))]) = out (forallb (full t) l) l.
Proof.
  induction 1 as [|v l H0 H IH]; intros NE pre; [contradiction|]. cbn [map offs concat app].
  destruct l as [|v' l].
  - cbn [map offs concat app decode_windows]. rewrite app_nil_r, app_length, Nat2Z.inj_add.
    rewrite sassert_ok by (apply Z.leb_le; lia).
    rewrite <- Nat2Z.inj_add, !Nat2Z.id. pose proof (slice_mid pre (SSZ t v) []) as E. rewrite app_nil_r in E. rewrite E. cbn [obind]. rewrite H0.
    cbn [forallb]. unfold out. destruct (full t v); reflexivity.
  - specialize (IH ltac:(discriminate) (pre ++ SSZ t v)). cbn [map offs concat app] in *. rewrite <- !app_assoc in IH.
    rewrite (app_length pre (SSZ t v)), Nat2Z.inj_add in IH. rewrite decode_windows_step.
    rewrite sassert_ok by (apply Z.leb_le; lia).
    rewrite <- Nat2Z.inj_add, !Nat2Z.id. rewrite slice_mid. cbn [obind]. rewrite H0.
    rewrite <- Nat2Z.inj_add in IH. remember (v' :: l) as l' eqn:El. cbn [forallb]. unfold out at 1. destruct (full t v); [|reflexivity]. cbn [rbind andb]. rewrite IH.
    unfold out. destruct (forallb (full t) l'); reflexivity.
Qed.
Lemma decode_variable_out dec t l : Forall (fun v => dec (SSZ t v) = out (full t v) v) l -> l <> [] ->
  let bs := composite (map (fun v => (true, SSZ t v)) l) in Z.of_nat (length bs) < 2 ^ 32 ->
  decode_variable_size_objects dec bs (Z.of_nat (length l)) (4 * Z.of_nat (length l)) = out (forallb (full t) l) l.
Proof.
  intros H NE bs B. unfold decode_variable_size_objects. subst bs. pose proof B as B'. rewrite composite_length, flen_var in B'.
  pose proof (vlen_nonneg (map (fun v => (true, SSZ t v)) l)).
  change BYTES_PER_LENGTH_OFFSET with 4. rewrite sassert_ok by (apply andb_true_iff; split; [apply Z.ltb_lt|apply Z.eqb_eq]; lia).
  cbn zeta. set (bs := composite _) in *.
  destruct (Z.leb_spec (2 ^ 32) (Z.of_nat (length bs))); [lia|].
  destruct (Z.ltb_spec (Z.of_nat (length bs)) (4 * Z.of_nat (length l))); [unfold bs in *; rewrite composite_length, flen_var in *; lia|].
  set (F := 4 * Z.of_nat (length l)) in *.
  set (hd := concat (map (LE 4) (offs F (map (SSZ t) l)))).
  assert (HL : Z.of_nat (length hd) = F).
  { unfold hd. rewrite <- fixed_parts_var, fixed_parts_length. apply flen_var. }
  assert (EB : bs = hd ++ concat (map (SSZ t) l)).
  { unfold bs, composite. change (sum (map fixed_length ?x)) with (flen x). rewrite flen_var, fixed_parts_var, var_parts. reflexivity. }
  replace (slice bs 0 (Z.to_nat F)) with (Ret hd : outcome (list Z)).
  2:{ rewrite EB. pose proof (slice_mid [] hd (concat (map (SSZ t) l))) as E. cbn [app length Nat.add] in E. rewrite <- HL, Nat2Z.id. now symmetry. }
  cbn [obind]. unfold hd. rewrite chunks_concat; [|lia|].
  2:{ apply Forall_forall. intros c Hc. apply in_map_iff in Hc. destruct Hc as (x & <- & _). apply LE_length. }
  cbn [obind]. rewrite read_offsets_rt; [| |lia|lia|].
  - cbn [rbind app]. destruct l as [|v l]; [contradiction|]. cbn [map offs]. rewrite <- HL, EB.
    apply (decode_windows_out dec t (v :: l)); assumption.
  - unfold F. lia.
  - rewrite EB, app_length. lia.
Qed.

Lemma decode_out t : forall v, legal t -> has_type t v -> Z.of_nat (length (SSZ t v)) < 2 ^ 32 ->
  try_from_bytes t (SSZ t v) = out (full t v) v.
Proof.
  induction t as [w| |t n IH|t IH|ts IH] using sty_ind'; intros v L T B; destruct v as [k|b|l]; try contradiction.
  - cbn [SSZ try_from_bytes]. rewrite LE_length, Nat.eqb_refl. cbn [has_type] in T. rewrite le_val_LE; [reflexivity|]. now rewrite Z.pow_mul_r in T by lia.
  - destruct b; reflexivity.
  - cbn [has_type] in T. destruct T as [Hn T]. destruct L as (L & Hn0 & LB). cbn [full]. cbn [SSZ] in *.
    assert (D : Forall (fun v => try_from_bytes t (SSZ t v) = out (full t v) v) l).
    { apply Forall_forall. intros x Hx. rewrite Forall_forall in T. apply IH; auto.
      pose proof (part_le (is_variable_size t, SSZ t x) (map (fun v => (is_variable_size t, SSZ t v)) l)) as P. rewrite composite_length in B.
      cbn [snd] in P. specialize (P ltac:(apply in_map_iff; eauto)). lia. }
    cbn [try_from_bytes]. rewrite size_spec by assumption. cbn [obind]. destruct (is_variable_size t) eqn:V.
    + rewrite u32_ok by lia. cbn [obind]. change BYTES_PER_LENGTH_OFFSET with 4. rewrite u32_ok by lia. cbn [obind].
      rewrite <- Hn, Z.mul_comm. rewrite decode_variable_out; [|assumption| |assumption].
      * unfold out. destruct (forallb (full t) l); [|reflexivity]. cbn [rbind]. now rewrite Nat.eqb_refl.
      * intros ->. cbn in Hn. lia.
    + pose proof (fixed_size_pos t L V). cbn [fixed_size] in LB.
      rewrite u32_ok by nia. cbn [obind]. rewrite u32_ok by nia. cbn [obind].
      pose proof (composite_fixed_map t l V) as CF. rewrite V in CF. rewrite CF.
      assert (U : Forall (fun c => length c = Z.to_nat (fixed_size t)) (map (SSZ t) l)).
      { apply Forall_forall. intros c Hc. apply in_map_iff in Hc. destruct Hc as (x & <- & Hx). rewrite Forall_forall in T.
        pose proof (SSZ_fixed_length t x (T x Hx) V). lia. }
      replace (negb _) with false.
      2:{ symmetry. apply negb_false_iff, Z.eqb_eq. rewrite <- Hn. clear - T V. induction T as [|v l T0 T1 IHl]; [cbn; lia|].
          cbn [map concat length]. rewrite app_length, Nat2Z.inj_add, IHl, SSZ_fixed_length by assumption. lia. }
      rewrite chunks_concat; [|lia|exact U]. cbn [obind]. rewrite decode_objects_out by assumption.
      unfold out. destruct (forallb (full t) l); [|reflexivity]. cbn [rbind]. rewrite (proj2 (Nat.eqb_eq _ _) Hn). reflexivity.
  - cbn [has_type] in T. cbn [legal] in L. cbn [full]. cbn [SSZ] in *.
    assert (D : Forall (fun v => try_from_bytes t (SSZ t v) = out (full t v) v) l).
    { apply Forall_forall. intros x Hx. rewrite Forall_forall in T. apply IH; auto.
      pose proof (part_le (is_variable_size t, SSZ t x) (map (fun v => (is_variable_size t, SSZ t v)) l)) as P. rewrite composite_length in B.
      cbn [snd] in P. specialize (P ltac:(apply in_map_iff; eauto)). lia. }
    cbn [try_from_bytes]. rewrite size_spec by assumption. cbn [obind]. destruct (is_variable_size t) eqn:V.
    + destruct l as [|v l]; [reflexivity|].
      set (bs := composite _) in *. pose proof (composite_length (map (fun v => (true, SSZ t v)) (v :: l))) as CL. fold bs in CL. rewrite flen_var in CL.
      pose proof (vlen_nonneg (map (fun v => (true, SSZ t v)) (v :: l))).
      assert (S4 : slice bs 0 4 = Ret (LE 4 (4 * Z.of_nat (length (v :: l))))).
      { unfold bs, composite. change (sum (map fixed_length ?x)) with (flen x). rewrite flen_var. cbn [map fixed_parts fst].
        rewrite <- app_assoc. set (o := 4 * _). apply (slice_mid [] (LE 4 o)). }
      rewrite S4. cbn [obind]. unfold decode_u32. rewrite LE_length. cbn [Nat.eqb].
      rewrite le_val_LE by (change (256 ^ Z.of_nat 4) with (2 ^ 32); cbn [length] in *; lia). cbn [rbind].
      change BYTES_PER_LENGTH_OFFSET with 4. destruct (Z.ltb_spec (4 * Z.of_nat (length (v :: l))) 4); [cbn [length] in *; lia|].
      rewrite Z.mul_comm, Z_mod_mult. cbn [Z.eqb negb orb]. rewrite Z.div_mul by lia. rewrite (Z.mul_comm _ 4).
      unfold bs. rewrite decode_variable_out by (assumption || discriminate). cbn [andb]. unfold out. destruct (forallb (full t) (v :: l)); reflexivity.
    + pose proof (fixed_size_pos t L V).
      destruct (Z.eqb_spec (fixed_size t) 0); [lia|]. cbn [negb oassert].
      pose proof (composite_fixed_map t l V) as CF. rewrite V in CF. rewrite CF.
      assert (U : Forall (fun c => length c = Z.to_nat (fixed_size t)) (map (SSZ t) l)).
      { apply Forall_forall. intros c Hc. apply in_map_iff in Hc. destruct Hc as (x & <- & Hx). rewrite Forall_forall in T.
        pose proof (SSZ_fixed_length t x (T x Hx) V). lia. }
      replace (Z.of_nat (length (concat (map (SSZ t) l)))) with (Z.of_nat (length l) * fixed_size t).
      2:{ clear - T V. induction T as [|v l T0 T1 IHl]; [cbn; lia|].
          cbn [map concat length]. rewrite app_length, Nat2Z.inj_add, <- IHl, SSZ_fixed_length by assumption. lia. }
      rewrite Z_mod_mult. cbn [Z.eqb negb].
      rewrite chunks_concat; [|lia|exact U]. cbn [obind]. rewrite decode_objects_out by assumption. cbn [andb]. unfold out. destruct (forallb (full t) l); reflexivity.
  - destruct L as (_ & _ & L). apply legal_all in L. change (has_type (SStruct ts) (VSeq l)) with (fields_typed ts l) in T.
    change (SSZ (SStruct ts) (VSeq l)) with (composite (fields_parts ts l)) in *. change (full (SStruct ts) (VSeq l)) with (fields_fullb ts l).
    rewrite struct_unfold, sizes_of_spec by assumption. cbn [obind].
    replace (map _ ts) with (map size_of_part (fields_parts ts l)).
    2:{ clear - T. revert l T. induction ts as [|t ts IH]; intros l T; destruct l as [|v l]; try contradiction; [reflexivity|]. destruct T as [T0 T1].
        cbn [fields_parts map]. rewrite IH by assumption. f_equal. unfold size_of_part. cbn [fst snd]. destruct (is_variable_size t) eqn:V; [reflexivity|].
        now rewrite SSZ_fixed_length. }
    rewrite items_rt by assumption. cbn [rbind].
    assert (G : fields_decode ts (map snd (fields_parts ts l)) = out (fields_fullb ts l) l).
    { assert (SM : Forall (fun p => Z.of_nat (length (snd p)) < 2 ^ 32) (fields_parts ts l)).
      { apply Forall_forall. intros p Hp. pose proof (part_le p _ Hp). rewrite composite_length in B. lia. }
      clear B. revert l T SM. induction ts as [|t ts IHt]; intros l T SM; destruct l as [|v l]; try contradiction; [reflexivity|].
      inversion IH as [|? ? I0 I1]; subst. inversion L as [|? ? L0 L1]; subst. destruct T as [T0 T1].
      cbn [fields_parts] in *. inversion SM as [|? ? S0 S1]; subst. cbn [snd] in S0.
      cbn [map fields_decode snd]. rewrite I0 by assumption. cbn [fields_fullb]. fold fields_fullb. unfold out at 1. destruct (full t v); [|reflexivity]. cbn [rbind andb].
      rewrite (IHt I1 L1) by assumption. unfold out. destruct (fields_fullb ts l); reflexivity. }
    rewrite G. unfold out. destruct (fields_fullb ts l); reflexivity.
Qed.

Lemma roundtrip_exact t v : legal t -> has_type t v -> Z.of_nat (length (SSZ t v)) < 2 ^ 32 ->
  (no_empty_var_list t v -> ssz_decode t (SSZ t v) = Ret (Ok v)) /\ (~ no_empty_var_list t v -> ssz_decode t (SSZ t v) = Panic).
Proof.
  intros L T B. unfold ssz_decode. rewrite decode_out by assumption. rewrite <- full_spec. unfold out. destruct (full t v); split; intros H; try reflexivity; try discriminate.
  now destruct H.
Qed.
End Ssz.

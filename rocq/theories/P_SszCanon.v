(** Proofs about SSZ: with two checks more, what is read is exactly what the specification
    writes. *)

From Verif Require Import Base M_Ssz S_Ssz S_SszRead P_Ssz P_Ssz2 P_Ssz3 P_SszRead.
Open Scope Z_scope.

Section Ssz.
Context {bld : build}.

Fixpoint zip (ts : list sty) (es : list (list Z)) : list (bool * list Z) :=
  match ts, es with t :: ts', e :: es' => (is_variable_size t, e) :: zip ts' es' | _, _ => [] end.
Lemma zip_repeat t n : forall es, length es = n -> zip (repeat t n) es = map (fun e => (is_variable_size t, e)) es.
Proof. induction n as [|n IH]; intros es H; destruct es as [|e es]; try discriminate; [reflexivity|]. cbn [repeat zip map]. rewrite IH by (cbn in H; lia). reflexivity. Qed.
Lemma asc_le ss stop : ascending ss stop = true -> next_offset ss stop <= stop.
Proof.
  induction ss as [|s ss IH]; [cbn; lia|]. destruct s; cbn [ascending next_offset]; [exact IH|]. intros H. apply andb_true_iff in H. destruct H as [H0 H1].
  apply Z.leb_le in H0. specialize (IH H1). lia.
Qed.
Lemma next_nonneg ts ss stop : Forall2 slot_for ts ss -> 0 <= stop -> 0 <= next_offset ss stop.
Proof. intros F H. induction F as [|t s ts ss F0 F IH]; [exact H|]. destruct s; cbn [next_offset]; [exact IH|]. destruct F0. lia. Qed.
Lemma cut_length bs a b : 0 <= a <= b -> b <= Z.of_nat (length bs) -> Z.of_nat (length (cut bs a b)) = b - a.
Proof. intros H0 H1. unfold cut. rewrite firstn_length, skipn_length. lia. Qed.
Lemma cut_skip bs a b : 0 <= a <= b -> cut bs a b ++ skipn (Z.to_nat b) bs = skipn (Z.to_nat a) bs.
Proof. intros H. unfold cut. replace (Z.to_nat b) with (Z.to_nat (b - a) + Z.to_nat a)%nat by lia. rewrite <- skip_skip. apply firstn_skipn. Qed.

(** ** Forward *)
Lemma flen_zip bs ts ss : Forall2 slot_for ts ss -> flen (zip ts (elements bs ss)) = hl ts.
Proof.
  induction 1 as [|t s ts ss F0 F IH]; [reflexivity|]. rewrite hl_cons. unfold part_size.
  destruct s as [d|o]; destruct F0 as [V R]; cbn [elements zip]; rewrite flen_cons, IH; unfold fixed_length; cbn [fst snd]; rewrite V; lia.
Qed.
Lemma parts_forward bs ts ss : Forall2 slot_for ts ss -> ascending ss (Z.of_nat (length bs)) = true ->
  let o := next_offset ss (Z.of_nat (length bs)) in
  fixed_parts o (zip ts (elements bs ss)) = concat (map slot_bytes ss) /\ concat (map variable_part (zip ts (elements bs ss))) = skipn (Z.to_nat o) bs.
Proof.
  induction 1 as [|t s ts ss F0 F IH]; intros A.
  - cbn [next_offset elements zip fixed_parts map concat]. split; [reflexivity|]. rewrite Nat2Z.id. symmetry. apply skipn_all.
  - destruct s as [d|o]; destruct F0 as [V R]; cbn [ascending next_offset elements zip fixed_parts map concat slot_bytes] in *; cbn [fst snd]; change (variable_part (is_variable_size t, ?d)) with (if is_variable_size t then d else []); rewrite V.
    + specialize (IH A). cbn [length app] in *. rewrite Z.add_0_r. destruct IH as [I0 I1]. split; [now rewrite I0|exact I1].
    + apply andb_true_iff in A. destruct A as [A0 A1]. apply Z.leb_le in A0. specialize (IH A1). pose proof (asc_le _ _ A1). set (m := next_offset ss _) in *.
      rewrite cut_length by lia. replace (o + (m - o)) with m by lia. destruct IH as [I0 I1]. split; [now rewrite I0|]. rewrite I1. apply cut_skip. lia.
Qed.
Lemma open_composite ts bs ss : opens ts bs ss -> snug bs ss -> bs = composite (zip ts (elements bs ss)).
Proof.
  intros (F & (rest & E) & A) SN. unfold composite. change (sum (map fixed_length ?x)) with (flen x). rewrite (flen_zip bs ts ss F).
  destruct (parts_forward bs ts ss F A) as [I0 I1]. unfold snug in SN. rewrite SN, (slots_length ts ss F) in I0, I1.
  rewrite I0, I1. rewrite E at 1. f_equal. rewrite E. pose proof (slots_length ts ss F). replace (Z.to_nat (hl ts)) with (length (concat (map slot_bytes ss))) by lia.
  rewrite skipn_app, skipn_all, Nat.sub_diag. reflexivity.
Qed.
Lemma elements_small ts bs ss : opens ts bs ss -> Forall (fun e => (length e <= length bs)%nat) (elements bs ss).
Proof.
  intros (F & (rest & E) & _). assert (I0 : forall d, In (Inline d) ss -> (length d <= length bs)%nat).
  { intros d Hd. rewrite E, app_length. clear - Hd. induction ss as [|s ss IH]; [contradiction|]. cbn [map concat]. rewrite app_length. destruct Hd as [->|Hd]; [cbn [slot_bytes]; lia|]. specialize (IH Hd). lia. }
  clear - I0. induction ss as [|s ss IH]; [constructor|]. destruct s as [d|o]; cbn [elements]; constructor.
  - apply I0. now left.
  - apply IH. intros d' H. apply I0. now right.
  - unfold cut. rewrite firstn_length, skipn_length. lia.
  - apply IH. intros d' H. apply I0. now right.
Qed.

(** ** Backward *)
Fixpoint mk (o : Z) (ps : list (bool * list Z)) : list slot :=
  match ps with
  | [] => []
  | p :: ps' => if fst p then Offset o :: mk (o + Z.of_nat (length (snd p))) ps' else Inline (snd p) :: mk o ps'
  end.
Definition part_for (t : sty) (p : bool * list Z) : Prop := fst p = is_variable_size t /\ (is_variable_size t = false -> Z.of_nat (length (snd p)) = fixed_size t).
Lemma mk_fits ts ps : Forall2 part_for ts ps -> forall o, 0 <= o -> o + vlen ps < 2 ^ 32 -> Forall2 slot_for ts (mk o ps).
Proof.
  induction 1 as [|t p ts ps [F0 F0'] F IH]; intros o H0 H; [constructor|]. rewrite vlen_cons in H. pose proof (vlen_nonneg ps). cbn [mk]. unfold variable_part in H. destruct (fst p); constructor.
  - split; [now symmetry|]. lia.
  - apply IH; lia.
  - split; [now symmetry|]. apply F0'. now symmetry.
  - apply IH; cbn in H; lia.
Qed.
Lemma mk_bytes ps : forall o, concat (map slot_bytes (mk o ps)) = fixed_parts o ps.
Proof.
  induction ps as [|p ps IH]; intros o; [reflexivity|]. cbn [mk fixed_parts]. unfold variable_part. destruct (fst p); cbn [map concat slot_bytes length]; rewrite IH; [reflexivity|]. now rewrite Z.add_0_r.
Qed.
Lemma mk_next ps : forall o, next_offset (mk o ps) (o + vlen ps) = o.
Proof.
  induction ps as [|p ps IH]; intros o; [cbn; lia|]. rewrite vlen_cons. cbn [mk]. unfold variable_part. destruct (fst p); cbn [next_offset]; [reflexivity|]. apply IH.
Qed.
Lemma mk_asc ps : forall o, ascending (mk o ps) (o + vlen ps) = true.
Proof.
  induction ps as [|p ps IH]; intros o; [reflexivity|]. rewrite vlen_cons. cbn [mk]. unfold variable_part. destruct (fst p); cbn [ascending length].
  - rewrite Z.add_assoc, mk_next, IH, andb_true_r. apply Z.leb_le. lia.
  - apply IH.
Qed.
Lemma mk_elements bs ps : forall o, 0 <= o -> o + vlen ps = Z.of_nat (length bs) -> skipn (Z.to_nat o) bs = concat (map variable_part ps) ->
  elements bs (mk o ps) = map snd ps.
Proof.
  induction ps as [|p ps IH]; intros o H0 H E; [reflexivity|]. rewrite vlen_cons in H. cbn [mk map concat] in *. unfold variable_part in H, E at 1. destruct (fst p); cbn [elements length app] in *.
  - pose proof (vlen_nonneg ps). rewrite <- H, Z.add_assoc, mk_next. f_equal.
    + unfold cut. rewrite E. replace (Z.to_nat _) with (length (snd p) + 0)%nat by lia. rewrite firstn_app_2, firstn_O. apply app_nil_r.
    + apply IH; [lia|lia|]. replace (Z.to_nat _) with (length (snd p) + Z.to_nat o)%nat by lia. rewrite <- skip_skip, E, skipn_app, skipn_all, Nat.sub_diag. reflexivity.
  - f_equal. apply IH; [lia|lia|assumption].
Qed.
Lemma composite_open ts ps : Forall2 part_for ts ps -> small (composite ps) ->
  exists ss, opens ts (composite ps) ss /\ snug (composite ps) ss /\ elements (composite ps) ss = map snd ps.
Proof.
  intros F SM. unfold small in SM. pose proof SM as SM'. rewrite composite_length in SM'. pose proof (flen_nonneg ps).
  exists (mk (flen ps) ps). split; [split; [now apply mk_fits|split]|split].
  - exists (concat (map variable_part ps)). now rewrite mk_bytes.
  - rewrite composite_length. apply mk_asc.
  - unfold snug. rewrite composite_length, mk_next, mk_bytes, fixed_parts_length. reflexivity.
  - apply mk_elements; [assumption|now rewrite composite_length|]. unfold composite. change (sum (map fixed_length ps)) with (flen ps).
    pose proof (fixed_parts_length ps (flen ps)). replace (Z.to_nat (flen ps)) with (length (fixed_parts (flen ps) ps)) by lia. rewrite skipn_app, skipn_all, Nat.sub_diag. reflexivity.
Qed.
Lemma F2_map {A B} (R : A -> B -> Prop) (f : A -> B) l : Forall (fun a => R a (f a)) l -> Forall2 R l (map f l).
Proof. induction 1; cbn; constructor; auto. Qed.
Lemma F2_map' {A B} (R : B -> A -> Prop) (f : A -> B) l : Forall (fun a => R (f a) a) l -> Forall2 R (map f l) l.
Proof. induction 1; cbn; constructor; auto. Qed.
Lemma parts_repeat t l : Forall (has_type t) l -> Forall2 part_for (repeat t (length l)) (map (fun v => (is_variable_size t, SSZ t v)) l).
Proof.
  induction 1 as [|v l H0 H IH]; [constructor|]. cbn [length repeat map]. constructor; [|exact IH]. split; [reflexivity|]. intros V. cbn [snd]. now apply SSZ_fixed_length.
Qed.
Lemma parts_fields ts : forall l, fields_typed ts l -> Forall2 part_for ts (fields_parts ts l).
Proof.
  induction ts as [|t ts IH]; intros l T; destruct l as [|v l]; try contradiction; [constructor|]. destruct T as [T0 T1]. cbn [fields_parts]. constructor; [|now apply IH].
  split; [reflexivity|]. intros V. cbn [snd]. now apply SSZ_fixed_length.
Qed.
Lemma slots_F2_length ts bs ss : opens ts bs ss -> length (elements bs ss) = length ts.
Proof. intros (F & _). rewrite elements_length. symmetry. eapply F2_length, F. Qed.

Lemma canonical t : forall bs v, legal t -> small bs -> (reads true t bs v <-> has_type t v /\ no_empty_var_list t v /\ bs = SSZ t v).
Proof.
  induction t as [w| |t n IH|t IH|ts IH] using sty_ind'; intros bs v L SM; destruct v as [k|b|l]; cbn [reads]; try (split; [contradiction|intros (T & _); contradiction]).
  - cbn [has_type no_empty_var_list SSZ]. tauto.
  - cbn [has_type no_empty_var_list SSZ]. tauto.
  - destruct L as (L & Hn & _). cbn [has_type no_empty_var_list SSZ]. split.
    + intros (ss & O & K & F). assert (SN : snug bs ss) by (destruct (is_variable_size t); [destruct K; auto|exact K]). clear K.
      pose proof (slots_F2_length _ _ _ O) as LE0. rewrite repeat_length in LE0. pose proof (F2_length _ _ _ F) as LF.
      assert (G : Forall (has_type t) l /\ Forall (no_empty_var_list t) l /\ elements bs ss = map (SSZ t) l).
      { pose proof (elements_small _ _ _ O) as ES. clear - F ES IH L SM. induction F as [|e v es l F0 F IHF]; [repeat split; constructor|].
        inversion ES; subst. destruct (IHF ltac:(assumption)) as (G0 & G1 & G2). apply IH in F0; [|assumption|unfold small in *; lia]. destruct F0 as (T & N & ->).
        repeat split; try constructor; auto. cbn [map]. now rewrite G2. }
      destruct G as (G0 & G1 & G2). split; [split; [lia|assumption]|]. split; [assumption|]. pose proof (open_composite _ _ _ O SN) as OC.
      rewrite zip_repeat in OC by assumption. rewrite G2, map_map in OC. exact OC.
    + intros ((Ln & T) & N & ->). assert (D := parts_repeat t l T). rewrite Ln in D. destruct (composite_open _ _ D SM) as (ss & O & SN & EL).
      exists ss. split; [exact O|]. split; [destruct (is_variable_size t); auto|]. rewrite EL, map_map. cbn [snd]. apply F2_map'. apply Forall_forall. intros x Hx.
      rewrite Forall_forall in T, N. apply IH; [assumption| |auto]. unfold small in *. rewrite composite_length in SM.
      pose proof (part_le (is_variable_size t, SSZ t x) (map (fun v => (is_variable_size t, SSZ t v)) l)) as P. cbn [snd] in P. specialize (P ltac:(apply in_map_iff; eauto)). lia.
  - cbn [legal] in L. cbn [has_type no_empty_var_list SSZ]. split.
    + intros (n & ss & O & K & SN & F).
      pose proof (slots_F2_length _ _ _ O) as LE0. rewrite repeat_length in LE0. pose proof (F2_length _ _ _ F) as LF.
      assert (G : Forall (has_type t) l /\ Forall (no_empty_var_list t) l /\ elements bs ss = map (SSZ t) l).
      { pose proof (elements_small _ _ _ O) as ES. clear - F ES IH L SM. induction F as [|e v es l F0 F IHF]; [repeat split; constructor|].
        inversion ES; subst. destruct (IHF ltac:(assumption)) as (G0 & G1 & G2). apply IH in F0; [|assumption|unfold small in *; lia]. destruct F0 as (T & N & ->).
        repeat split; try constructor; auto. cbn [map]. now rewrite G2. }
      destruct G as (G0 & G1 & G2). split; [assumption|]. split; [split; [|assumption]|].
      * intros V. destruct (K V) as [_ Hn]. intros ->. cbn in LF. lia.
      * pose proof (open_composite _ _ _ O SN) as OC. rewrite zip_repeat in OC by assumption. rewrite G2, map_map in OC. exact OC.
    + intros (T & (NE & N) & ->). assert (D := parts_repeat t l T). destruct (composite_open _ _ D SM) as (ss & O & SN & EL).
      exists (length l), ss. split; [exact O|]. split; [intros V; specialize (NE V); split; [assumption|destruct l; [contradiction|cbn; lia]]|]. split; [assumption|].
      rewrite EL, map_map. cbn [snd]. apply F2_map'. apply Forall_forall. intros x Hx.
      rewrite Forall_forall in T, N. apply IH; [assumption| |auto]. unfold small in *. rewrite composite_length in SM.
      pose proof (part_le (is_variable_size t, SSZ t x) (map (fun v => (is_variable_size t, SSZ t v)) l)) as P. cbn [snd] in P. specialize (P ltac:(apply in_map_iff; eauto)). lia.
  - destruct L as (_ & _ & L). apply legal_all in L. change (has_type (SStruct ts) (VSeq l)) with (fields_typed ts l). change (no_empty_var_list (SStruct ts) (VSeq l)) with (fields_full ts l).
    change (SSZ (SStruct ts) (VSeq l)) with (composite (fields_parts ts l)). split.
    + intros (ss & O & _ & SN & F). specialize (SN eq_refl). change (fields_read true ts (elements bs ss) l) in F.
      assert (G : fields_typed ts l /\ fields_full ts l /\ zip ts (elements bs ss) = fields_parts ts l).
      { pose proof (elements_small _ _ _ O) as ES. revert F ES. generalize (elements bs ss). clear - IH L SM. intros es. revert es l.
        induction ts as [|t ts IHt]; intros es l F ES; destruct es as [|e es]; destruct l as [|v l]; try contradiction; [repeat split|].
        inversion IH; inversion L; inversion ES; subst. destruct F as [F0 F1]. fold (fields_read true) in F1.
        destruct (IHt ltac:(assumption) ltac:(assumption) es l F1 ltac:(assumption)) as (G0 & G1 & G2).
        match goal with H : forall bs v, legal t -> _ |- _ => apply H in F0; [|assumption|unfold small in *; lia] end. destruct F0 as (T & N & ->).
        cbn [fields_typed fields_full zip fields_parts]. fold fields_typed fields_full fields_parts. rewrite G2. auto. }
      destruct G as (G0 & G1 & G2). split; [assumption|]. split; [assumption|]. rewrite <- G2. now apply open_composite.
    + intros (T & N & ->). destruct (composite_open _ _ (parts_fields ts l T) SM) as (ss & O & SN & EL). exists ss. split; [exact O|]. split; [exact SM|]. split; [auto|].
      rewrite EL. change (fields_read true ts (map snd (fields_parts ts l)) l).
      assert (SP : Forall (fun p => small (snd p)) (fields_parts ts l)).
      { apply Forall_forall. intros p Hp. pose proof (part_le p _ Hp). unfold small in *. rewrite composite_length in SM. lia. }
      clear - IH L T N SP. revert l T N SP. induction ts as [|t ts IHt]; intros l T N SP; destruct l as [|v l]; try contradiction; [exact I|].
      inversion IH; inversion L; subst. destruct T as [T0 T1]. destruct N as [N0 N1]. cbn [fields_parts map snd fields_read] in *. inversion SP; subst. fold (fields_read true). split.
      * match goal with H : forall bs v, legal t -> _ |- _ => apply H; auto end.
      * apply IHt; assumption.
Qed.
Lemma reads_weaken t : forall bs v, reads true t bs v -> reads false t bs v.
Proof.
  induction t as [w| |t n IH|t IH|ts IH] using sty_ind'; intros bs v R; destruct v as [k|b|l]; try contradiction; try exact R; cbn [reads] in *.
  - destruct R as (ss & O & K & F). exists ss. split; [assumption|]. split.
    + destruct (is_variable_size t); [|assumption]. destruct K as [K _]. split; [assumption|discriminate].
    + clear - F IH. induction F; constructor; auto.
  - destruct R as (n & ss & O & K & SN & F). exists n, ss. repeat split; auto; try (now apply O); try (now apply K). clear - F IH. induction F; constructor; auto.
  - destruct R as (ss & O & SM & SN & F). exists ss. split; [assumption|]. split; [assumption|]. split; [discriminate|].
    change (fields_read true ts (elements bs ss) l) in F. change (fields_read false ts (elements bs ss) l). revert F. generalize (elements bs ss). clear - IH. intros es. revert es l.
    induction ts as [|t ts IHt]; intros es l F; destruct es as [|e es]; destruct l as [|v l]; try contradiction; [exact I|]. inversion IH; subst. destruct F as [F0 F1]. split; [auto|]. now apply IHt.
Qed.
(** a decoded value is the canonical reading of the bytes exactly when the two checks hold *)
Lemma decode_canonical t bs v : legal t -> bytes bs -> small bs -> ssz_decode t bs = Ret (Ok v) -> (SSZ t v = bs <-> reads true t bs v).
Proof.
  intros L B SM D. split.
  - intros E. apply canonical; [assumption|assumption|]. pose proof (ssz_typed t bs v L B D) as T. split; [assumption|]. split; [|now symmetry].
    apply ssz_reads in D; [|assumption|assumption]. clear - D. revert bs v D. induction t as [w| |t n IH|t IH|ts IH] using sty_ind'; intros bs v R; destruct v as [k|b|l]; try contradiction; try exact I; cbn [reads no_empty_var_list] in *.
    + destruct R as (ss & _ & _ & F). clear - F IH. induction F; constructor; eauto.
    + destruct R as (n & ss & O & K & _ & F). split.
      * intros V. destruct (K V) as [_ Hn]. intros ->. apply F2_length in F. rewrite (slots_F2_length _ _ _ O), repeat_length in F. cbn in F. lia.
      * clear - F IH. induction F; constructor; eauto.
    + destruct R as (ss & _ & _ & _ & F). change (fields_full ts l). change (fields_read false ts (elements bs ss) l) in F. revert F. generalize (elements bs ss). clear - IH. intros es. revert es l.
      induction ts as [|t ts IHt]; intros es l F; destruct es as [|e es]; destruct l as [|v l]; try contradiction; [exact I|]. inversion IH; subst. destruct F as [F0 F1]. split; [eauto|]. now apply (IHt H2 es).
  - intros R. apply canonical in R; [|assumption|assumption]. now destruct R as (_ & _ & ->).
Qed.
End Ssz.

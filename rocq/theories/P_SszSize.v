(** Proofs about the size of decoded SSZ values. *)

From Verif Require Import Base M_Ssz S_Ssz S_SszRead S_SszSize P_Ssz P_Ssz2 P_Ssz3 P_SszRead P_SszCanon.
Open Scope Z_scope.

Lemma levels_pos t : 1 <= levels t.
Proof.
  induction t as [w| |t n IH|t IH|ts IH] using sty_ind'; cbn [levels]; try lia; try (destruct (is_variable_size t); lia).
  assert (0 <= fold_right (fun t m => if is_variable_size t then Z.max (levels t) m else m) 0 ts); [|lia].
  induction IH as [|t ts _ _ IHt]; cbn [fold_right]; [lia|]. destruct (is_variable_size t); lia.
Qed.
Lemma vlen_open ts bs ss : opens ts bs ss -> vlen (zip ts (elements bs ss)) <= Z.of_nat (length bs).
Proof.
  intros (F & _ & A). rewrite <- concat_vlen. destruct (parts_forward bs ts ss F A) as [_ ->]. rewrite skipn_length. lia.
Qed.
Lemma hl_open ts bs ss : opens ts bs ss -> hl ts <= Z.of_nat (length bs).
Proof. intros (F & (rest & ->) & _). rewrite app_length, Nat2Z.inj_add, (slots_length ts ss F). lia. Qed.
(** one level *)
Lemma size_step D : 0 <= D -> forall ts es ps bs ss, opens ts bs ss -> es = elements bs ss -> Forall2 part_for ts ps ->
  Forall2 (fun z p => fst z = true -> Z.of_nat (length (snd p)) <= D * Z.of_nat (length (snd z))) (zip ts es) ps ->
  Z.of_nat (length (composite ps)) <= (1 + D) * Z.of_nat (length bs).
Proof.
  intros HD ts es ps bs ss O -> PF H. pose proof (vlen_open ts bs ss O) as V. pose proof (hl_open ts bs ss O) as HL.
  rewrite composite_length.
  assert (FE : flen ps = hl ts).
  { clear - PF. induction PF as [|t p ts ps P0 PF IH]; [reflexivity|]. rewrite flen_cons, hl_cons, IH. f_equal.
    destruct P0 as [E L]. unfold fixed_length, part_size. rewrite E. destruct (is_variable_size t); [reflexivity|]. now apply L. }
  assert (VE : vlen ps <= D * vlen (zip ts (elements bs ss))).
  { assert (EL : length ts = length (elements bs ss)) by (symmetry; eapply slots_F2_length; eassumption).
    clear - PF H HD EL. generalize dependent (elements bs ss). induction PF as [|t p ts ps P0 PF IH]; intros es H EL; destruct es as [|e es]; try discriminate EL.
    - cbn. lia.
    - cbn [zip] in *. inversion H as [|? ? ? ? H0 H1]; subst. specialize (IH es H1 ltac:(cbn in EL; lia)). rewrite !vlen_cons.
      destruct P0 as [E _]. cbn [fst snd] in H0. unfold variable_part. cbn [fst snd]. rewrite E. destruct (is_variable_size t); [specialize (H0 eq_refl); nia|]. cbn [length]. lia. }
  nia.
Qed.

Lemma zip_F2 (Q : bool * list Z -> bool * list Z -> Prop) t es l : Forall2 (fun e v => Q (is_variable_size t, e) (is_variable_size t, SSZ t v)) es l ->
  Forall2 Q (zip (repeat t (length es)) es) (map (fun v => (is_variable_size t, SSZ t v)) l).
Proof. intros H. rewrite zip_repeat by reflexivity. induction H; cbn [map]; constructor; auto. Qed.
Lemma reads_size t : forall bs v, reads false t bs v -> has_type t v -> Z.of_nat (length (SSZ t v)) <= levels t * Z.of_nat (length bs).
Proof.
  induction t as [w| |t n IH|t IH|ts IH] using sty_ind'; intros bs v R T; destruct v as [k|b|l]; try contradiction.
  - cbn [reads] in R. destruct R as [_ ->]. cbn [SSZ levels]. lia.
  - cbn [reads] in R. subst bs. cbn [SSZ levels length]. lia.
  - cbn [reads] in R. destruct R as (ss & O & _ & F). cbn [has_type] in T. destruct T as [TL T]. cbn [SSZ].
    pose proof (slots_F2_length _ _ _ O) as EL. rewrite repeat_length in EL. pose proof (F2_length _ _ _ F) as FL.
    replace (levels (SArray t n)) with (1 + (if is_variable_size t then levels t else 0)) by (cbn [levels]; destruct (is_variable_size t); lia).
    eapply size_step; [|exact O|reflexivity| |].
    + pose proof (levels_pos t). destruct (is_variable_size t); lia.
    + rewrite <- TL. now apply parts_repeat.
    + rewrite <- EL at 1. apply zip_F2. clear - IH F T. induction F as [|e v es l F0 F IHF]; [constructor|]. inversion T; subst. constructor; [|auto].
      cbn [fst snd]. intros ->. now apply IH.
  - cbn [reads] in R. destruct R as (n & ss & O & _ & _ & F). cbn [has_type] in T. cbn [SSZ].
    pose proof (slots_F2_length _ _ _ O) as EL. rewrite repeat_length in EL. pose proof (F2_length _ _ _ F) as FL.
    replace (levels (SVec t)) with (1 + (if is_variable_size t then levels t else 0)) by (cbn [levels]; destruct (is_variable_size t); lia).
    eapply size_step; [|exact O|reflexivity| |].
    + pose proof (levels_pos t). destruct (is_variable_size t); lia.
    + replace n with (length l) by lia. now apply parts_repeat.
    + rewrite <- EL at 1. apply zip_F2. clear - IH F T. induction F as [|e v es l F0 F IHF]; [constructor|]. inversion T; subst. constructor; [|auto].
      cbn [fst snd]. intros ->. now apply IH.
  - change (has_type (SStruct ts) (VSeq l)) with (fields_typed ts l) in T. change (SSZ (SStruct ts) (VSeq l)) with (composite (fields_parts ts l)).
    change (exists ss, opens ts bs ss /\ small bs /\ (false = true -> snug bs ss) /\ fields_read false ts (elements bs ss) l) in R.
    destruct R as (ss & O & _ & _ & F). cbn [levels]. set (D := fold_right _ 0 ts).
    assert (HD : 0 <= D). { unfold D. clear. induction ts as [|t ts IH]; cbn [fold_right]; [lia|]. destruct (is_variable_size t); lia. }
    eapply size_step; [exact HD|exact O|reflexivity|now apply parts_fields|].
    assert (MD : Forall (fun t => is_variable_size t = true -> levels t <= D) ts).
    { unfold D. clear. induction ts as [|t ts IH]; [constructor|]. cbn [fold_right]. constructor.
      - intros ->. lia.
      - eapply Forall_impl; [|exact IH]. cbv beta. intros x H V. specialize (H V). destruct (is_variable_size t); lia. }
    clearbody D. clear O HD. generalize dependent (elements bs ss). revert l T. induction IH as [|t ts I0 I1 IHt]; intros l T es F.
    + destruct es, l; try contradiction. constructor.
    + inversion MD as [|? ? M0 M1]; subst. destruct es as [|e es], l as [|v l]; try contradiction. destruct T as [T0 T1]. destruct F as [F0 F1].
      cbn [zip fields_parts]. constructor; [|now apply IHt]. cbn [fst snd]. intros V. specialize (I0 e v F0 T0). specialize (M0 V). nia.
Qed.
Lemma decode_size {bld : build} t bs v : legal t -> bytes bs -> ssz_decode t bs = Ret (Ok v) -> Z.of_nat (length (SSZ t v)) <= levels t * Z.of_nat (length bs).
Proof. intros L B E. apply reads_size; [now apply ssz_reads|]. now apply (ssz_typed t bs v). Qed.

(** ** The bound is met *)
Fixpoint nest (d : nat) : sty := match d with O => SVec (SUint W8) | S d' => SStruct [nest d'] end.
Fixpoint nest_val (d : nat) : sval := match d with O => VSeq [VNum 0; VNum 0; VNum 0; VNum 0] | S d' => VSeq [nest_val d'] end.
Lemma nest_var d : is_variable_size (nest d) = true.
Proof. destruct d; [reflexivity|]. cbn [nest is_variable_size existsb]. induction d as [|d IH]; [reflexivity|]. cbn [nest is_variable_size existsb]. now rewrite IH. Qed.
Lemma nest_legal d : legal (nest d).
Proof. induction d as [|d IH]; [exact I|]. cbn [nest legal fold_right]. rewrite nest_var. split; [discriminate|]. split; [lia|]. now split. Qed.
Lemma nest_levels d : levels (nest d) = Z.of_nat (S d).
Proof. induction d as [|d IH]; [reflexivity|]. cbn [nest levels fold_right]. rewrite nest_var, IH. lia. Qed.
Lemma nest_reads d : reads false (nest d) [0; 0; 0; 0] (nest_val d).
Proof.
  induction d as [|d IH].
  - cbn [nest nest_val reads]. exists 4%nat, [Inline [0]; Inline [0]; Inline [0]; Inline [0]]. repeat split; try discriminate; [|now exists []|].
    + repeat constructor.
    + repeat constructor; discriminate.
  - cbn [nest nest_val]. cbn [reads]. exists [Offset 0]. repeat split; try discriminate; [| |exact IH].
    + repeat constructor; try lia. apply nest_var.
    + now exists [].
Qed.
Lemma nest_size d : Z.of_nat (length (SSZ (nest d) (nest_val d))) = 4 * Z.of_nat (S d).
Proof.
  induction d as [|d IH]; [reflexivity|]. change (SSZ (nest (S d)) (nest_val (S d))) with (composite [(is_variable_size (nest d), SSZ (nest d) (nest_val d))]).
  rewrite composite_length, nest_var. unfold flen, vlen. cbn [map sum fold_right fixed_length variable_part fst snd]. lia.
Qed.
Lemma size_tight {bld : build} k : 1 <= k -> exists t bs v, legal t /\ bytes bs /\ bs <> [] /\ levels t = k /\ ssz_decode t bs = Ret (Ok v) /\
  Z.of_nat (length (SSZ t v)) = k * Z.of_nat (length bs).
Proof.
  intros K. exists (nest (Z.to_nat (k - 1))), [0; 0; 0; 0], (nest_val (Z.to_nat (k - 1))).
  assert (B : bytes [0; 0; 0; 0]) by (repeat constructor; discriminate).
  split; [apply nest_legal|]. split; [exact B|]. split; [discriminate|]. split; [rewrite nest_levels; lia|].
  split; [apply ssz_reads; [apply nest_legal|exact B|apply nest_reads]|]. rewrite nest_size. cbn [length]. lia.
Qed.

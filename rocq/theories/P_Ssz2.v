(** Proofs about SSZ: decoding. *)

From Verif Require Import Base M_Ssz S_Ssz P_Ssz.
Open Scope Z_scope.

Section Ssz.
Context {bld : build}.

(** ** Lists and slices *)
Lemma slice_mid {A} (a x c : list A) : slice (a ++ x ++ c) (length a) (length a + length x) = Ret x.
Proof.
  unfold slice. rewrite !app_length.
  rewrite (proj2 (Nat.leb_le _ _)) by lia. rewrite (proj2 (Nat.leb_le _ _)) by lia. cbn [andb].
  f_equal. rewrite skipn_app, skipn_all, Nat.sub_diag. cbn [skipn app].
  replace (length a + length x - length a)%nat with (length x + 0)%nat by lia.
  rewrite firstn_app_2. cbn [firstn]. apply app_nil_r.
Qed.
Lemma slice_ok {A} (l : list A) i j : (i <= j <= length l)%nat -> slice l i j = Ret (firstn (j - i) (skipn i l)).
Proof. intros H. unfold slice. now rewrite (proj2 (Nat.leb_le _ _)), (proj2 (Nat.leb_le _ _)) by lia. Qed.
Lemma in_firstn {A} n (l : list A) x : In x (firstn n l) -> In x l.
Proof. intros H. rewrite <- (firstn_skipn n l). apply in_or_app. now left. Qed.
Lemma in_skipn {A} n (l : list A) x : In x (skipn n l) -> In x l.
Proof. intros H. rewrite <- (firstn_skipn n l). apply in_or_app. now right. Qed.
Lemma slice_bytes l i j d : bytes l -> slice l i j = Ret d -> bytes d.
Proof.
  intros B. unfold slice. destruct (_ && _)%bool; [|discriminate]. intros [= <-]. unfold bytes in *.
  rewrite Forall_forall in *. intros x Hx. apply B. apply (in_skipn i), (in_firstn (j - i)). exact Hx.
Qed.
Lemma slice_len {A} (l : list A) i j d : slice l i j = Ret d -> length d = (j - i)%nat.
Proof.
  unfold slice. destruct (_ && _)%bool eqn:E; [|discriminate]. intros [= <-]. apply andb_true_iff in E.
  rewrite !Nat.leb_le in E. rewrite firstn_length, skipn_length. lia.
Qed.
Lemma app_inj_len {A} (a : list A) : forall b c d, length a = length b -> a ++ c = b ++ d -> a = b /\ c = d.
Proof.
  induction a as [|x a IH]; intros [|y b] c d L E; try discriminate; [auto|]. cbn in *. injection E as -> E.
  destruct (IH b c d ltac:(lia) E) as [-> ->]. auto.
Qed.
Lemma concat_uniform_inj {A} n (a : list (list A)) : forall b, (0 < n)%nat -> Forall (fun c => length c = n) a -> Forall (fun c => length c = n) b ->
  concat a = concat b -> a = b.
Proof.
  induction a as [|x a IH]; intros b Hn Ha Hb E; destruct b as [|y b]; inversion Ha; inversion Hb; subst; cbn [concat] in E; try reflexivity.
  - destruct y; cbn in *; [lia|discriminate].
  - destruct x; cbn in *; [lia|discriminate].
  - apply app_inj_len in E; [|congruence]. destruct E as [-> E]. f_equal. eapply IH; eauto.
Qed.
Lemma chunks_loop_mult n (Hn : (0 < n)%nat) : forall k bs fuel, length bs = (k * n)%nat -> (length bs <= fuel)%nat ->
  let ls := chunks_exact_loop fuel n bs in concat ls = bs /\ length ls = k /\ Forall (fun c => length c = n) ls.
Proof.
  induction k as [|k IH]; intros bs fuel L F.
  - destruct bs; [|discriminate]. destruct fuel as [|fuel]; [cbn; auto|]. cbn [chunks_exact_loop length]. destruct (Nat.ltb_spec 0 n); [cbn; auto|lia].
  - destruct fuel as [|fuel]; [lia|]. cbn [chunks_exact_loop]. destruct (Nat.ltb_spec (length bs) n); [lia|].
    cbn zeta. specialize (IH (skipn n bs) fuel). rewrite skipn_length in IH. destruct (IH ltac:(lia) ltac:(lia)) as (E & K & U).
    cbn [concat length]. rewrite E, K, firstn_skipn. repeat split. constructor; [|assumption]. rewrite firstn_length. lia.
Qed.
Lemma chunks_mult n k bs : (0 < n)%nat -> length bs = (k * n)%nat ->
  exists ls, chunks_exact n bs = Ret ls /\ concat ls = bs /\ length ls = k /\ Forall (fun c => length c = n) ls.
Proof.
  intros Hn L. exists (chunks_exact_loop (length bs) n bs). unfold chunks_exact. destruct (Nat.eqb_spec n 0); [lia|]. cbn [negb oassert].
  split; [reflexivity|]. now apply chunks_loop_mult.
Qed.
Lemma chunks_concat n ls : (0 < n)%nat -> Forall (fun c => length c = n) ls -> chunks_exact n (concat ls) = Ret ls.
Proof.
  intros Hn U. destruct (chunks_mult n (length ls) (concat ls) Hn) as (ls' & E & C & _ & U').
  - clear Hn. induction U as [|x ls Hx U IH]; [reflexivity|]. cbn [concat length]. rewrite app_length. lia.
  - rewrite E. f_equal. eapply concat_uniform_inj; eauto.
Qed.

(** ** Fixed-size composites *)
Lemma composite_fixed ps : Forall (fun p => fst p = false) ps -> composite ps = concat (map snd ps).
Proof.
  intros H. unfold composite. rewrite <- (app_nil_r (concat (map snd ps))). f_equal.
  - generalize (sum (map fixed_length ps)). induction H as [|p ps Hp H IH]; intros o; [reflexivity|]. cbn [fixed_parts map concat]. rewrite Hp. f_equal. apply IH.
  - induction H as [|p ps Hp H IH]; [reflexivity|]. cbn [map concat]. rewrite IH. unfold variable_part. now rewrite Hp.
Qed.
Lemma composite_fixed_map t l : is_variable_size t = false -> composite (map (fun v => (is_variable_size t, SSZ t v)) l) = concat (map (SSZ t) l).
Proof.
  intros V. rewrite V, composite_fixed.
  - now rewrite map_map.
  - apply Forall_forall. intros p Hp. apply in_map_iff in Hp. destruct Hp as (x & <- & _). reflexivity.
Qed.
Lemma fields_fixed ts : existsb is_variable_size ts = false -> forall l, Forall (fun p => fst p = false) (fields_parts ts l).
Proof.
  induction ts as [|t ts IH]; intros V l; [constructor|]. cbn in V. apply orb_false_iff in V. destruct l as [|v l]; [constructor|].
  cbn [fields_parts]. constructor; [apply V|]. now apply IH.
Qed.
Lemma SSZ_fixed_length t : forall v, has_type t v -> is_variable_size t = false -> Z.of_nat (length (SSZ t v)) = fixed_size t.
Proof.
  induction t as [w| |t n IH|t IH|ts IH] using sty_ind'; intros v T V; destruct v as [k|b|l]; try contradiction; try discriminate.
  - cbn [SSZ fixed_size]. now rewrite LE_length.
  - reflexivity.
  - cbn [has_type] in T. destruct T as [Hn T]. cbn [is_variable_size] in V. cbn [SSZ fixed_size]. rewrite composite_fixed_map by assumption.
    rewrite <- Hn. clear Hn. induction T as [|v l T0 T1 IHl]; [cbn; lia|]. cbn [map concat length]. rewrite app_length, Nat2Z.inj_add, IHl, IH by assumption. lia.
  - change (has_type (SStruct ts) (VSeq l)) with (fields_typed ts l) in T.
    change (SSZ (SStruct ts) (VSeq l)) with (composite (fields_parts ts l)). cbn [is_variable_size] in V. cbn [fixed_size].
    rewrite composite_fixed by now apply fields_fixed. revert l T. induction ts as [|t ts IHt]; intros l T; destruct l as [|v l]; try contradiction; [reflexivity|].
    inversion IH as [|? ? I0 I1]; subst. destruct T as [T0 T1]. cbn in V. apply orb_false_iff in V. destruct V as [V0 V1].
    cbn [fields_parts map concat snd fold_right]. rewrite app_length, Nat2Z.inj_add, IHt, I0 by assumption. reflexivity.
Qed.
Lemma decode_objects_rt dec t l : Forall (fun v => dec (SSZ t v) = Ret (Ok v)) l -> decode_objects dec (map (SSZ t) l) = Ret (Ok l).
Proof. induction 1 as [|v l H0 H IH]; [reflexivity|]. cbn [map decode_objects]. rewrite H0. cbn [rbind]. rewrite IH. reflexivity. Qed.

(** ** Variable-size sequences *)
Fixpoint offs (o : Z) (bss : list (list Z)) : list Z := match bss with [] => [] | b :: r => o :: offs (o + Z.of_nat (length b)) r end.
Lemma fixed_parts_var t l : forall o, fixed_parts o (map (fun v => (true, SSZ t v)) l) = concat (map (LE 4) (offs o (map (SSZ t) l))).
Proof. induction l as [|v l IH]; intros o; [reflexivity|]. cbn [map fixed_parts offs concat fst]. rewrite IH. reflexivity. Qed.
Lemma var_parts t l : concat (map variable_part (map (fun v => (true, SSZ t v)) l)) = concat (map (SSZ t) l).
Proof. now rewrite map_map. Qed.
Lemma flen_var t l : flen (map (fun v => (true, SSZ t v)) l) = 4 * Z.of_nat (length l).
Proof.
  induction l as [|v l IH]; [reflexivity|]. cbn [map length]. rewrite flen_cons, IH. unfold fixed_length. cbn [fst]. lia.
Qed.
Lemma read_offsets_rt bl bss : forall o prev acc, 0 <= o -> prev <= o -> bl < 2 ^ 32 -> o + Z.of_nat (length (concat bss)) <= bl ->
  read_offsets bl (map (LE 4) (offs o bss)) prev acc = Ok (acc ++ offs o bss).
Proof.
  induction bss as [|b r IH]; intros o prev acc H0 H1 H2 H3; cbn [offs map read_offsets]; [now rewrite app_nil_r|].
  cbn [concat] in H3. rewrite app_length in H3. unfold decode_u32. rewrite LE_length. cbn [Nat.eqb].
  rewrite le_val_LE by (change (256 ^ Z.of_nat 4) with (2 ^ 32); lia).
  destruct (Z.ltb_spec o prev); [lia|]. destruct (Z.ltb_spec bl o); [lia|]. cbn [orb].
  rewrite IH by lia. now rewrite <- app_assoc.
Qed.
Lemma decode_windows_step dec bs a b r : decode_windows dec bs (a :: b :: r) =
  sassert (a <=? b) (d <- slice bs (Z.to_nat a) (Z.to_nat b) ;; v <-? dec d ;; vs <-? decode_windows dec bs (b :: r) ;; Ret (Ok (v :: vs))).
Proof. reflexivity. Qed.
Lemma decode_windows_rt dec t l : Forall (fun v => dec (SSZ t v) = Ret (Ok v)) l -> l <> [] -> forall pre,
  decode_windows dec (pre ++ concat (map (SSZ t) l)) (offs (Z.of_nat (length pre)) (map (SSZ t) l) ++ [Z.of_nat (length (pre ++ concat (map (SSZ t) l)))]) = Ret (Ok l).
Proof.
  induction 1 as [|v l H0 H IH]; intros NE pre; [contradiction|]. cbn [map offs concat app].
  destruct l as [|v' l].
  - cbn [map offs concat app decode_windows]. rewrite app_nil_r, app_length, Nat2Z.inj_add.
    rewrite sassert_ok by (apply Z.leb_le; lia).
    rewrite <- Nat2Z.inj_add, !Nat2Z.id. pose proof (slice_mid pre (SSZ t v) []) as E. rewrite app_nil_r in E. rewrite E. cbn [obind]. rewrite H0.
    cbn [rbind]. reflexivity.
  - specialize (IH ltac:(discriminate) (pre ++ SSZ t v)). cbn [map offs concat app] in *. rewrite <- !app_assoc in IH.
    rewrite (app_length pre (SSZ t v)), Nat2Z.inj_add in IH. rewrite decode_windows_step.
    rewrite sassert_ok by (apply Z.leb_le; lia).
    rewrite <- Nat2Z.inj_add, !Nat2Z.id. rewrite slice_mid. cbn [obind]. rewrite H0. cbn [rbind].
    rewrite <- Nat2Z.inj_add in IH. rewrite IH. reflexivity.
Qed.
Lemma decode_variable_rt dec t l : Forall (fun v => dec (SSZ t v) = Ret (Ok v)) l -> l <> [] ->
  let bs := composite (map (fun v => (true, SSZ t v)) l) in Z.of_nat (length bs) < 2 ^ 32 ->
  decode_variable_size_objects dec bs (Z.of_nat (length l)) (4 * Z.of_nat (length l)) = Ret (Ok l).
Proof.
  intros H NE bs B. unfold decode_variable_size_objects. subst bs. pose proof B as B'. rewrite composite_length, flen_var in B'.
  pose proof (vlen_nonneg (map (fun v => (true, SSZ t v)) l)).
  change BYTES_PER_LENGTH_OFFSET with 4. rewrite sassert_ok by (apply andb_true_iff; split; [apply Z.ltb_lt|apply Z.eqb_eq]; lia).
  cbn zeta. set (bs := composite _) in *.
  destruct (Z.leb_spec (2 ^ 32) (Z.of_nat (length bs))); [lia|].
  destruct (Z.ltb_spec (Z.of_nat (length bs)) (4 * Z.of_nat (length l))); [unfold bs in *; rewrite composite_length, flen_var in *; lia|].
  set (F := 4 * Z.of_nat (length l)) in *.
  set (hd := concat (map (LE 4) (offs F (map (SSZ t) l)))).
  assert (HL : Z.of_nat (length hd) = F).
  { unfold hd. rewrite <- fixed_parts_var, fixed_parts_length. apply flen_var. }
  assert (EB : bs = hd ++ concat (map (SSZ t) l)).
  { unfold bs, composite. change (sum (map fixed_length ?x)) with (flen x). rewrite flen_var, fixed_parts_var, var_parts. reflexivity. }
  replace (slice bs 0 (Z.to_nat F)) with (Ret hd : outcome (list Z)).
  2:{ rewrite EB. pose proof (slice_mid [] hd (concat (map (SSZ t) l))) as E. cbn [app length Nat.add] in E. rewrite <- HL, Nat2Z.id. now symmetry. }
  cbn [obind]. unfold hd. rewrite chunks_concat; [|lia|].
  2:{ apply Forall_forall. intros c Hc. apply in_map_iff in Hc. destruct Hc as (x & <- & _). apply LE_length. }
  cbn [obind]. rewrite read_offsets_rt; [| |lia|lia|].
  - cbn [rbind app]. destruct l as [|v l]; [contradiction|]. cbn [map offs]. rewrite <- HL, EB.
    apply (decode_windows_rt dec t (v :: l)); assumption.
  - unfold F. lia.
  - rewrite EB, app_length. lia.
Qed.

(** ** Containers *)
Definition size_of_part (p : bool * list Z) : option Z := if fst p then None else Some (Z.of_nat (length (snd p))).
Lemma headers_len_spec ps : forall acc, 0 <= acc -> acc + flen ps < 2 ^ 32 -> headers_len_of (map size_of_part ps) acc = Ret (acc + flen ps).
Proof.
  induction ps as [|p ps IH]; intros acc H0 H; [cbn; now rewrite Z.add_0_r|]. rewrite flen_cons in *. pose proof (flen_nonneg ps).
  cbn [map headers_len_of]. unfold size_of_part at 1. unfold fixed_length in *. destruct (fst p).
  - change BYTES_PER_LENGTH_OFFSET with 4. rewrite plus_ok by lia. cbn [obind]. rewrite IH by lia. f_equal. lia.
  - rewrite plus_ok by lia. cbn [obind]. rewrite IH by lia. f_equal. lia.
Qed.
Lemma items_rev_rt ps : let data := composite ps in Z.of_nat (length data) < 2 ^ 32 -> forall qs rs, ps = qs ++ rs -> forall acc,
  items_rev data (rev (map size_of_part qs)) (flen ps + vlen qs) (flen qs) acc = Ret (Ok (acc ++ rev (map snd qs))).
Proof.
  intros data B. pose proof B as B'. unfold data in B'. rewrite composite_length in B'.
  induction qs as [|p qs IH] using rev_ind; intros rs E acc; [cbn; now rewrite app_nil_r|].
  rewrite map_app, rev_app_distr. cbn [map rev app].
  assert (ED : data = fixed_parts (flen ps) qs ++ (if fst p then LE 4 (flen ps + vlen qs) else snd p) ++
     fixed_parts (flen ps + vlen qs + Z.of_nat (length (variable_part p))) rs ++
     concat (map variable_part qs) ++ variable_part p ++ concat (map variable_part rs)).
  { unfold data, composite. change (sum (map fixed_length ps)) with (flen ps). rewrite E at 2 3. rewrite <- app_assoc.
    rewrite fixed_parts_app. cbn [app fixed_parts]. rewrite !map_app, !concat_app. cbn [map concat]. rewrite <- !app_assoc. reflexivity. }
  assert (LQ : Z.of_nat (length (fixed_parts (flen ps) qs)) = flen qs) by apply fixed_parts_length.
  assert (N : flen ps = flen qs + fixed_length p + flen rs) by (rewrite E, !flen_app, flen_cons; change (flen []) with 0; lia).
  assert (N' : vlen ps = vlen qs + Z.of_nat (length (variable_part p)) + vlen rs)
    by (rewrite E, !vlen_app, vlen_cons; change (vlen []) with 0; lia).
  pose proof (vlen_nonneg qs). pose proof (vlen_nonneg rs). pose proof (flen_nonneg qs). pose proof (flen_nonneg rs).
  rewrite map_app, rev_app_distr. cbn [map rev app].
  rewrite !flen_app, !vlen_app, !flen_cons, !vlen_cons. change (flen []) with 0. change (vlen []) with 0. rewrite !Z.add_0_r.
  unfold size_of_part at 1. unfold fixed_length, variable_part in *. cbn [items_rev].
  assert (IH' := IH (p :: rs) ltac:(rewrite E, <- app_assoc; reflexivity)). clear IH.
  destruct (fst p) eqn:V; cbn [items_rev].
  - unfold u32_sub. change BYTES_PER_LENGTH_OFFSET with 4. destruct (Z.leb_spec 4 (flen qs + 4)); [|lia]. cbn [obind].
    replace (flen qs + 4 - 4) with (flen qs) by lia.
    replace (slice data (Z.to_nat (flen qs)) (Z.to_nat (flen qs + 4))) with (Ret (LE 4 (flen ps + vlen qs)) : outcome (list Z)).
    2:{ rewrite ED, <- LQ, Nat2Z.id. replace (Z.to_nat (_ + 4)) with (length (fixed_parts (flen ps) qs) + length (LE 4 (flen ps + vlen qs)))%nat by (rewrite LE_length; lia).
        symmetry. apply slice_mid. }
    cbn [obind]. unfold decode_u32. rewrite LE_length. cbn [Nat.eqb]. rewrite le_val_LE by (change (256 ^ Z.of_nat 4) with (2 ^ 32); lia).
    cbn [rbind]. destruct (Z.ltb_spec (flen ps + (vlen qs + Z.of_nat (length (snd p)))) (flen ps + vlen qs)); [lia|].
    replace (slice data (Z.to_nat (flen ps + vlen qs)) _) with (Ret (snd p) : outcome (list Z)).
    + cbn [obind]. rewrite IH'. now rewrite <- app_assoc.
    + set (pre := fixed_parts (flen ps) qs ++ LE 4 (flen ps + vlen qs) ++ fixed_parts (flen ps + vlen qs + Z.of_nat (length (snd p))) rs ++ concat (map variable_part qs)).
      assert (LP : Z.of_nat (length pre) = flen ps + vlen qs).
      { unfold pre. rewrite !app_length, LE_length, !Nat2Z.inj_add, !fixed_parts_length, concat_vlen. lia. }
      replace data with (pre ++ snd p ++ concat (map variable_part rs)) by (rewrite ED; unfold pre; rewrite <- !app_assoc; reflexivity).
      rewrite <- LP. replace (Z.to_nat (flen ps + _)) with (length pre + length (snd p))%nat by lia. rewrite Nat2Z.id. symmetry. apply slice_mid.
  - destruct (Z.ltb_spec (flen qs + Z.of_nat (length (snd p))) (Z.of_nat (length (snd p)))); [lia|].
    unfold u32_sub. destruct (Z.leb_spec (Z.of_nat (length (snd p))) (flen qs + Z.of_nat (length (snd p)))); [|lia]. cbn [obind].
    replace (flen qs + Z.of_nat (length (snd p)) - Z.of_nat (length (snd p))) with (flen qs) by lia.
    replace (slice data (Z.to_nat (flen qs)) _) with (Ret (snd p) : outcome (list Z)).
    + cbn [obind length]. rewrite Z.add_0_r, IH'. now rewrite <- app_assoc.
    + rewrite ED, <- LQ, Nat2Z.id. replace (Z.to_nat (_ + _)) with (length (fixed_parts (flen ps) qs) + length (snd p))%nat by lia.
      symmetry. apply slice_mid.
Qed.
Lemma items_rt ps : Z.of_nat (length (composite ps)) < 2 ^ 32 ->
  ssz_decode_as_items (composite ps) (map size_of_part ps) = Ret (Ok (map snd ps)).
Proof.
  intros B. pose proof B as B'. rewrite composite_length in B'. pose proof (vlen_nonneg ps). unfold ssz_decode_as_items.
  rewrite headers_len_spec by lia. cbn [obind]. rewrite Z.add_0_l.
  destruct (Z.leb_spec (2 ^ 32) (Z.of_nat (length (composite ps)))); [lia|].
  destruct (Z.ltb_spec (Z.of_nat (length (composite ps))) (flen ps)); [rewrite composite_length in *; lia|].
  rewrite composite_length. rewrite (items_rev_rt ps B ps [] ltac:(now rewrite app_nil_r)). cbn [rbind app]. now rewrite rev_involutive.
Qed.
Definition fields_decode := fix fields (ts : list sty) (items : list (list Z)) : outcome (result SszDataDecodingError (list sval)) :=
                match ts with
                | [] => Ret (Ok [])
                | t :: ts' =>
                    match items with
                    | [] => Panic
                    | d :: items' => v <-? try_from_bytes t d ;; vs <-? fields ts' items' ;; Ret (Ok (v :: vs))
                    end
                end.
Lemma sizes_of_spec ts : Forall legal ts -> sizes_of ts = Ret (map (fun t => if is_variable_size t then None else Some (fixed_size t)) ts).
Proof.
  induction 1 as [|t ts H0 H IH]; [reflexivity|]. cbn [sizes_of]. rewrite size_spec by assumption. cbn [obind]. rewrite IH. reflexivity.
Qed.
Lemma struct_unfold ts bs : try_from_bytes (SStruct ts) bs =
  (sizes <- sizes_of ts ;; items <-? ssz_decode_as_items bs sizes ;; vs <-? fields_decode ts items ;; Ret (Ok (VSeq vs))).
Proof. reflexivity. Qed.
Definition fields_full := fix fields (ts : list sty) (l : list sval) : Prop :=
         match ts, l with t :: ts', v :: l' => no_empty_var_list t v /\ fields ts' l' | _, _ => True end.

Lemma decode_rt t : forall v, legal t -> has_type t v -> no_empty_var_list t v -> Z.of_nat (length (SSZ t v)) < 2 ^ 32 ->
  try_from_bytes t (SSZ t v) = Ret (Ok v).
Proof.
  induction t as [w| |t n IH|t IH|ts IH] using sty_ind'; intros v L T F B; destruct v as [k|b|l]; try contradiction.
  - cbn [SSZ try_from_bytes]. rewrite LE_length, Nat.eqb_refl. cbn [has_type] in T. rewrite le_val_LE; [reflexivity|]. now rewrite Z.pow_mul_r in T by lia.
  - destruct b; reflexivity.
  - cbn [has_type] in T. destruct T as [Hn T]. destruct L as (L & Hn0 & LB). cbn [no_empty_var_list] in F. cbn [SSZ] in *.
    assert (D : Forall (fun v => try_from_bytes t (SSZ t v) = Ret (Ok v)) l).
    { apply Forall_forall. intros x Hx. rewrite Forall_forall in T, F. apply IH; auto.
      pose proof (part_le (is_variable_size t, SSZ t x) (map (fun v => (is_variable_size t, SSZ t v)) l)) as P. rewrite composite_length in B.
      cbn [snd] in P. specialize (P ltac:(apply in_map_iff; eauto)). lia. }
    cbn [try_from_bytes]. rewrite size_spec by assumption. cbn [obind]. destruct (is_variable_size t) eqn:V.
    + rewrite u32_ok by lia. cbn [obind]. change BYTES_PER_LENGTH_OFFSET with 4. rewrite u32_ok by lia. cbn [obind].
      rewrite <- Hn, Z.mul_comm. rewrite decode_variable_rt; [|assumption| |assumption].
      * cbn [rbind]. now rewrite Nat.eqb_refl.
      * intros ->. cbn in Hn. lia.
    + pose proof (fixed_size_pos t L V). cbn [fixed_size] in LB.
      rewrite u32_ok by nia. cbn [obind]. rewrite u32_ok by nia. cbn [obind].
      pose proof (composite_fixed_map t l V) as CF. rewrite V in CF. rewrite CF.
      assert (U : Forall (fun c => length c = Z.to_nat (fixed_size t)) (map (SSZ t) l)).
      { apply Forall_forall. intros c Hc. apply in_map_iff in Hc. destruct Hc as (x & <- & Hx). rewrite Forall_forall in T.
        pose proof (SSZ_fixed_length t x (T x Hx) V). lia. }
      replace (negb _) with false.
      2:{ symmetry. apply negb_false_iff, Z.eqb_eq. rewrite <- Hn. clear - T V. induction T as [|v l T0 T1 IHl]; [cbn; lia|].
          cbn [map concat length]. rewrite app_length, Nat2Z.inj_add, IHl, SSZ_fixed_length by assumption. lia. }
      rewrite chunks_concat; [|lia|exact U]. cbn [obind]. rewrite decode_objects_rt by assumption. cbn [rbind].
      rewrite (proj2 (Nat.eqb_eq _ _) Hn). reflexivity.
  - cbn [has_type] in T. cbn [legal] in L. cbn [no_empty_var_list] in F. destruct F as [NE F]. cbn [SSZ] in *.
    assert (D : Forall (fun v => try_from_bytes t (SSZ t v) = Ret (Ok v)) l).
    { apply Forall_forall. intros x Hx. rewrite Forall_forall in T, F. apply IH; auto.
      pose proof (part_le (is_variable_size t, SSZ t x) (map (fun v => (is_variable_size t, SSZ t v)) l)) as P. rewrite composite_length in B.
      cbn [snd] in P. specialize (P ltac:(apply in_map_iff; eauto)). lia. }
    cbn [try_from_bytes]. rewrite size_spec by assumption. cbn [obind]. destruct (is_variable_size t) eqn:V.
    + specialize (NE eq_refl). destruct l as [|v l]; [contradiction|].
      set (bs := composite _) in *. pose proof (composite_length (map (fun v => (true, SSZ t v)) (v :: l))) as CL. fold bs in CL. rewrite flen_var in CL.
      pose proof (vlen_nonneg (map (fun v => (true, SSZ t v)) (v :: l))).
      assert (S4 : slice bs 0 4 = Ret (LE 4 (4 * Z.of_nat (length (v :: l))))).
      { unfold bs, composite. change (sum (map fixed_length ?x)) with (flen x). rewrite flen_var. cbn [map fixed_parts fst].
        rewrite <- app_assoc. set (o := 4 * _). apply (slice_mid [] (LE 4 o)). }
      rewrite S4. cbn [obind]. unfold decode_u32. rewrite LE_length. cbn [Nat.eqb].
      rewrite le_val_LE by (change (256 ^ Z.of_nat 4) with (2 ^ 32); cbn [length] in *; lia). cbn [rbind].
      change BYTES_PER_LENGTH_OFFSET with 4. destruct (Z.ltb_spec (4 * Z.of_nat (length (v :: l))) 4); [cbn [length] in *; lia|].
      rewrite Z.mul_comm, Z_mod_mult. cbn [Z.eqb negb orb]. rewrite Z.div_mul by lia. rewrite (Z.mul_comm _ 4).
      unfold bs. rewrite decode_variable_rt by (assumption || discriminate). reflexivity.
    + pose proof (fixed_size_pos t L V).
      destruct (Z.eqb_spec (fixed_size t) 0); [lia|]. cbn [negb oassert].
      pose proof (composite_fixed_map t l V) as CF. rewrite V in CF. rewrite CF.
      assert (U : Forall (fun c => length c = Z.to_nat (fixed_size t)) (map (SSZ t) l)).
      { apply Forall_forall. intros c Hc. apply in_map_iff in Hc. destruct Hc as (x & <- & Hx). rewrite Forall_forall in T.
        pose proof (SSZ_fixed_length t x (T x Hx) V). lia. }
      replace (Z.of_nat (length (concat (map (SSZ t) l)))) with (Z.of_nat (length l) * fixed_size t).
      2:{ clear - T V. induction T as [|v l T0 T1 IHl]; [cbn; lia|].
          cbn [map concat length]. rewrite app_length, Nat2Z.inj_add, <- IHl, SSZ_fixed_length by assumption. lia. }
      rewrite Z_mod_mult. cbn [Z.eqb negb].
      rewrite chunks_concat; [|lia|exact U]. cbn [obind]. rewrite decode_objects_rt by assumption. reflexivity.
  - destruct L as (_ & _ & L). apply legal_all in L. change (has_type (SStruct ts) (VSeq l)) with (fields_typed ts l) in T.
    change (SSZ (SStruct ts) (VSeq l)) with (composite (fields_parts ts l)) in *. change (fields_full ts l) in F.
    rewrite struct_unfold, sizes_of_spec by assumption. cbn [obind].
    replace (map _ ts) with (map size_of_part (fields_parts ts l)).
    2:{ clear - T. revert l T. induction ts as [|t ts IH]; intros l T; destruct l as [|v l]; try contradiction; [reflexivity|]. destruct T as [T0 T1].
        cbn [fields_parts map]. rewrite IH by assumption. f_equal. unfold size_of_part. cbn [fst snd]. destruct (is_variable_size t) eqn:V; [reflexivity|].
        now rewrite SSZ_fixed_length. }
    rewrite items_rt by assumption. cbn [rbind].
    assert (G : fields_decode ts (map snd (fields_parts ts l)) = Ret (Ok l)).
    { assert (SM : Forall (fun p => Z.of_nat (length (snd p)) < 2 ^ 32) (fields_parts ts l)).
      { apply Forall_forall. intros p Hp. pose proof (part_le p _ Hp). rewrite composite_length in B. lia. }
      clear B. revert l T F SM. induction ts as [|t ts IHt]; intros l T F SM; destruct l as [|v l]; try contradiction; [reflexivity|].
      inversion IH as [|? ? I0 I1]; subst. inversion L as [|? ? L0 L1]; subst. destruct T as [T0 T1]. destruct F as [F0 F1].
      cbn [fields_parts] in *. inversion SM as [|? ? S0 S1]; subst. cbn [snd] in S0.
      cbn [map fields_decode snd]. rewrite I0 by assumption. cbn [rbind]. rewrite (IHt I1 L1) by assumption. reflexivity. }
    rewrite G. reflexivity.
Qed.

Lemma encode_ok t v : legal t -> has_type t v -> Z.of_nat (length (SSZ t v)) < 2 ^ 32 -> ssz_encode t v = Ret (SSZ t v).
Proof.
  intros L T B. unfold ssz_encode, ssz_encode_to. rewrite sassert_ok by reflexivity. rewrite to_bytes_spec by assumption. cbn [obind].
  change ssz_new with (enc_state []). change (encode_fixed_size_data (SSZ t v)) with (encode_part false (SSZ t v)).
  assert (E : composite ([] ++ [(false, SSZ t v)]) = SSZ t v).
  { unfold composite. cbn [app map fixed_parts concat fst snd variable_part]. now rewrite !app_nil_r. }
  rewrite encode_part_spec by now rewrite E. cbn [obind]. rewrite take_spec by now rewrite E. cbn [obind]. now rewrite E.
Qed.
Lemma ssz_roundtrip t v : legal t -> has_type t v -> no_empty_var_list t v -> Z.of_nat (length (SSZ t v)) < 2 ^ 32 ->
  ssz_encode t v = Ret (SSZ t v) /\ ssz_decode t (SSZ t v) = Ret (Ok v).
Proof. intros. split; [now apply encode_ok|]. now apply decode_rt. Qed.
End Ssz.

(** Proofs about SSZ: exactly what the decoder reads, and exactly what makes it panic. *)

From Verif Require Import Base M_Ssz S_Ssz S_SszRead P_Ssz P_Ssz2 P_Ssz3.
Open Scope Z_scope.

Section Ssz.
Context {bld : build}.

(** ** The slots, computed *)
Fixpoint slots (ts : list sty) (bs : list Z) : list slot :=
  match ts with
  | [] => []
  | t :: ts' =>
      if is_variable_size t then Offset (le_val (firstn 4 bs)) :: slots ts' (skipn 4 bs)
      else Inline (firstn (Z.to_nat (fixed_size t)) bs) :: slots ts' (skipn (Z.to_nat (fixed_size t)) bs)
  end.
Definition hl (ts : list sty) : Z := header_sum (map field_size ts).
Lemma hl_cons t ts : hl (t :: ts) = part_size t + hl ts.
Proof. unfold hl. cbn [map header_sum]. unfold field_size at 1, part_size. destruct (is_variable_size t); reflexivity. Qed.
Lemma part_size_nonneg t : 0 <= part_size t.
Proof. unfold part_size. pose proof (fixed_size_nonneg t). destruct (is_variable_size t); lia. Qed.
Lemma hl_nonneg ts : 0 <= hl ts.
Proof. induction ts as [|t ts IH]; [cbn; lia|]. rewrite hl_cons. pose proof (part_size_nonneg t). lia. Qed.
Lemma hl_app a b : hl (a ++ b) = hl a + hl b.
Proof. induction a as [|t a IH]; [reflexivity|]. cbn [app]. rewrite !hl_cons, IH. lia. Qed.
Lemma hl_repeat t n : hl (repeat t n) = Z.of_nat n * part_size t.
Proof. induction n as [|n IH]; [reflexivity|]. cbn [repeat]. rewrite hl_cons, IH. lia. Qed.
Lemma bytes_firstn n l : bytes l -> bytes (firstn n l).
Proof. unfold bytes. rewrite !Forall_forall. intros H x Hx. apply H. eapply in_firstn; eauto. Qed.
Lemma bytes_skipn n l : bytes l -> bytes (skipn n l).
Proof. unfold bytes. rewrite !Forall_forall. intros H x Hx. apply H. eapply in_skipn; eauto. Qed.
Lemma slot_bytes_length t s : slot_for t s -> Z.of_nat (length (slot_bytes s)) = part_size t.
Proof. destruct s as [d|o]; intros [V H]; unfold part_size; rewrite V; cbn [slot_bytes]; [exact H|]. now rewrite LE_length. Qed.
Lemma slots_length ts ss : Forall2 slot_for ts ss -> Z.of_nat (length (concat (map slot_bytes ss))) = hl ts.
Proof.
  induction 1 as [|t s ts ss H0 H IH]; [reflexivity|]. cbn [map concat]. rewrite app_length, Nat2Z.inj_add, IH, hl_cons. now rewrite (slot_bytes_length t s).
Qed.
Lemma slots_unique ts ss rest : Forall2 slot_for ts ss -> slots ts (concat (map slot_bytes ss) ++ rest) = ss.
Proof.
  induction 1 as [|t s ts ss H0 H IH]; [reflexivity|]. cbn [slots map concat]. rewrite <- app_assoc. pose proof (slot_bytes_length t s H0) as L.
  unfold part_size in L. destruct s as [d|o]; destruct H0 as [V R]; rewrite V in *; cbn [slot_bytes] in *.
  - replace (Z.to_nat (fixed_size t)) with (length d + 0)%nat by lia. rewrite firstn_app_2, firstn_O, app_nil_r, Nat.add_0_r.
    rewrite skipn_app, skipn_all, Nat.sub_diag. cbn [skipn app]. now rewrite IH.
  - pose proof (LE_length 4 o) as L4. set (d := LE 4 o) in *. replace 4%nat with (length d + 0)%nat by lia.
    rewrite firstn_app_2, firstn_O, app_nil_r, Nat.add_0_r, skipn_app, skipn_all, Nat.sub_diag. cbn [skipn app]. rewrite IH.
    unfold d. rewrite le_val_LE; [reflexivity|]. change (256 ^ Z.of_nat 4) with (2 ^ 32). exact R.
Qed.
Lemma slots_fit ts : forall bs, bytes bs -> hl ts <= Z.of_nat (length bs) ->
  Forall2 slot_for ts (slots ts bs) /\ exists rest, bs = concat (map slot_bytes (slots ts bs)) ++ rest.
Proof.
  induction ts as [|t ts IH]; intros bs B H; [split; [constructor|]; now exists bs|].
  rewrite hl_cons in H. pose proof (hl_nonneg ts). unfold part_size in H. cbn [slots].
  pose proof (fixed_size_nonneg t).
  destruct (is_variable_size t) eqn:V.
  - destruct (IH (skipn 4 bs) (bytes_skipn _ _ B) ltac:(rewrite skipn_length; lia)) as (F & rest & E).
    assert (L4 : length (firstn 4 bs) = 4%nat) by (rewrite firstn_length; lia).
    pose proof (le_val_bound (firstn 4 bs) (bytes_firstn _ _ B)) as R. rewrite L4 in R. change (256 ^ Z.of_nat 4) with (2 ^ 32) in R.
    split; [constructor; [split; assumption|exact F]|]. exists rest. cbn [map concat slot_bytes].
    pose proof (LE_le_val (firstn 4 bs) (bytes_firstn _ _ B)) as LE4. rewrite L4 in LE4. rewrite LE4, <- app_assoc, <- E. symmetry. apply firstn_skipn.
  - destruct (IH (skipn (Z.to_nat (fixed_size t)) bs) (bytes_skipn _ _ B) ltac:(rewrite skipn_length; lia)) as (F & rest & E).
    split; [constructor; [split; [assumption|rewrite firstn_length; lia]|exact F]|]. exists rest. cbn [map concat slot_bytes].
    rewrite <- app_assoc, <- E. symmetry. apply firstn_skipn.
Qed.
Lemma opens_iff ts bs ss : bytes bs ->
  (opens ts bs ss <-> ss = slots ts bs /\ hl ts <= Z.of_nat (length bs) /\ ascending (slots ts bs) (Z.of_nat (length bs)) = true).
Proof.
  intros B. split.
  - intros (F & (rest & E) & A). pose proof (slots_unique ts ss rest F) as U. rewrite <- E in U.
    split; [now symmetry|]. split; [|now rewrite U]. rewrite <- (slots_length ts ss F), E, app_length. lia.
  - intros (-> & H & A). destruct (slots_fit ts bs B H) as (F & R). now split.
Qed.
Lemma skip_skip n m : forall (l : list Z), skipn n (skipn m l) = skipn (n + m) l.
Proof.
  induction m as [|m IH]; intros l; [now rewrite Nat.add_0_r|]. rewrite Nat.add_succ_r. destruct l; [now rewrite !skipn_nil|]. apply IH.
Qed.
Lemma slots_app a : forall b bs, slots (a ++ b) bs = slots a bs ++ slots b (skipn (Z.to_nat (hl a)) bs).
Proof.
  induction a as [|t a IH]; intros b bs; [reflexivity|]. cbn [app slots]. rewrite hl_cons. pose proof (hl_nonneg a). unfold part_size.
  pose proof (fixed_size_nonneg t).
  destruct (is_variable_size t); rewrite IH; cbn [app]; f_equal; f_equal; f_equal; rewrite skip_skip; f_equal; lia.
Qed.
(** the element bytes *)
Fixpoint elements_to (bs : list Z) (ss : list slot) (stop : Z) : list (list Z) :=
  match ss with
  | [] => []
  | Inline d :: ss' => d :: elements_to bs ss' stop
  | Offset o :: ss' => cut bs o (next_offset ss' stop) :: elements_to bs ss' stop
  end.
Lemma elements_to_spec bs ss : elements bs ss = elements_to bs ss (Z.of_nat (length bs)).
Proof. induction ss as [|s ss IH]; [reflexivity|]. destruct s; cbn [elements elements_to]; now rewrite IH. Qed.
Lemma elements_length bs ss : length (elements bs ss) = length ss.
Proof. induction ss as [|s ss IH]; [reflexivity|]. destruct s; cbn [elements length]; now rewrite IH. Qed.
Lemma elements_bytes bs ts : forall bs', bytes bs -> bytes bs' -> Forall bytes (elements bs (slots ts bs')).
Proof.
  induction ts as [|t ts IH]; intros bs' B B'; [constructor|]. cbn [slots]. destruct (is_variable_size t); cbn [elements]; constructor.
  - apply bytes_firstn, bytes_skipn, B.
  - apply IH; [assumption|now apply bytes_skipn].
  - now apply bytes_firstn.
  - apply IH; [assumption|now apply bytes_skipn].
Qed.

(** ** Containers *)
Lemma next_offset_snoc ss s stop : next_offset (ss ++ [s]) stop = next_offset ss (next_offset [s] stop).
Proof. induction ss as [|x ss IH]; [reflexivity|]. destruct x; [exact IH|reflexivity]. Qed.
Lemma ascending_snoc ss s stop : ascending (ss ++ [s]) stop = (ascending ss (next_offset [s] stop) && ascending [s] stop)%bool.
Proof.
  induction ss as [|x ss IH]; [reflexivity|]. destruct x; cbn [app ascending]; [exact IH|]. rewrite IH, next_offset_snoc. apply andb_assoc.
Qed.
Lemma elements_to_snoc bs ss s stop : elements_to bs (ss ++ [s]) stop = elements_to bs ss (next_offset [s] stop) ++ elements_to bs [s] stop.
Proof.
  induction ss as [|x ss IH]; [reflexivity|]. destruct x; cbn [app elements_to]; rewrite IH; [reflexivity|]. now rewrite next_offset_snoc.
Qed.
Lemma slice_cut bs a b : 0 <= a <= b -> b <= Z.of_nat (length bs) -> slice bs (Z.to_nat a) (Z.to_nat b) = Ret (cut bs a b).
Proof. intros H0 H1. rewrite slice_ok by lia. unfold cut. repeat f_equal. lia. Qed.
Definition err {A} : outcome (result SszDataDecodingError A) := Ret (Err SszInvalidFormat).
Lemma items_rev_open data ts : bytes data -> Z.of_nat (length data) < 2 ^ 32 -> hl ts <= Z.of_nat (length data) -> forall prev acc,
  prev <= Z.of_nat (length data) ->
  items_rev data (rev (map field_size ts)) prev (hl ts) acc =
  if ascending (slots ts data) prev then Ret (Ok (acc ++ rev (elements_to data (slots ts data) prev))) else err.
Proof.
  intros B SM. induction ts as [|t ts IH] using rev_ind; intros H prev acc HP; [cbn; now rewrite app_nil_r|].
  rewrite hl_app, hl_cons in *. change (hl []) with 0 in *. pose proof (hl_nonneg ts). pose proof (part_size_nonneg t).
  assert (H' : hl ts <= Z.of_nat (length data)) by lia. specialize (IH H').
  rewrite map_app, rev_app_distr. cbn [map rev app]. rewrite slots_app. set (d := skipn _ data) in *.
  assert (LD : Z.of_nat (length d) = Z.of_nat (length data) - hl ts) by (unfold d; rewrite skipn_length; lia).
  replace (hl ts + (part_size t + 0)) with (hl ts + part_size t) in * by lia.
  unfold field_size at 1. unfold part_size in *. cbn [slots]. destruct (is_variable_size t) eqn:V; cbn [items_rev].
  - unfold u32_sub. change BYTES_PER_LENGTH_OFFSET with 4. destruct (Z.leb_spec 4 (hl ts + 4)); [|lia]. cbn [obind].
    replace (hl ts + 4 - 4) with (hl ts) by lia. rewrite slice_cut by lia. cbn [obind].
    replace (cut data (hl ts) (hl ts + 4)) with (firstn 4 d) by (unfold cut, d; f_equal; lia).
    assert (L4 : length (firstn 4 d) = 4%nat) by (rewrite firstn_length; lia).
    assert (BD : bytes d) by (apply bytes_skipn, B).
    pose proof (le_val_bound (firstn 4 d) (bytes_firstn _ _ BD)) as R.
    unfold decode_u32. rewrite (proj2 (Nat.eqb_eq _ _) L4). cbn [rbind]. set (o := le_val _) in *.
    rewrite ascending_snoc, elements_to_snoc. cbn [next_offset ascending elements_to]. rewrite andb_true_r.
    destruct (Z.ltb_spec prev o) as [G|G]; [destruct (Z.leb_spec o prev); [lia|]; now rewrite andb_false_r|].
    destruct (Z.leb_spec o prev); [|lia]. rewrite andb_true_r.
    rewrite slice_cut by lia. cbn [obind]. rewrite IH by lia. destruct (ascending (slots ts data) o); [|reflexivity].
    rewrite rev_app_distr, <- app_assoc. reflexivity.
  - pose proof (fixed_size_nonneg t). destruct (Z.ltb_spec (hl ts + fixed_size t) (fixed_size t)); [lia|].
    unfold u32_sub. destruct (Z.leb_spec (fixed_size t) (hl ts + fixed_size t)); [|lia]. cbn [obind].
    replace (hl ts + fixed_size t - fixed_size t) with (hl ts) by lia. rewrite slice_cut by lia. cbn [obind].
    replace (cut data (hl ts) (hl ts + fixed_size t)) with (firstn (Z.to_nat (fixed_size t)) d) by (unfold cut, d; f_equal; lia).
    rewrite ascending_snoc, elements_to_snoc. cbn [next_offset ascending elements_to]. rewrite andb_true_r.
    rewrite IH by lia. destruct (ascending (slots ts data) prev); [|reflexivity]. rewrite rev_app_distr, <- app_assoc. reflexivity.
Qed.
Definition openb (ts : list sty) (bs : list Z) : bool :=
  ((hl ts <=? Z.of_nat (length bs)) && ascending (slots ts bs) (Z.of_nat (length bs)))%bool.
Lemma openb_spec ts bs ss : bytes bs -> (opens ts bs ss <-> ss = slots ts bs /\ openb ts bs = true).
Proof. intros B. rewrite opens_iff by assumption. unfold openb. rewrite andb_true_iff, Z.leb_le. tauto. Qed.
Definition smallb (bs : list Z) : bool := Z.of_nat (length bs) <? 2 ^ 32.
Lemma smallb_spec bs : smallb bs = true <-> small bs.
Proof. apply Z.ltb_lt. Qed.
Lemma items_open data ts : bytes data -> Forall legal ts -> hl ts < 2 ^ 32 ->
  ssz_decode_as_items data (map field_size ts) = if smallb data && openb ts data then Ret (Ok (elements data (slots ts data))) else err.
Proof.
  intros B L H. unfold ssz_decode_as_items. pose proof (headers_len_ok (map field_size ts) (fields_pos ts L) 0) as HL.
  rewrite (proj1 (HL ltac:(lia) ltac:(exact H))). cbn [obind]. rewrite Z.add_0_l. fold (hl ts). unfold smallb, openb.
  destruct (Z.leb_spec (2 ^ 32) (Z.of_nat (length data))); destruct (Z.ltb_spec (Z.of_nat (length data)) (2 ^ 32)); try lia; [reflexivity|].
  destruct (Z.ltb_spec (Z.of_nat (length data)) (hl ts)); destruct (Z.leb_spec (hl ts) (Z.of_nat (length data))); try lia; [reflexivity|].
  rewrite items_rev_open by (assumption || lia). cbn [andb]. rewrite elements_to_spec. destruct (ascending _ _); [|reflexivity].
  cbn [rbind app]. now rewrite rev_involutive.
Qed.

(** ** Sequences *)
Fixpoint pieces (n k : nat) (bs : list Z) : list (list Z) :=
  match n with O => [] | S n' => firstn k bs :: pieces n' k (skipn k bs) end.
Lemma pieces_concat k n : forall bs, concat (pieces n k bs) = firstn (n * k) bs.
Proof.
  induction n as [|n IH]; intros bs; [reflexivity|]. cbn [pieces concat Nat.mul]. rewrite IH.
  destruct (Nat.le_gt_cases (length bs) k).
  - rewrite (firstn_all2 bs) by lia. rewrite (firstn_all2 (n := k + n * k)) by lia. rewrite skipn_all2 by lia. now rewrite firstn_nil, app_nil_r.
  - rewrite <- (firstn_skipn k bs) at 3. rewrite firstn_app, firstn_length, Nat.min_l by lia.
    rewrite (firstn_all2 (firstn k bs)) by (rewrite firstn_length; lia). do 2 f_equal. lia.
Qed.
Lemma pieces_uniform k n : forall bs, (n * k <= length bs)%nat -> Forall (fun c => length c = k) (pieces n k bs).
Proof.
  induction n as [|n IH]; intros bs H; [constructor|]. cbn [pieces]. cbn [Nat.mul] in H. constructor; [rewrite firstn_length; lia|].
  apply IH. rewrite skipn_length. lia.
Qed.
Lemma slots_repeat_var t n : is_variable_size t = true -> forall bs, slots (repeat t n) bs = map (fun c => Offset (le_val c)) (pieces n 4 bs).
Proof. intros V. induction n as [|n IH]; intros bs; [reflexivity|]. cbn [repeat slots pieces map]. now rewrite V, IH. Qed.
Lemma slots_repeat_fixed t n : is_variable_size t = false -> forall bs, slots (repeat t n) bs = map Inline (pieces n (Z.to_nat (fixed_size t)) bs).
Proof. intros V. induction n as [|n IH]; intros bs; [reflexivity|]. cbn [repeat slots pieces map]. now rewrite V, IH. Qed.
Lemma ascending_inline cs stop : ascending (map Inline cs) stop = true.
Proof. induction cs; [reflexivity|assumption]. Qed.
Lemma next_inline cs stop : next_offset (map Inline cs) stop = stop.
Proof. induction cs; [reflexivity|assumption]. Qed.
Lemma elements_inline bs cs : elements bs (map Inline cs) = cs.
Proof. induction cs; [reflexivity|]. cbn [map elements]. now rewrite IHcs. Qed.
Lemma concat_inline cs : concat (map slot_bytes (map Inline cs)) = concat cs.
Proof. rewrite map_map. now rewrite map_id. Qed.
Lemma read_offsets_open bl cs : Forall (fun c => length c = 4%nat) cs -> forall prev acc,
  read_offsets bl cs prev acc =
  if ((prev <=? next_offset (map (fun c => Offset (le_val c)) cs) prev) && ascending (map (fun c => Offset (le_val c)) cs) bl)%bool
  then Ok (acc ++ map le_val cs) else Err SszInvalidFormat.
Proof.
  induction 1 as [|c cs H0 H IH]; intros prev acc; [cbn; now rewrite Z.leb_refl, app_nil_r|].
  cbn [read_offsets map next_offset ascending]. unfold decode_u32. rewrite (proj2 (Nat.eqb_eq _ _) H0). set (o := le_val c).
  rewrite IH. clear IH.
  destruct (Z.ltb_spec o prev); destruct (Z.leb_spec prev o); try lia; [reflexivity|]. cbn [andb orb].
  destruct cs as [|c' cs].
  - cbn [map next_offset ascending]. rewrite andb_true_r, Z.leb_refl. destruct (Z.ltb_spec bl o); destruct (Z.leb_spec o bl); try lia; cbn [andb]; rewrite ?app_nil_r; reflexivity.
  - cbn [map next_offset ascending]. set (o' := le_val c'). set (A := (_ && _)%bool).
    destruct (Z.leb_spec o o') as [LO|LO]; cbn [andb].
    + destruct (Z.ltb_spec bl o) as [G|G].
      * assert (A = false) as ->; [|reflexivity]. unfold A, o' in *. clear - G LO. revert c' LO. induction cs as [|x cs IH]; intros c' LO.
        { cbn [map next_offset ascending]. destruct (Z.leb_spec (le_val c') bl); [lia|reflexivity]. }
        cbn [map next_offset ascending]. destruct (Z.leb_spec (le_val c') (le_val x)); [|reflexivity]. cbn [andb]. apply IH. lia.
      * destruct A; [|reflexivity]. now rewrite <- app_assoc.
    + destruct (bl <? o); reflexivity.
Qed.
Lemma windows_open dec bs cs : let ss := map (fun c => Offset (le_val c)) cs in Forall (fun c => 0 <= le_val c) cs -> cs <> [] ->
  ascending ss (Z.of_nat (length bs)) = true ->
  decode_windows dec bs (map le_val cs ++ [Z.of_nat (length bs)]) = decode_objects dec (elements bs ss).
Proof.
  cbn zeta. induction 1 as [|c cs H0 H IH]; intros NE A; [contradiction|]. clear NE.
  assert (BD : forall c0 cs0, ascending (map (fun c => Offset (le_val c)) (c0 :: cs0)) (Z.of_nat (length bs)) = true -> le_val c0 <= Z.of_nat (length bs)).
  { intros c0 cs0. revert c0. induction cs0 as [|x cs0 IH0]; intros c0 H1; cbn [map next_offset ascending] in *; apply andb_true_iff in H1; destruct H1 as [H1 H2]; apply Z.leb_le in H1; [lia|].
    specialize (IH0 x H2). lia. }
  destruct cs as [|c' cs].
  - cbn [map app elements next_offset decode_objects ascending] in *. rewrite andb_true_r in A. rewrite decode_windows_step, sassert_ok by exact A.
    apply Z.leb_le in A. rewrite slice_cut by lia. reflexivity.
  - specialize (IH ltac:(discriminate)). cbn [map ascending next_offset] in A. apply andb_true_iff in A. destruct A as [A0 A1].
    specialize (IH A1). specialize (BD c' cs A1). cbn [map app elements next_offset decode_objects] in *. rewrite decode_windows_step, sassert_ok by exact A0.
    apply Z.leb_le in A0. rewrite slice_cut by lia. cbn [obind]. rewrite IH. reflexivity.
Qed.
Lemma pieces_bytes k n : forall bs, bytes bs -> Forall bytes (pieces n k bs).
Proof. induction n as [|n IH]; intros bs B; [constructor|]. cbn [pieces]. constructor; [now apply bytes_firstn|]. apply IH. now apply bytes_skipn. Qed.
Lemma variable_open dec t bs n : is_variable_size t = true -> bytes bs -> (0 < n)%nat -> Z.of_nat n * 4 < 2 ^ 32 ->
  decode_variable_size_objects dec bs (Z.of_nat n) (Z.of_nat n * 4) =
  if smallb bs && openb (repeat t n) bs then decode_objects dec (elements bs (slots (repeat t n) bs)) else err.
Proof.
  intros V B N H. unfold decode_variable_size_objects. change BYTES_PER_LENGTH_OFFSET with 4. rewrite sassert_ok by (apply andb_true_iff; split; [apply Z.ltb_lt|apply Z.eqb_eq]; lia).
  unfold smallb, openb. rewrite hl_repeat. unfold part_size. rewrite V. cbn zeta.
  destruct (Z.leb_spec (2 ^ 32) (Z.of_nat (length bs))); destruct (Z.ltb_spec (Z.of_nat (length bs)) (2 ^ 32)); try lia; [reflexivity|].
  destruct (Z.ltb_spec (Z.of_nat (length bs)) (Z.of_nat n * 4)); destruct (Z.leb_spec (Z.of_nat n * 4) (Z.of_nat (length bs))); try lia; [reflexivity|].
  rewrite slice_ok by lia. cbn [obind skipn]. replace (Z.to_nat (Z.of_nat n * 4) - 0)%nat with (n * 4)%nat by lia.
  rewrite <- pieces_concat. pose proof (pieces_uniform 4 n bs ltac:(lia)) as U. rewrite chunks_concat by (lia || assumption). cbn [obind].
  rewrite read_offsets_open by assumption. rewrite (slots_repeat_var t n V). cbn [andb].
  pose proof (pieces_bytes 4 n bs B) as PB. assert (NE : pieces n 4 bs <> []) by (destruct n; [lia|discriminate]).
  set (cs := pieces n 4 bs) in *. assert (P0 : Forall (fun c => 0 <= le_val c) cs).
  { eapply Forall_impl; [|exact PB]. intros c Hc. now apply le_val_bound. }
  replace (0 <=? next_offset (map (fun c => Offset (le_val c)) cs) 0) with true.
  2:{ symmetry. apply Z.leb_le. destruct cs as [|c cs']; [cbn; lia|]. inversion P0; subst. assumption. }
  cbn [andb]. destruct (ascending _ _) eqn:A; [|reflexivity]. cbn [rbind app].
  replace (match map le_val cs with [] => [] | _ => map le_val cs ++ [Z.of_nat (length bs)] end) with (map le_val cs ++ [Z.of_nat (length bs)])
    by (destruct cs; [contradiction|reflexivity]).
  apply windows_open; assumption.
Qed.
Lemma fixed_open t bs n : is_variable_size t = false -> 0 < fixed_size t -> Z.of_nat (length bs) = Z.of_nat n * fixed_size t ->
  chunks_exact (Z.to_nat (fixed_size t)) bs = Ret (elements bs (slots (repeat t n) bs)).
Proof.
  intros V P H. rewrite slots_repeat_fixed, elements_inline by assumption.
  assert (L : length bs = (n * Z.to_nat (fixed_size t))%nat) by (apply Nat2Z.inj; rewrite Nat2Z.inj_mul; lia).
  pose proof (pieces_uniform (Z.to_nat (fixed_size t)) n bs ltac:(lia)) as U. pose proof (pieces_concat (Z.to_nat (fixed_size t)) n bs) as C.
  rewrite <- L, firstn_all in C. rewrite <- C at 1. apply chunks_concat; [lia|exact U].
Qed.
Lemma fixed_openb t bs n : is_variable_size t = false -> openb (repeat t n) bs = (Z.of_nat n * fixed_size t <=? Z.of_nat (length bs)).
Proof.
  intros V. unfold openb. rewrite hl_repeat. unfold part_size. rewrite V, slots_repeat_fixed, ascending_inline by assumption. apply andb_true_r.
Qed.
Lemma fixed_snug t bs n : is_variable_size t = false -> Z.of_nat n * fixed_size t <= Z.of_nat (length bs) ->
  (snug bs (slots (repeat t n) bs) <-> Z.of_nat (length bs) = Z.of_nat n * fixed_size t).
Proof.
  intros V H. unfold snug. rewrite slots_repeat_fixed, next_inline, concat_inline, pieces_concat by assumption. pose proof (fixed_size_nonneg t).
  rewrite firstn_length, Nat.min_l by nia. rewrite Nat2Z.inj_mul, Z2Nat.id by lia. reflexivity.
Qed.

(** ** Elements one after another *)
Lemma objects_ok dec cs : forall l, decode_objects dec cs = Ret (Ok l) <-> Forall2 (fun c v => dec c = Ret (Ok v)) cs l.
Proof.
  induction cs as [|c cs IH]; intros l; cbn [decode_objects].
  - split; [injection 1 as <-; constructor|]. intros H. inversion H. reflexivity.
  - split.
    + intros H. apply rbind_ok in H. destruct H as (v & H0 & H). apply rbind_ok in H. destruct H as (vs & H1 & H). injection H as <-.
      constructor; [assumption|]. now apply IH.
    + intros H. inversion H as [|? v ? vs H0 H1]; subst. rewrite H0. cbn [rbind]. apply IH in H1. rewrite H1. reflexivity.
Qed.
Lemma objects_panic dec cs : decode_objects dec cs = Panic <->
  exists es e es' l, cs = es ++ e :: es' /\ Forall2 (fun c v => dec c = Ret (Ok v)) es l /\ dec e = Panic.
Proof.
  induction cs as [|c cs IH]; cbn [decode_objects].
  - split; [discriminate|]. intros (es & e & es' & l & H & _). destruct es; discriminate.
  - split.
    + intros H. destruct (dec c) as [[v|x]| |] eqn:D; cbn [rbind] in H; try discriminate.
      * destruct (decode_objects dec cs) as [[vs|x]| |] eqn:D'; cbn [rbind] in H; try discriminate.
        destruct (proj1 IH eq_refl) as (es & e & es' & l & -> & F & P). exists (c :: es), e, es', (v :: l). split; [reflexivity|]. split; [now constructor|assumption].
      * exists [], c, cs, []. repeat split; [constructor|assumption].
    + intros (es & e & es' & l & E & F & P). destruct es as [|a es]; cbn [app] in E; injection E as -> ->.
      * now rewrite P.
      * inversion F as [|? v ? vs F0 F1]; subst. rewrite F0. cbn [rbind]. rewrite (proj2 IH); [reflexivity|]. now exists es, e, es', vs.
Qed.
Definition fields_read (strict : bool) := fix fields (ts : list sty) (es : list (list Z)) (l : list sval) : Prop :=
           match ts, es, l with
           | [], [], [] => True
           | t :: ts', e :: es', v :: l' => reads strict t e v /\ fields ts' es' l'
           | _, _, _ => False
           end.
Definition fields_break := fix fields (ts : list sty) (es : list (list Z)) : Prop :=
           match ts, es with
           | t :: ts', e :: es' => breaks t e \/ ((exists v, reads false t e v) /\ fields ts' es')
           | _, _ => False
           end.
Definition exact_at (t : sty) (bs : list Z) : Prop :=
  (forall v, try_from_bytes t bs = Ret (Ok v) <-> reads false t bs v) /\ (try_from_bytes t bs = Panic <-> breaks t bs).
Lemma fields_exact ts : forall es, length es = length ts -> Forall2 exact_at ts es ->
  (forall l, fields_decode ts es = Ret (Ok l) <-> fields_read false ts es l) /\ (fields_decode ts es = Panic <-> fields_break ts es).
Proof.
  induction ts as [|t ts IH]; intros es L F; destruct es as [|e es]; try discriminate.
  - split; [|split; [discriminate|contradiction]]. intros l. destruct l; split; try reflexivity; try discriminate; try contradiction.
  - inversion F as [|? ? ? ? [F0 F0'] F1]; subst. specialize (IH es ltac:(cbn in L; lia) F1). destruct IH as [IO IP]. cbn [fields_decode fields_read fields_break].
    fold fields_decode. fold (fields_read false). fold fields_break. split.
    + intros l. split.
      * intros H. apply rbind_ok in H. destruct H as (v & H0 & H). apply rbind_ok in H. destruct H as (vs & H1 & H). injection H as <-.
        split; [now apply F0|now apply IO].
      * destruct l as [|v l]; [contradiction|]. intros [H0 H1]. apply F0 in H0. rewrite H0. cbn [rbind]. apply IO in H1. now rewrite H1.
    + split.
      * intros H. destruct (try_from_bytes t e) as [[v|x]| |] eqn:D; cbn [rbind] in H; try discriminate.
        -- right. split; [exists v; now apply F0|]. apply IP. destruct (fields_decode ts es) as [[vs|x]| |]; cbn [rbind] in H; try discriminate. reflexivity.
        -- left. now apply F0'.
      * intros [H|[[v H] H1]]; [apply F0' in H; now rewrite H|]. apply F0 in H. rewrite H. cbn [rbind]. apply IP in H1. now rewrite H1.
Qed.
Lemma objects_exact t es : Forall (exact_at t) es ->
  (forall l, decode_objects (try_from_bytes t) es = Ret (Ok l) <-> Forall2 (reads false t) es l) /\
  (decode_objects (try_from_bytes t) es = Panic <-> exists pre e post l, es = pre ++ e :: post /\ Forall2 (reads false t) pre l /\ breaks t e).
Proof.
  intros F. assert (T : forall es0 l, incl es0 es -> (Forall2 (fun c v => try_from_bytes t c = Ret (Ok v)) es0 l <-> Forall2 (reads false t) es0 l)).
  { rewrite Forall_forall in F. induction es0 as [|e es0 IH]; intros l I0; [split; intros H; inversion H; constructor|].
    destruct (F e (I0 e (or_introl eq_refl))) as [FO _]. assert (I1 : incl es0 es) by (intros x Hx; apply I0; now right).
    split; intros H; inversion H as [|? v ? vs H0 H1]; subst; (constructor; [now apply FO|now apply (IH vs I1)]). }
  split.
  - intros l. rewrite objects_ok. apply T. apply incl_refl.
  - rewrite objects_panic. split; intros (pre & e & post & l & E & H & P); exists pre, e, post, l; (split; [exact E|]);
      assert (I0 : incl pre es) by (rewrite E; apply incl_appl, incl_refl);
      assert (IE : In e es) by (rewrite E; apply in_or_app; right; now left);
      rewrite Forall_forall in F; destruct (F e IE) as [_ FP]; (split; [now apply (T pre l I0)|now apply FP]).
Qed.

Lemma F2_length {A B} (R : A -> B -> Prop) l l' : Forall2 R l l' -> length l = length l'.
Proof. induction 1; cbn; auto. Qed.
Lemma elements_count t n bs : length (elements bs (slots (repeat t n) bs)) = n.
Proof. rewrite elements_length. destruct (is_variable_size t) eqn:V; [rewrite slots_repeat_var by assumption|rewrite slots_repeat_fixed by assumption]; rewrite map_length; clear; revert bs; induction n as [|n IH]; intros bs; cbn; auto. Qed.
Lemma slots_count ts : forall bs, length (slots ts bs) = length ts.
Proof. induction ts as [|t ts IH]; intros bs; [reflexivity|]. cbn [slots]. destruct (is_variable_size t); cbn [length]; now rewrite IH. Qed.

Lemma decode_exact t : forall bs, legal t -> bytes bs -> exact_at t bs.
Proof.
  induction t as [w| |t n IH|t IH|ts IH] using sty_ind'; intros bs L B.
  - split; [|cbn; destruct (Nat.eqb _ _); split; try discriminate; contradiction]. intros v. cbn [try_from_bytes]. rewrite width_ok. destruct (Nat.eqb_spec (length bs) (uint_bytes w)) as [E|E].
    + split.
      * injection 1 as <-. cbn [reads]. pose proof (le_val_bound bs B) as R. rewrite E in R. rewrite Z.pow_mul_r by lia. change (2 ^ 8) with 256.
        split; [exact R|]. rewrite <- E. symmetry. now apply LE_le_val.
      * destruct v as [k| |]; cbn [reads]; try contradiction. intros [R ->]. rewrite le_val_LE; [reflexivity|]. now rewrite Z.pow_mul_r in R by lia.
    + split; [discriminate|]. destruct v as [k| |]; cbn [reads]; try contradiction. intros [R ->]. now rewrite LE_length in E.
  - split.
    2:{ cbn. destruct bs as [|b [|]]; try (split; discriminate || contradiction). destruct (b =? 0); [split; discriminate || contradiction|]. destruct (b =? 1); split; discriminate || contradiction. }
    intros v. cbn [try_from_bytes]. split.
    + destruct bs as [|b [|]]; try discriminate. destruct (Z.eqb_spec b 0) as [->|]; [injection 1 as <-; reflexivity|]. destruct (Z.eqb_spec b 1) as [->|]; [injection 1 as <-; reflexivity|discriminate].
    + destruct v as [|b|]; cbn [reads]; try contradiction. intros ->. destruct b; reflexivity.
  - destruct L as (L & Hn0 & LB).
    assert (EX : Forall (exact_at t) (elements bs (slots (repeat t n) bs))).
    { eapply Forall_impl; [|exact (elements_bytes bs (repeat t n) bs B B)]. intros e Be. now apply IH. }
    apply objects_exact in EX. destruct EX as [EO EP].
    unfold exact_at. cbn [try_from_bytes]. rewrite size_spec by assumption. cbn [obind]. destruct (is_variable_size t) eqn:V.
    + rewrite u32_ok by lia. cbn [obind]. change BYTES_PER_LENGTH_OFFSET with 4. rewrite u32_ok by lia. cbn [obind].
      rewrite (variable_open _ t) by assumption.
      destruct (smallb bs && openb (repeat t n) bs)%bool eqn:C.
      * apply andb_true_iff in C. destruct C as [C0 C1]. apply smallb_spec in C0. split.
        -- intros v. split.
           ++ intros H. apply rbind_ok in H. destruct H as (l & H & K). destruct (Nat.eqb (length l) n); cbn [oassert] in K; [|discriminate]. injection K as <-.
              cbn [reads]. rewrite V. exists (slots (repeat t n) bs). split; [apply openb_spec; auto|]. split; [split; [assumption|discriminate]|]. now apply EO.
           ++ destruct v as [| |l]; cbn [reads]; try contradiction. rewrite V. intros (ss & O & _ & F). apply openb_spec in O; [|assumption]. destruct O as [-> _].
              pose proof (F2_length _ _ _ F) as LL. rewrite elements_count in LL. apply EO in F. rewrite F. cbn [rbind]. rewrite <- LL, Nat.eqb_refl. reflexivity.
        -- split.
           ++ intros H. destruct (decode_objects _ _) as [[l|x]| |] eqn:D; cbn [rbind] in H; try discriminate.
              { pose proof (proj1 (EO l) eq_refl) as F. apply F2_length in F. rewrite elements_count in F. rewrite <- F, Nat.eqb_refl in H. discriminate. }
              cbn [breaks]. rewrite V. destruct (proj1 EP eq_refl) as (pre & e & post & l & E & F & P). exists (slots (repeat t n) bs), pre, e, post, l.
              split; [apply openb_spec; auto|]. auto.
           ++ cbn [breaks]. rewrite V. intros (ss & pre & e & post & l & O & _ & E & F & P). apply openb_spec in O; [|assumption]. destruct O as [-> _].
              rewrite (proj2 EP); [reflexivity|]. now exists pre, e, post, l.
      * cbn [rbind err]. split.
        -- intros v. split; [discriminate|]. destruct v as [| |l]; cbn [reads]; try contradiction. rewrite V. intros (ss & O & [SM _] & F).
           apply openb_spec in O; [|assumption]. destruct O as [_ O]. apply smallb_spec in SM. rewrite SM, O in C. discriminate.
        -- split; [discriminate|]. cbn [breaks]. rewrite V. intros (ss & pre & e & post & l & O & SM & _). apply openb_spec in O; [|assumption]. destruct O as [_ O].
           apply smallb_spec in SM. rewrite SM, O in C. discriminate.
    + pose proof (fixed_size_pos t L V). cbn [fixed_size] in LB.
      rewrite u32_ok by nia. cbn [obind]. rewrite u32_ok by nia. cbn [obind].
      destruct (Z.eqb_spec (Z.of_nat (length bs)) (fixed_size t * Z.of_nat n)) as [C|C]; cbn [negb].
      * assert (C' : Z.of_nat (length bs) = Z.of_nat n * fixed_size t) by lia. rewrite (fixed_open t bs n) by assumption. cbn [obind].
        assert (OB : openb (repeat t n) bs = true) by (rewrite fixed_openb by assumption; apply Z.leb_le; lia).
        assert (SN : snug bs (slots (repeat t n) bs)) by (apply fixed_snug; assumption || lia).
        split.
        -- intros v. split.
           ++ intros K. apply rbind_ok in K. destruct K as (l & K0 & K). destruct (Nat.eqb (length l) n); cbn [oassert] in K; [|discriminate]. injection K as <-.
              cbn [reads]. rewrite V. exists (slots (repeat t n) bs). split; [apply openb_spec; auto|]. split; [assumption|]. now apply EO.
           ++ destruct v as [| |l]; cbn [reads]; try contradiction. rewrite V. intros (ss & O & _ & F). apply openb_spec in O; [|assumption]. destruct O as [-> _].
              pose proof (F2_length _ _ _ F) as LL. rewrite elements_count in LL. apply EO in F. rewrite F. cbn [rbind]. rewrite <- LL, Nat.eqb_refl. reflexivity.
        -- split.
           ++ intros K. destruct (decode_objects _ _) as [[l|x]| |] eqn:D; cbn [rbind] in K; try discriminate.
              { pose proof (proj1 (EO l) eq_refl) as F. apply F2_length in F. rewrite elements_count in F. rewrite <- F, Nat.eqb_refl in K. discriminate. }
              cbn [breaks]. rewrite V. destruct (proj1 EP eq_refl) as (pre & e & post & l & E & F & P). exists (slots (repeat t n) bs), pre, e, post, l.
              split; [apply openb_spec; auto|]. auto.
           ++ cbn [breaks]. rewrite V. intros (ss & pre & e & post & l & O & _ & E & F & P). apply openb_spec in O; [|assumption]. destruct O as [-> _].
              rewrite (proj2 EP); [reflexivity|]. now exists pre, e, post, l.
      * assert (NS : forall ss, opens (repeat t n) bs ss -> snug bs ss -> False).
        { intros ss O SN. apply openb_spec in O; [|assumption]. destruct O as [-> O]. rewrite fixed_openb in O by assumption. apply Z.leb_le in O.
          apply fixed_snug in SN; [lia|assumption|assumption]. }
        split.
        -- intros v. split; [discriminate|]. destruct v as [| |l]; cbn [reads]; try contradiction. rewrite V. intros (ss & O & SN & F). destruct (NS ss O SN).
        -- split; [discriminate|]. cbn [breaks]. rewrite V. intros (ss & pre & e & post & l & O & SN & _). destruct (NS ss O SN).
  - cbn [legal] in L.
    assert (EX : forall n, Forall (exact_at t) (elements bs (slots (repeat t n) bs))).
    { intros n. eapply Forall_impl; [|exact (elements_bytes bs (repeat t n) bs B B)]. intros e Be. now apply IH. }
    unfold exact_at. cbn [try_from_bytes]. rewrite size_spec by assumption. cbn [obind]. destruct (is_variable_size t) eqn:V.
    + assert (FST : forall n, (0 < n)%nat -> openb (repeat t n) bs = true -> (4 <= length bs)%nat /\ (snug bs (slots (repeat t n) bs) <-> le_val (firstn 4 bs) = Z.of_nat n * 4)).
      { intros n Hn O. unfold openb in O. apply andb_true_iff in O. destruct O as [O _]. apply Z.leb_le in O. pose proof O as O'. rewrite hl_repeat in O. unfold part_size in O. rewrite V in O.
        split; [lia|]. unfold snug. destruct (slots_fit (repeat t n) bs B O') as [F _]. rewrite (slots_length _ _ F), hl_repeat. unfold part_size. rewrite V.
        destruct n as [|n]; [lia|]. cbn [repeat slots]. rewrite V. reflexivity. }
      destruct (Nat.le_gt_cases 4 (length bs)) as [L4|L4].
      2:{ assert (SL : slice bs 0 4 = Panic). { unfold slice. destruct (Nat.leb_spec 4 (length bs)); [lia|]. reflexivity. } rewrite SL. cbn [obind]. split.
          - intros v. split; [discriminate|]. destruct v as [| |l]; cbn [reads]; try contradiction. intros (n & ss & O & K & _). destruct (K V) as [_ Hn].
            apply openb_spec in O; [|assumption]. destruct O as [-> O]. destruct (FST n Hn O). lia.
          - split; [|reflexivity]. intros _. cbn [breaks]. left. split; [exact V|lia]. }
      rewrite slice_ok by lia. cbn [obind skipn Nat.sub]. set (d := firstn 4 bs) in *.
      assert (LD : length d = 4%nat) by (unfold d; rewrite firstn_length; lia). unfold decode_u32. rewrite (proj2 (Nat.eqb_eq _ _) LD). cbn [rbind].
      pose proof (le_val_bound d (bytes_firstn _ _ B)) as R. rewrite LD in R. change (256 ^ Z.of_nat 4) with (2 ^ 32) in R. set (o := le_val d) in *.
      change BYTES_PER_LENGTH_OFFSET with 4. destruct ((o <? 4) || negb (o mod 4 =? 0))%bool eqn:G.
      * assert (NS : forall n ss, opens (repeat t n) bs ss -> (0 < n)%nat -> snug bs ss -> False).
        { intros n ss O Hn SN. apply openb_spec in O; [|assumption]. destruct O as [-> O]. apply (proj2 (FST n Hn O)) in SN. rewrite SN, Z_mod_mult in G.
          destruct (Z.ltb_spec (Z.of_nat n * 4) 4); [lia|discriminate]. }
        split.
        -- intros v. split; [discriminate|]. destruct v as [| |l]; cbn [reads]; try contradiction. intros (n & ss & O & K & SN & _). destruct (K V) as [_ Hn]. destruct (NS n ss O Hn SN).
        -- split; [discriminate|]. cbn [breaks]. intros [[_ K]|(n & ss & pre & e & post & l & O & K & SN & _)]; [lia|]. destruct (K V) as [_ Hn]. destruct (NS n ss O Hn SN).
      * apply orb_false_iff in G. destruct G as [G0 G1]. apply Z.ltb_ge in G0. apply negb_false_iff, Z.eqb_eq in G1.
        assert (O4 : exists n, o = Z.of_nat n * 4 /\ (0 < n)%nat).
        { exists (Z.to_nat (o / 4)). assert (o = 4 * (o / 4)) by (pose proof (Z.div_mod o 4); lia). pose proof (Z.div_pos o 4). lia. }
        destruct O4 as (n & On & Hn). rewrite On, Z.div_mul by lia. rewrite (variable_open _ t) by (assumption || lia).
        assert (NU : forall n', (0 < n')%nat -> openb (repeat t n') bs = true -> snug bs (slots (repeat t n') bs) -> n' = n).
        { intros n' Hn' O' SN. apply (proj2 (FST n' Hn' O')) in SN. lia. }
        destruct (smallb bs && openb (repeat t n) bs)%bool eqn:C.
        -- apply andb_true_iff in C. destruct C as [C0 C1]. apply smallb_spec in C0. destruct (objects_exact t _ (EX n)) as [EO EP].
           assert (SN : snug bs (slots (repeat t n) bs)) by (apply (FST n Hn C1); assumption). split.
           ++ intros v. split.
              ** intros K. apply rbind_ok in K. destruct K as (l & K0 & K). injection K as <-. cbn [reads]. exists n, (slots (repeat t n) bs).
                 split; [apply openb_spec; auto|]. split; [auto|]. split; [assumption|]. now apply EO.
              ** destruct v as [| |l]; cbn [reads]; try contradiction. intros (n' & ss & O & K & SN' & F). destruct (K V) as [_ Hn'].
                 apply openb_spec in O; [|assumption]. destruct O as [-> O]. pose proof (NU n' Hn' O SN') as EQ; subst n'. apply EO in F. rewrite F. reflexivity.
           ++ split.
              ** intros K. destruct (decode_objects _ _) as [[l|x]| |] eqn:D; cbn [rbind] in K; try discriminate.
                 cbn [breaks]. right. destruct (proj1 EP eq_refl) as (pre & e & post & l & E & F & P). exists n, (slots (repeat t n) bs), pre, e, post, l.
                 split; [apply openb_spec; auto|]. auto 10.
              ** cbn [breaks]. intros [[_ K]|(n' & ss & pre & e & post & l & O & K & SN' & E & F & P)]; [lia|]. destruct (K V) as [_ Hn'].
                 apply openb_spec in O; [|assumption]. destruct O as [-> O]. pose proof (NU n' Hn' O SN') as EQ; subst n'. rewrite (proj2 EP); [reflexivity|]. now exists pre, e, post, l.
        -- cbn [rbind err]. assert (NS : forall n' ss, opens (repeat t n') bs ss -> small bs -> (0 < n')%nat -> snug bs ss -> False).
           { intros n' ss O SM Hn' SN. apply openb_spec in O; [|assumption]. destruct O as [-> O]. pose proof (NU n' Hn' O SN) as EQ; subst n'. apply smallb_spec in SM. rewrite SM, O in C. discriminate. }
           split.
           ++ intros v. split; [discriminate|]. destruct v as [| |l]; cbn [reads]; try contradiction. intros (n' & ss & O & K & SN & _). destruct (K V) as [SM Hn']. destruct (NS n' ss O SM Hn' SN).
           ++ split; [discriminate|]. cbn [breaks]. intros [[_ K]|(n' & ss & pre & e & post & l & O & K & SN & _)]; [lia|]. destruct (K V) as [SM Hn']. destruct (NS n' ss O SM Hn' SN).
    + pose proof (fixed_size_pos t L V). destruct (Z.eqb_spec (fixed_size t) 0) as [|_]; [lia|]. cbn [negb oassert].
      destruct (Z.eqb_spec (Z.of_nat (length bs) mod fixed_size t) 0) as [C|C]; cbn [negb].
      * assert (EN : exists n, Z.of_nat (length bs) = Z.of_nat n * fixed_size t).
        { exists (Z.to_nat (Z.of_nat (length bs) / fixed_size t)). rewrite Z2Nat.id by (apply Z.div_pos; lia). pose proof (Z.div_mod (Z.of_nat (length bs)) (fixed_size t)). lia. }
        destruct EN as (n & Cn). rewrite (fixed_open t bs n) by assumption. cbn [obind].
        assert (OB : openb (repeat t n) bs = true) by (rewrite fixed_openb by assumption; apply Z.leb_le; lia).
        assert (SN : snug bs (slots (repeat t n) bs)) by (apply fixed_snug; assumption || lia).
        assert (NU : forall n', openb (repeat t n') bs = true -> snug bs (slots (repeat t n') bs) -> n' = n).
        { intros n' O' SN'. rewrite fixed_openb in O' by assumption. apply Z.leb_le in O'. apply fixed_snug in SN'; [|assumption|assumption]. nia. }
        destruct (objects_exact t _ (EX n)) as [EO EP]. split.
        -- intros v. split.
           ++ intros K. apply rbind_ok in K. destruct K as (l & K0 & K). injection K as <-. cbn [reads]. exists n, (slots (repeat t n) bs).
              split; [apply openb_spec; auto|]. split; [rewrite V; discriminate|]. split; [assumption|]. now apply EO.
           ++ destruct v as [| |l]; cbn [reads]; try contradiction. intros (n' & ss & O & K & SN' & F).
              apply openb_spec in O; [|assumption]. destruct O as [-> O]. pose proof (NU n' O SN') as EQ; subst n'. apply EO in F. rewrite F. reflexivity.
        -- split.
           ++ intros K. destruct (decode_objects _ _) as [[l|x]| |] eqn:D; cbn [rbind] in K; try discriminate.
              cbn [breaks]. right. destruct (proj1 EP eq_refl) as (pre & e & post & l & E & F & P). exists n, (slots (repeat t n) bs), pre, e, post, l.
              split; [apply openb_spec; auto|]. split; [rewrite V; discriminate|]. auto.
           ++ cbn [breaks]. rewrite V. intros [[K _]|(n' & ss & pre & e & post & l & O & K & SN' & E & F & P)]; [discriminate|].
              apply openb_spec in O; [|assumption]. destruct O as [-> O]. pose proof (NU n' O SN') as EQ; subst n'. rewrite (proj2 EP); [reflexivity|]. now exists pre, e, post, l.
      * assert (NS : forall n ss, opens (repeat t n) bs ss -> snug bs ss -> False).
        { intros n' ss O SN. apply openb_spec in O; [|assumption]. destruct O as [-> O]. rewrite fixed_openb in O by assumption. apply Z.leb_le in O.
          apply fixed_snug in SN; [|assumption|assumption]. rewrite SN, Z_mod_mult in C. lia. }
        split.
        -- intros v. split; [discriminate|]. destruct v as [| |l]; cbn [reads]; try contradiction. intros (n' & ss & O & _ & SN & F). destruct (NS n' ss O SN).
        -- split; [discriminate|]. cbn [breaks]. rewrite V. intros [[K _]|(n' & ss & pre & e & post & l & O & _ & SN & _)]; [discriminate|]. destruct (NS n' ss O SN).
  - destruct L as (_ & LB & L). apply legal_all in L. unfold exact_at. rewrite struct_unfold, sizes_of_spec by assumption. cbn [obind].
    rewrite <- header_sum_fields in LB. change (map (fun t => if is_variable_size t then None else Some (fixed_size t)) ts) with (map field_size ts).
    rewrite items_open by assumption.
    destruct (smallb bs && openb ts bs)%bool eqn:C.
    + apply andb_true_iff in C. destruct C as [C0 C1]. apply smallb_spec in C0. cbn [rbind].
      assert (EL : length (elements bs (slots ts bs)) = length ts) by (rewrite elements_length; apply slots_count).
      assert (EX : Forall2 exact_at ts (elements bs (slots ts bs))).
      { pose proof (elements_bytes bs ts bs B B) as BE. revert EL BE. generalize (elements bs (slots ts bs)). clear - IH L. induction ts as [|t ts IHt]; intros es EL BE; destruct es as [|e es]; try discriminate; constructor.
        - inversion IH; inversion L; inversion BE; subst. auto.
        - inversion IH; inversion L; inversion BE; subst. apply IHt; auto. }
      destruct (fields_exact ts _ EL EX) as [EO EP]. split.
      * intros v. split.
        -- intros K. apply rbind_ok in K. destruct K as (l & K0 & K). injection K as <-. cbn [reads]. exists (slots ts bs).
           split; [apply openb_spec; auto|]. split; [assumption|]. split; [discriminate|]. now apply EO.
        -- destruct v as [| |l]; cbn [reads]; try contradiction. intros (ss & O & _ & _ & F). apply openb_spec in O; [|assumption]. destruct O as [-> _].
           apply EO in F. rewrite F. reflexivity.
      * split.
        -- intros K. destruct (fields_decode _ _) as [[l|x]| |] eqn:D; cbn [rbind] in K; try discriminate. cbn [breaks]. exists (slots ts bs).
           split; [apply openb_spec; auto|]. split; [assumption|]. now apply EP.
        -- cbn [breaks]. intros (ss & O & _ & F). apply openb_spec in O; [|assumption]. destruct O as [-> _]. apply EP in F. rewrite F. reflexivity.
    + cbn [rbind err]. split.
      * intros v. split; [discriminate|]. destruct v as [| |l]; cbn [reads]; try contradiction. intros (ss & O & SM & _). apply openb_spec in O; [|assumption]. destruct O as [_ O].
        apply smallb_spec in SM. rewrite SM, O in C. discriminate.
      * split; [discriminate|]. cbn [breaks]. intros (ss & O & SM & _). apply openb_spec in O; [|assumption]. destruct O as [_ O].
        apply smallb_spec in SM. rewrite SM, O in C. discriminate.
Qed.
Lemma ssz_reads t bs v : legal t -> bytes bs -> (ssz_decode t bs = Ret (Ok v) <-> reads false t bs v).
Proof. intros L B. apply decode_exact; assumption. Qed.
Lemma ssz_breaks t bs : legal t -> bytes bs -> (ssz_decode t bs = Panic <-> breaks t bs).
Proof. intros L B. apply decode_exact; assumption. Qed.
End Ssz.

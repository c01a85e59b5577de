(** Proofs about SSZ: decoding arbitrary bytes, and histories of an encoder. *)

From Verif Require Import Base M_Ssz S_Ssz P_Ssz P_Ssz2.
Open Scope Z_scope.

Section Ssz.
Context {bld : build}.

(** [nv] says that no panic can happen, and then the value has property [Q] *)
Definition good {A} (nv : bool) (Q : A -> Prop) (o : outcome (result SszDataDecodingError A)) : Prop :=
  match o with Ret (Ok v) => Q v | Ret (Err _) => True | Panic => nv = false | OutOfFuel => False end.
Lemma good_bind {A B} nv (Q : A -> Prop) (R : B -> Prop) m k : good nv Q m -> (forall v, Q v -> good nv R (k v)) -> good nv R (rbind m k).
Proof. intros M K. destruct m as [[v|e]| |]; cbn in *; auto. Qed.
Lemma good_weaken {A} nv nv' (Q Q' : A -> Prop) o : (nv' = true -> nv = true) -> (forall v, Q v -> Q' v) -> good nv Q o -> good nv' Q' o.
Proof. intros N H G. destruct o as [[v|e]| |]; cbn in *; auto. destruct nv'; auto. rewrite N in G; auto. Qed.

Lemma objects_good nv Q dec cs : Forall (fun c => good nv Q (dec c)) cs ->
  good nv (fun l => length l = length cs /\ Forall Q l) (decode_objects dec cs).
Proof.
  induction 1 as [|c cs H0 H IH]; [cbn; auto|]. cbn [decode_objects]. eapply good_bind; [exact H0|]. intros v Hv.
  eapply good_bind; [exact IH|]. intros vs [L F]. cbn. split; [lia|]. now constructor.
Qed.
Lemma read_offsets_ok bl cs : bl < 2 ^ 32 -> Forall (fun c => length c = 4%nat /\ bytes c) cs -> forall prev acc,
  match read_offsets bl cs prev acc with
  | Ok offsets => exists os, offsets = acc ++ os /\ length os = length cs /\
      (forall o os', os = o :: os' -> prev <= o) /\ Forall (fun o => 0 <= o <= bl) os /\
      (forall o1 o2 a b, os = a ++ o1 :: o2 :: b -> o1 <= o2)
  | Err _ => True
  end.
Proof.
  intros HB. induction 1 as [|c cs [H0 HB0] H IH]; intros prev acc; cbn [read_offsets].
  - exists []. rewrite app_nil_r. repeat split; auto; try discriminate. intros o1 o2 [|] b E; discriminate.
  - unfold decode_u32. rewrite (proj2 (Nat.eqb_eq _ _) H0). pose proof (le_val_bound c HB0).
    destruct (Z.ltb_spec (le_val c) prev); [exact I|]. destruct (Z.ltb_spec bl (le_val c)); [exact I|]. cbn [orb].
    specialize (IH (le_val c) (acc ++ [le_val c])). destruct (read_offsets _ _ _ _) as [offsets|]; [|exact I].
    destruct IH as (os & -> & L & P & F & S). exists (le_val c :: os). rewrite <- app_assoc. cbn [app length]. split; [reflexivity|].
    split; [lia|]. split; [intros ? ? [= <- _]; assumption|]. split; [constructor; [lia|assumption]|].
    intros o1 o2 [|x a] b E; cbn in E; injection E.
    + intros -> <-. eapply P. reflexivity.
    + intros -> _. eapply S. reflexivity.
Qed.
Lemma windows_good nv Q dec bs : (forall i j d, slice bs i j = Ret d -> good nv Q (dec d)) -> forall os,
  Forall (fun o => 0 <= o <= Z.of_nat (length bs)) os -> (forall o1 o2 a b, os = a ++ o1 :: o2 :: b -> o1 <= o2) ->
  good nv (fun l => length l = pred (length os) /\ Forall Q l) (decode_windows dec bs os).
Proof.
  intros D. induction os as [|o1 os IH]; intros F S; [cbn; auto|]. destruct os as [|o2 os]; [cbn; auto|].
  rewrite decode_windows_step. inversion F as [|? ? F1 F']; subst. inversion F' as [|? ? F2 F'']; subst.
  pose proof (S o1 o2 [] os eq_refl). rewrite sassert_ok by (apply Z.leb_le; lia).
  pose proof (slice_ok bs (Z.to_nat o1) (Z.to_nat o2) ltac:(lia)) as E. rewrite E. cbn [obind].
  eapply good_bind; [eapply D; exact E|]. intros v Hv. eapply good_bind; [apply IH; [assumption|]|].
  - intros a1 a2 a b E'. apply (S a1 a2 (o1 :: a) b). now rewrite E'.
  - intros vs [L FQ]. cbn [good]. cbn [length pred] in *. split; [lia|]. now constructor.
Qed.
Lemma variable_good nv Q dec bs n : 0 < n -> n * 4 < 2 ^ 32 -> bytes bs -> (forall d, bytes d -> good nv Q (dec d)) ->
  good nv (fun l => Z.of_nat (length l) = n /\ Forall Q l) (decode_variable_size_objects dec bs n (4 * n)).
Proof.
  intros Hn HB B D. unfold decode_variable_size_objects. change BYTES_PER_LENGTH_OFFSET with 4. rewrite sassert_ok by (apply andb_true_iff; split; [apply Z.ltb_lt|apply Z.eqb_eq]; lia). cbn zeta.
  destruct (Z.leb_spec (2 ^ 32) (Z.of_nat (length bs))); [exact I|].
  destruct (Z.ltb_spec (Z.of_nat (length bs)) (4 * n)); [exact I|].
  pose proof (slice_ok bs 0 (Z.to_nat (4 * n)) ltac:(lia)) as E. rewrite E. cbn [obind].
  assert (BH : bytes (firstn (Z.to_nat (4 * n) - 0) (skipn 0 bs))) by (eapply slice_bytes; eauto).
  apply slice_len in E. assert (E' : length (firstn (Z.to_nat (4 * n) - 0) (skipn 0 bs)) = (Z.to_nat n * 4)%nat) by lia.
  destruct (chunks_mult 4 (Z.to_nat n) _ ltac:(lia) E') as (cs & EC & CC & LC & UC).
  rewrite EC. cbn [obind].
  assert (FC : Forall (fun c => length c = 4%nat /\ bytes c) cs).
  { apply Forall_forall. intros c Hc. split; [exact (proj1 (Forall_forall _ _) UC c Hc)|]. unfold bytes in *. rewrite <- CC in BH.
    apply Forall_forall. intros x Hx. rewrite Forall_forall in BH. apply BH. apply in_concat. eauto. }
  pose proof (read_offsets_ok (Z.of_nat (length bs)) cs ltac:(lia) FC 0 []) as R.
  destruct (read_offsets _ _ _ _) as [offsets|]; [|exact I]. destruct R as (os & -> & L & _ & F & S). cbn [rbind app].
  destruct os as [|o os]; [cbn in L; lia|].
  apply (good_weaken nv nv (fun l => length l = pred (length ((o :: os) ++ [Z.of_nat (length bs)])) /\ Forall Q l)); [exact (fun x => x)| |apply windows_good].
  - cbv beta. intros l [Hl HQ]. split; [|exact HQ]. rewrite app_length in Hl. cbn [length] in *. lia.
  - intros i j d Hd. apply D. exact (slice_bytes bs i j d B Hd).
  - apply Forall_app. split; [assumption|]. constructor; [lia|constructor].
  - intros o1 o2 a b E2. destruct (exists_last (l := o2 :: b) ltac:(discriminate)) as (b' & x & Eb).
    rewrite Eb in E2. change (a ++ o1 :: b' ++ [x]) with (a ++ (o1 :: b') ++ [x]) in E2. rewrite app_assoc in E2.
    apply app_inj_tail in E2. destruct E2 as [E2 <-]. destruct b' as [|o2' b'].
    + cbn in Eb. injection Eb as -> _. assert (In o1 (o :: os)) by (rewrite E2; apply in_or_app; right; now left).
      rewrite Forall_forall in F. apply F in H1. lia.
    + cbn in Eb. injection Eb as <- _. eapply S. rewrite E2. reflexivity.
Qed.

(** items of a container *)
Fixpoint header_sum (sizes : list (option Z)) : Z := match sizes with [] => 0 | s :: r => match s with None => 4 | Some n => n end + header_sum r end.
Lemma header_sum_rev l : header_sum (rev l) = header_sum l.
Proof.
  assert (A : forall a b, header_sum (a ++ b) = header_sum a + header_sum b) by (induction a as [|x a IHa]; intros b; cbn in *; [lia|rewrite IHa; lia]).
  induction l as [|x l IH]; [reflexivity|]. cbn [rev header_sum]. rewrite A, IH. cbn [header_sum]. lia.
Qed.
Lemma headers_len_ok sizes : Forall (fun s => match s with Some n => 0 < n | None => True end) sizes -> forall acc, 0 <= acc ->
  acc + header_sum sizes < 2 ^ 32 -> headers_len_of sizes acc = Ret (acc + header_sum sizes) /\ 0 <= header_sum sizes.
Proof.
  induction 1 as [|s sizes H0 H IH]; intros acc HA B; [cbn; split; [now rewrite Z.add_0_r|lia]|].
  cbn [headers_len_of header_sum] in *.
  assert (N : 0 <= header_sum sizes).
  { clear - H. induction H as [|s sizes H0 H IH]; [cbn; lia|]. cbn [header_sum]. destruct s; lia. }
  destruct s as [n|].
  - rewrite plus_ok by lia. cbn [obind]. destruct (IH (acc + n) ltac:(lia) ltac:(lia)) as [E _]. rewrite E. split; [f_equal|]; lia.
  - change BYTES_PER_LENGTH_OFFSET with 4. rewrite plus_ok by lia. cbn [obind]. destruct (IH (acc + 4) ltac:(lia) ltac:(lia)) as [E _]. rewrite E.
    split; [f_equal|]; lia.
Qed.
Lemma items_rev_good data : bytes data -> Z.of_nat (length data) < 2 ^ 32 -> forall sizes prev acc,
  Forall (fun s => match s with Some n => 0 < n | None => True end) sizes ->
  0 <= prev <= Z.of_nat (length data) -> header_sum sizes <= Z.of_nat (length data) ->
  good true (fun items => exists l, items = acc ++ l /\ length l = length sizes /\ Forall bytes l /\
      Forall2 (fun s d => match s with Some n => Z.of_nat (length d) = n | None => True end) sizes l)
    (items_rev data sizes prev (header_sum sizes) acc).
Proof.
  intros B BL. induction sizes as [|s sizes IH]; intros prev acc P HP HH.
  - cbn. exists []. rewrite app_nil_r. auto.
  - inversion P as [|? ? P0 P1]; subst. cbn [header_sum] in *.
    assert (N : 0 <= header_sum sizes).
    { clear - P1. induction P1 as [|s sizes H0 H IH]; [cbn; lia|]. cbn [header_sum]. destruct s; lia. }
    destruct s as [n|]; cbn [items_rev].
    + destruct (Z.ltb_spec (n + header_sum sizes) n); [exact I|]. unfold u32_sub.
      destruct (Z.leb_spec n (n + header_sum sizes)); [|lia]. cbn [obind].
      replace (n + header_sum sizes - n) with (header_sum sizes) by lia.
      pose proof (slice_ok data (Z.to_nat (header_sum sizes)) (Z.to_nat (n + header_sum sizes)) ltac:(lia)) as E.
      set (item := firstn _ _) in E. rewrite E. cbn [obind]. eapply good_weaken; [exact (fun x => x)| |apply IH; auto; lia].
      cbv beta. intros items (l & -> & L & FB & F2). exists (item :: l). rewrite <- app_assoc. cbn [length]. repeat split; [lia| |].
      * constructor; [eapply slice_bytes; eauto|assumption].
      * constructor; [|assumption]. apply slice_len in E. lia.
    + unfold u32_sub. change BYTES_PER_LENGTH_OFFSET with 4. destruct (Z.leb_spec 4 (4 + header_sum sizes)); [|lia]. cbn [obind].
      replace (4 + header_sum sizes - 4) with (header_sum sizes) by lia.
      pose proof (slice_ok data (Z.to_nat (header_sum sizes)) (Z.to_nat (4 + header_sum sizes)) ltac:(lia)) as E.
      set (h := firstn _ _) in E. rewrite E. cbn [obind]. pose proof (slice_len _ _ _ _ E) as LH. unfold decode_u32.
      replace (length h) with 4%nat by lia. cbn [Nat.eqb rbind].
      pose proof (le_val_bound h (slice_bytes _ _ _ _ B E)).
      destruct (Z.ltb_spec prev (le_val h)); [exact I|].
      pose proof (slice_ok data (Z.to_nat (le_val h)) (Z.to_nat prev) ltac:(lia)) as E'.
      set (item := firstn _ _) in E'. rewrite E'. cbn [obind]. eapply good_weaken; [exact (fun x => x)| |apply IH; auto; lia].
      cbv beta. intros items (l & -> & L & FB & F2). exists (item :: l). rewrite <- app_assoc. cbn [length]. repeat split; [lia| |].
      * constructor; [eapply slice_bytes; eauto|assumption].
      * constructor; [exact I|assumption].
Qed.
Definition field_size (t : sty) : option Z := if is_variable_size t then None else Some (fixed_size t).
Lemma header_sum_fields ts : header_sum (map field_size ts) = fold_right (fun t s => (if is_variable_size t then 4 else fixed_size t) + s) 0 ts.
Proof. induction ts as [|t ts IH]; [reflexivity|]. cbn [map header_sum fold_right]. rewrite IH. unfold field_size. destruct (is_variable_size t); lia. Qed.
Lemma fields_pos ts : Forall legal ts -> Forall (fun s => match s with Some n => 0 < n | None => True end) (map field_size ts).
Proof.
  induction 1 as [|t ts H0 H IH]; [constructor|]. cbn [map]. constructor; [|assumption]. unfold field_size. destruct (is_variable_size t) eqn:V; [exact I|].
  now apply fixed_size_pos.
Qed.
Lemma Forall2_rev' {A B} (R : A -> B -> Prop) l l' : Forall2 R l l' -> Forall2 R (rev l) (rev l').
Proof. induction 1; cbn [rev]; [constructor|]. apply Forall2_app; [assumption|]. constructor; [assumption|constructor]. Qed.
Lemma items_good data ts : bytes data -> Forall legal ts -> fold_right (fun t s => (if is_variable_size t then 4 else fixed_size t) + s) 0 ts < 2 ^ 32 ->
  good true (fun items => Forall bytes items /\ length items = length ts /\
      Forall2 (fun s d => match s with Some n => Z.of_nat (length d) = n | None => True end) (map field_size ts) items)
    (ssz_decode_as_items data (map field_size ts)).
Proof.
  intros B L BD. unfold ssz_decode_as_items. rewrite <- header_sum_fields in BD.
  destruct (headers_len_ok _ (fields_pos ts L) 0 ltac:(lia) ltac:(lia)) as [E N]. rewrite E. cbn [obind]. rewrite Z.add_0_l.
  destruct (Z.leb_spec (2 ^ 32) (Z.of_nat (length data))); [exact I|].
  destruct (Z.ltb_spec (Z.of_nat (length data)) (header_sum (map field_size ts))); [exact I|].
  rewrite <- header_sum_rev. eapply good_bind; [apply items_rev_good; try assumption|].
  - apply Forall_rev. now apply fields_pos.
  - lia.
  - now rewrite header_sum_rev.
  - cbv beta. intros items (l & -> & LL & FB & F2). cbn [app good]. rewrite rev_length, map_length in LL. split; [now apply Forall_rev|]. split; [now rewrite rev_length|].
    apply Forall2_rev' in F2. now rewrite rev_involutive in F2.
Qed.

Lemma width_ok w : width_bytes w = uint_bytes w.
Proof. destruct w; reflexivity. Qed.
Lemma decode_good t : forall bs, legal t -> bytes bs -> good (no_var_list t) (has_type t) (try_from_bytes t bs).
Proof.
  induction t as [w| |t n IH|t IH|ts IH] using sty_ind'; intros bs L B.
  - cbn [try_from_bytes]. rewrite width_ok. destruct (Nat.eqb_spec (length bs) (uint_bytes w)) as [E|]; [|exact I]. cbn [good has_type]. rewrite <- E.
    rewrite Z.pow_mul_r by lia. now apply le_val_bound.
  - cbn [try_from_bytes]. destruct bs as [|b [|]]; try exact I. destruct (b =? 0); [exact I|]. destruct (b =? 1); exact I.
  - destruct L as (L & Hn & LB). cbn [try_from_bytes no_var_list]. rewrite size_spec by assumption. cbn [obind]. destruct (is_variable_size t) eqn:V.
    + rewrite u32_ok by lia. cbn [obind]. change BYTES_PER_LENGTH_OFFSET with 4. rewrite u32_ok by lia. cbn [obind].
      rewrite (Z.mul_comm (Z.of_nat n) 4). eapply good_bind; [apply (variable_good (no_var_list t) (has_type t)); auto; lia|].
      cbv beta. intros l [Hl F]. apply Nat2Z.inj in Hl. rewrite (proj2 (Nat.eqb_eq _ _) Hl). cbn. auto.
    + pose proof (fixed_size_pos t L V). cbn [fixed_size] in LB. rewrite u32_ok by nia. cbn [obind]. rewrite u32_ok by nia. cbn [obind].
      destruct (Z.eqb_spec (Z.of_nat (length bs)) (fixed_size t * Z.of_nat n)) as [E|]; [|exact I]. cbn [negb].
      destruct (chunks_mult (Z.to_nat (fixed_size t)) n bs ltac:(lia)) as (cs & EC & CC & LC & UC); [nia|].
      rewrite EC. cbn [obind]. eapply good_bind; [apply (objects_good (no_var_list t) (has_type t))|].
      * apply Forall_forall. intros c Hc. apply IH; [assumption|]. unfold bytes in *. rewrite <- CC in B.
        apply Forall_forall. intros x Hx. rewrite Forall_forall in B. apply B. apply in_concat. eauto.
      * cbv beta. intros l [Hl F]. rewrite LC in Hl. rewrite (proj2 (Nat.eqb_eq _ _) Hl). cbn. auto.
  - cbn [legal] in L. cbn [try_from_bytes no_var_list]. rewrite size_spec by assumption. cbn [obind]. destruct (is_variable_size t) eqn:V; cbn [negb andb].
    + destruct (le_lt_dec 4 (length bs)) as [H4|H4].
      2:{ unfold slice. rewrite (proj2 (Nat.leb_gt _ _) H4), andb_false_r. reflexivity. }
      assert (E : slice bs 0 4 = Ret (firstn (4 - 0) (skipn 0 bs))) by (apply slice_ok; lia). set (d := firstn (4 - 0) _) in *.
      rewrite E. cbn [obind].
      pose proof (slice_len _ _ _ _ E) as Ld. pose proof (le_val_bound d (slice_bytes _ _ _ _ B E)) as Bd. rewrite Ld in Bd. change (256 ^ Z.of_nat (4 - 0)) with (2 ^ 32) in Bd.
      unfold decode_u32. rewrite Ld. cbn [Nat.eqb Nat.sub rbind]. change BYTES_PER_LENGTH_OFFSET with 4.
      destruct (Z.ltb_spec (le_val d) 4); [exact I|]. destruct (Z.eqb_spec (le_val d mod 4) 0) as [M|]; [|exact I]. cbn [negb orb].
      apply Z_div_exact_full_2 in M; [|lia]. rewrite M at 2. eapply good_bind.
      * apply (good_weaken (no_var_list t) false _ _ _ ltac:(discriminate) (fun v Q => Q)). apply (variable_good (no_var_list t) (has_type t)); auto; lia.
      * cbv beta. intros l [_ F]. exact F.
    + pose proof (fixed_size_pos t L V). destruct (Z.eqb_spec (fixed_size t) 0); [lia|]. cbn [negb oassert].
      destruct (Z.eqb_spec (Z.of_nat (length bs) mod fixed_size t) 0) as [M|]; [|exact I]. cbn [negb].
      apply Z_div_exact_full_2 in M; [|lia]. pose proof (Z.div_pos (Z.of_nat (length bs)) (fixed_size t) ltac:(lia) ltac:(lia)).
      destruct (chunks_mult (Z.to_nat (fixed_size t)) (Z.to_nat (Z.of_nat (length bs) / fixed_size t)) bs ltac:(lia)) as (cs & EC & CC & LC & UC); [nia|].
      rewrite EC. cbn [obind]. eapply good_bind; [apply (objects_good (no_var_list t) (has_type t))|].
      * apply Forall_forall. intros c Hc. apply IH; [assumption|]. unfold bytes in *. rewrite <- CC in B.
        apply Forall_forall. intros x Hx. rewrite Forall_forall in B. apply B. apply in_concat. eauto.
      * cbv beta. intros l [_ F]. exact F.
  - destruct L as (_ & BD & L). apply legal_all in L. rewrite struct_unfold, sizes_of_spec by assumption. cbn [obind].
    change (map _ ts) with (map field_size ts). cbn [no_var_list].
    eapply good_bind; [eapply good_weaken; [|exact (fun v Q => Q)|apply items_good; assumption]; auto|]. cbv beta. intros items (FB & LI & _).
    assert (G : good (forallb no_var_list ts) (fields_typed ts) (fields_decode ts items)).
    { clear BD. revert items FB LI. induction ts as [|t ts IHt]; intros items FB LI; [exact I|]. destruct items as [|d items]; [discriminate|].
      inversion IH as [|? ? I0 I1]; subst. inversion L as [|? ? L0 L1]; subst. inversion FB as [|? ? B0 B1]; subst. cbn [fields_decode forallb].
      eapply good_bind; [eapply good_weaken; [|exact (fun v Q => Q)|apply I0; assumption]; rewrite andb_true_iff; tauto|].
      intros v Hv. eapply good_bind; [eapply good_weaken; [|exact (fun v Q => Q)|apply IHt; auto]; rewrite andb_true_iff; tauto|].
      intros vs Hvs. cbn. auto. }
    eapply good_bind; [exact G|]. intros vs H. exact H.
Qed.

Lemma ssz_total t bs : legal t -> no_var_list t = true -> bytes bs ->
  (exists v, ssz_decode t bs = Ret (Ok v) /\ has_type t v) \/ (exists e, ssz_decode t bs = Ret (Err e)).
Proof.
  intros L N B. pose proof (decode_good t bs L B) as G. rewrite N in G. unfold ssz_decode. destruct (try_from_bytes t bs) as [[v|e]| |]; cbn in G;
    try contradiction; try discriminate; eauto.
Qed.
Lemma ssz_typed t bs v : legal t -> bytes bs -> ssz_decode t bs = Ret (Ok v) -> has_type t v.
Proof. intros L B E. pose proof (decode_good t bs L B) as G. unfold ssz_decode in E. now rewrite E in G. Qed.

(** ** Strictness for fixed-size types *)
Lemma rbind_ok {A B} (m : outcome (result SszDataDecodingError A)) (k : A -> outcome (result SszDataDecodingError B)) v :
  rbind m k = Ret (Ok v) -> exists a, m = Ret (Ok a) /\ k a = Ret (Ok v).
Proof. destruct m as [[a|e]| |]; cbn; intros E; try discriminate. eauto. Qed.
Lemma obind_ok {A B} (m : outcome A) (k : A -> outcome B) v : obind m k = Ret v -> exists a, m = Ret a /\ k a = Ret v.
Proof. destruct m; cbn; intros E; try discriminate. eauto. Qed.
Lemma objects_strict dec t cs : (forall c v, In c cs -> dec c = Ret (Ok v) -> SSZ t v = c) -> forall vs,
  decode_objects dec cs = Ret (Ok vs) -> map (SSZ t) vs = cs.
Proof.
  induction cs as [|c cs IH]; intros D vs E; cbn [decode_objects] in E; [injection E as <-; reflexivity|].
  apply rbind_ok in E. destruct E as (v & E0 & E). apply rbind_ok in E. destruct E as (r & E1 & E). injection E as <-. cbn [map].
  rewrite (D c v) by (cbn; auto). f_equal. apply IH; [|assumption]. intros c' v' H. apply D. now right.
Qed.

(** items of a container without variable-size fields, taken from the end *)
Lemma items_rev_fixed data ns : Forall (fun n => 0 < n) ns -> forall acc items,
  items_rev data (map Some ns) (Z.of_nat (length data)) (header_sum (map Some ns)) acc = Ret (Ok items) ->
  exists l, items = acc ++ l /\ Forall2 (fun n d => Z.of_nat (length d) = n) ns l /\ firstn (Z.to_nat (header_sum (map Some ns))) data = concat (rev l).
Proof.
  induction 1 as [|n ns Hn H IH]; intros acc items E; cbn [map items_rev header_sum] in *.
  - injection E as <-. exists []. rewrite app_nil_r. cbn. auto.
  - assert (N : 0 <= header_sum (map Some ns)) by (clear - H; induction H; cbn [map header_sum]; lia).
    destruct (_ <? _); [discriminate|]. unfold u32_sub in E. destruct (Z.leb_spec n (n + header_sum (map Some ns))); [|lia]. cbn [obind] in E.
    replace (n + header_sum (map Some ns) - n) with (header_sum (map Some ns)) in E by lia.
    apply obind_ok in E. destruct E as (item & ES & E). destruct (IH _ _ E) as (l & -> & F & C). exists (item :: l). rewrite <- app_assoc.
    split; [reflexivity|]. pose proof (slice_len _ _ _ _ ES). split; [constructor; [lia|assumption]|]. cbn [rev]. rewrite concat_app, <- C. cbn [concat]. rewrite app_nil_r.
    unfold slice in ES. destruct (_ && _)%bool; [|discriminate]. injection ES as <-.
    replace (Z.to_nat (n + header_sum (map Some ns))) with (Z.to_nat (header_sum (map Some ns)) + Z.to_nat n)%nat by lia.
    replace (_ - _)%nat with (Z.to_nat n) by lia. rewrite <- (firstn_skipn (Z.to_nat (header_sum (map Some ns))) (firstn _ data)).
    rewrite firstn_firstn, Nat.min_l by lia. f_equal. rewrite skipn_firstn_comm. f_equal. lia.
Qed.

Lemma decode_strict t : forall bs v, legal t -> is_variable_size t = false -> bytes bs -> try_from_bytes t bs = Ret (Ok v) ->
  SSZ t v = firstn (Z.to_nat (fixed_size t)) bs /\ (match t with SStruct _ => fixed_size t <= Z.of_nat (length bs) | _ => Z.of_nat (length bs) = fixed_size t end).
Proof.
  assert (EX : forall t bs v, (SSZ t v = firstn (Z.to_nat (fixed_size t)) bs) -> length bs = Z.to_nat (fixed_size t) -> SSZ t v = bs)
    by (intros t' bs v E L; rewrite E, <- L; apply firstn_all).
  induction t as [w| |t n IH|t IH|ts IH] using sty_ind'; intros bs v L V B E; try discriminate.
  - cbn [try_from_bytes] in E. rewrite width_ok in E. destruct (Nat.eqb_spec (length bs) (uint_bytes w)) as [W|]; [|discriminate]. injection E as <-. cbn [SSZ fixed_size].
    rewrite <- W, Nat2Z.id, firstn_all. split; [now apply LE_le_val|reflexivity].
  - cbn [try_from_bytes] in E. destruct bs as [|b [|]]; try discriminate. cbn [fixed_size length].
    destruct (Z.eqb_spec b 0) as [->|]; [injection E as <-; auto|]. destruct (Z.eqb_spec b 1) as [->|]; [injection E as <-; auto|discriminate].
  - destruct L as (L & Hn & LB). cbn [is_variable_size] in V. cbn [try_from_bytes] in E. rewrite size_spec, V in E by assumption. cbn [obind] in E.
    pose proof (fixed_size_pos t L V). rewrite V in LB. cbn [fixed_size] in *. rewrite u32_ok in E by nia. cbn [obind] in E. rewrite u32_ok in E by nia. cbn [obind] in E.
    destruct (Z.eqb_spec (Z.of_nat (length bs)) (fixed_size t * Z.of_nat n)) as [W|]; [|discriminate]. cbn [negb] in E. split; [|exact W].
    destruct (chunks_mult (Z.to_nat (fixed_size t)) n bs ltac:(lia)) as (cs & EC & CC & LC & UC); [nia|].
    rewrite EC in E. cbn [obind] in E. apply rbind_ok in E. destruct E as (vs & E0 & E). destruct (Nat.eqb _ _); [|discriminate]. injection E as <-.
    cbn [SSZ]. rewrite composite_fixed_map by assumption. rewrite (objects_strict (try_from_bytes t) t cs) with (vs := vs); [| |exact E0].
    + rewrite CC. rewrite firstn_all2 by lia. reflexivity.
    + intros c v Hc Ec. apply EX; [apply (IH c v); try assumption|exact (proj1 (Forall_forall _ _) UC c Hc)].
      unfold bytes in *. rewrite <- CC in B. apply Forall_forall. intros x Hx. rewrite Forall_forall in B. apply B. apply in_concat. eauto.
  - destruct L as (_ & BD & L). apply legal_all in L. rewrite struct_unfold, sizes_of_spec in E by assumption. cbn [obind] in E.
    cbn [is_variable_size] in V.
    assert (ES : map (fun t => if is_variable_size t then None else Some (fixed_size t)) ts = map Some (map fixed_size ts)).
    { rewrite map_map. apply map_ext_in. intros t Ht. destruct (is_variable_size t) eqn:Vt; [|reflexivity].
      assert (existsb is_variable_size ts = true) by (apply existsb_exists; eauto). congruence. }
    rewrite ES in E. apply rbind_ok in E. destruct E as (items & E0 & E). apply rbind_ok in E. destruct E as (vs & E1 & E). injection E as <-.
    assert (FP : Forall (fun n => 0 < n) (map fixed_size ts)).
    { apply Forall_forall. intros n Hn. apply in_map_iff in Hn. destruct Hn as (t & <- & Ht). apply fixed_size_pos; [exact (proj1 (Forall_forall _ _) L t Ht)|].
      destruct (is_variable_size t) eqn:Vt; [|reflexivity]. assert (existsb is_variable_size ts = true) by (apply existsb_exists; eauto). congruence. }
    assert (HS : header_sum (map Some (map fixed_size ts)) = fixed_size (SStruct ts)).
    { cbn [fixed_size]. clear. induction ts as [|t ts IH]; [reflexivity|]. cbn [map header_sum fold_right]. now rewrite IH. }
    unfold ssz_decode_as_items in E0. pose proof (items_rev_fixed bs (rev (map fixed_size ts)) ltac:(now apply Forall_rev) [] ) as IR.
    rewrite map_rev, header_sum_rev in IR.
    destruct (headers_len_ok (map Some (map fixed_size ts))) with (acc := 0) as [EH NH].
    { apply Forall_forall. intros s Hs. apply in_map_iff in Hs. destruct Hs as (n & <- & Hn). exact (proj1 (Forall_forall _ _) FP n Hn). }
    { lia. }
    { rewrite Z.add_0_l, <- ES. exact (eq_ind_r (fun x => x < 2 ^ 32) BD (header_sum_fields ts)). }
    rewrite EH in E0. cbn [obind] in E0. rewrite Z.add_0_l in E0.
    destruct (Z.leb_spec (2 ^ 32) (Z.of_nat (length bs))); [discriminate|].
    destruct (Z.ltb_spec (Z.of_nat (length bs)) (header_sum (map Some (map fixed_size ts)))) as [|LE1]; [discriminate|].
    apply rbind_ok in E0. destruct E0 as (its & E0 & E2). injection E2 as <-.
    destruct (IR its E0) as (l & -> & F2 & C). cbn [app] in *. rewrite HS in *. split; [|assumption].
    rewrite C. change (SSZ (SStruct ts) (VSeq vs)) with (composite (fields_parts ts vs)). rewrite composite_fixed by now apply fields_fixed.
    apply Forall2_rev' in F2. rewrite rev_involutive in F2.
    assert (BI : Forall bytes (rev l)).
    { apply Forall_forall. intros d Hd. unfold bytes in *. apply Forall_forall. intros x Hx. rewrite Forall_forall in B. apply B.
      apply (in_firstn (Z.to_nat (fixed_size (SStruct ts)))). rewrite C. apply in_concat. eauto. }
    clear - E1 F2 IH V L EX BI. revert F2 E1 BI. generalize (rev l) as items. revert vs. induction ts as [|t ts IHt]; intros vs items F2 E1 BI; inversion F2; subst.
    { cbn in E1. injection E1 as <-. reflexivity. }
    inversion IH as [|? ? I0 I1]; subst. inversion L as [|? ? L0 L1]; subst. inversion BI as [|? ? B0 B1]; subst. cbn [existsb] in V. apply orb_false_iff in V. destruct V as [V0 V1].
    cbn [fields_decode] in E1. apply rbind_ok in E1. destruct E1 as (v & E0 & E1). apply rbind_ok in E1. destruct E1 as (vs' & E1 & E2). injection E2 as <-.
    cbn [fields_parts map concat snd]. f_equal; [|now apply IHt].
    apply EX; [now apply I0|]. lia.
Qed.
Lemma ssz_strict t bs v : legal t -> is_variable_size t = false -> bytes bs -> Z.of_nat (length bs) = fixed_size t ->
  ssz_decode t bs = Ret (Ok v) -> SSZ t v = bs.
Proof.
  intros L V B W E. destruct (decode_strict t bs v L V B E) as [R _]. rewrite R. apply firstn_all2. lia.
Qed.
Lemma ssz_exact_length t bs v : legal t -> is_variable_size t = false -> bytes bs -> (forall ts, t <> SStruct ts) ->
  ssz_decode t bs = Ret (Ok v) -> Z.of_nat (length bs) = fixed_size t.
Proof.
  intros L V B N E. destruct (decode_strict t bs v L V B E) as [_ R]. destruct t; try exact R. now contradiction (N ts).
Qed.
Lemma ssz_list_strict t bs v : legal t -> is_variable_size t = false -> bytes bs ->
  ssz_decode (SVec t) bs = Ret (Ok v) -> SSZ (SVec t) v = bs.
Proof.
  intros L V B E. unfold ssz_decode in E. cbn [try_from_bytes] in E. rewrite size_spec, V in E by assumption. cbn [obind] in E.
  pose proof (fixed_size_pos t L V). destruct (Z.eqb_spec (fixed_size t) 0); [lia|]. cbn [negb oassert] in E.
  destruct (Z.eqb_spec (Z.of_nat (length bs) mod fixed_size t) 0) as [M|]; [|discriminate]. cbn [negb] in E.
  apply Z_div_exact_full_2 in M; [|lia]. pose proof (Z.div_pos (Z.of_nat (length bs)) (fixed_size t) ltac:(lia) ltac:(lia)).
  destruct (chunks_mult (Z.to_nat (fixed_size t)) (Z.to_nat (Z.of_nat (length bs) / fixed_size t)) bs ltac:(lia)) as (cs & EC & CC & LC & UC); [nia|].
  rewrite EC in E. cbn [obind] in E. apply rbind_ok in E. destruct E as (vs & E0 & E). injection E as <-.
  cbn [SSZ]. rewrite composite_fixed_map by assumption. rewrite (objects_strict (try_from_bytes t) t cs) with (vs := vs); [assumption| |exact E0].
  intros c v Hc Ec. assert (Bc : bytes c).
  { unfold bytes in *. rewrite <- CC in B. apply Forall_forall. intros x Hx. rewrite Forall_forall in B. apply B. apply in_concat. eauto. }
  apply ssz_strict; try assumption. pose proof (proj1 (Forall_forall _ _) UC c Hc). cbv beta in *. lia.
Qed.

(** ** Histories of an encoder *)
Lemma ssz_history cs : forall acc outs rest, Forall call_legal cs -> Z.of_nat (length (composite acc)) < 2 ^ 32 -> ssz_due (is_debug bld) cs acc = Some (outs, rest) ->
  exists it, run_ssz cs (enc_state acc) = Ret (outs, it) /\ it = enc_state rest.
Proof.
  induction cs as [|c cs IH]; intros acc outs rest CL B D; cbn [ssz_due run_ssz] in *.
  - injection D as <- <-. eauto.
  - inversion CL as [|? ? C0 C1]; subst. destruct c as [t v|t v|].
    + destruct C0 as [L T]. cbn zeta in D.
      destruct (negb (is_debug bld) || (sum (map fixed_length acc) =? 0))%bool eqn:E0; [|discriminate]. cbn [andb] in D.
      destruct (Z.ltb_spec (Z.of_nat (length (composite (acc ++ [(false, SSZ t v)])))) (2 ^ 32)) as [BV|]; [|discriminate].
      change (sum (map fixed_length acc)) with (flen acc) in E0.
      unfold ssz_encode_to, sassert. replace (is_debug bld && negb (ssz_is_empty (enc_state acc)))%bool with false.
      2:{ unfold ssz_is_empty, enc_state. cbn [headers_byte_len]. destruct (is_debug bld); [|reflexivity]. cbn [negb orb andb] in *. now rewrite E0. }
      rewrite to_bytes_spec; [|assumption|assumption|].
      * cbn [obind]. change (encode_fixed_size_data ?b) with (encode_part false b).
        rewrite encode_part_spec by assumption. cbn [obind]. now apply IH.
      * pose proof (part_le (false, SSZ t v) (acc ++ [(false, SSZ t v)])) as P.
        rewrite composite_length in BV. cbn [snd] in P. specialize (P ltac:(apply in_or_app; right; now left)). lia.
    + destruct C0 as [L T]. cbn zeta in D. destruct (Z.ltb_spec (Z.of_nat (length (composite (acc ++ [(is_variable_size t, SSZ t v)])))) (2 ^ 32)) as [BV|]; [|discriminate].
      unfold encode_as_container_element. rewrite size_spec by assumption. cbn [obind]. rewrite to_bytes_spec; [|assumption|assumption|].
      * cbn [obind]. replace (opt_none _) with (is_variable_size t) by (destruct (is_variable_size t); reflexivity).
        rewrite encode_part_spec by assumption. cbn [obind]. now apply IH.
      * pose proof (part_le (is_variable_size t, SSZ t v) (acc ++ [(is_variable_size t, SSZ t v)])) as P.
        rewrite composite_length in BV. cbn [snd] in P. specialize (P ltac:(apply in_or_app; right; now left)). lia.
    + destruct (ssz_due (is_debug bld) cs []) as [[outs' rest']|] eqn:D'; [|discriminate]. injection D as <- <-.
      rewrite take_spec by assumption. cbn [obind]. change ssz_new with (enc_state []). destruct (IH [] outs' rest' C1 ltac:(cbn; lia) D') as (it & E & ->).
      rewrite E. cbn [obind]. eauto.
Qed.
Lemma ssz_history_new cs outs rest : Forall call_legal cs -> ssz_due (is_debug bld) cs [] = Some (outs, rest) -> exists it, run_ssz cs ssz_new = Ret (outs, it).
Proof. intros C D. destruct (ssz_history cs [] outs rest C ltac:(cbn; lia) D) as (it & E & _). eauto. Qed.
Lemma ssz_nonempty cs t v cs' outs rest : Forall call_legal (cs ++ SszEncode t v :: cs') -> ssz_due true cs [] = Some (outs, rest) ->
  sum (map fixed_length rest) <> 0 -> is_debug bld = true -> run_ssz (cs ++ SszEncode t v :: cs') ssz_new = Panic.
Proof.
  intros C D NZ DB. change ssz_new with (enc_state []). apply Forall_app in C. destruct C as [C _].
  assert (B0 : Z.of_nat (length (composite [])) < 2 ^ 32) by (cbn; lia). revert B0 D.
  assert (G : forall acc, Z.of_nat (length (composite acc)) < 2 ^ 32 -> ssz_due true cs acc = Some (outs, rest) ->
    run_ssz (cs ++ SszEncode t v :: cs') (enc_state acc) = Panic); [|apply G].
  revert outs. induction cs as [|c cs IH]; intros outs acc B D.
  - cbn [ssz_due] in D. injection D as <- <-. cbn [app run_ssz]. unfold ssz_encode_to, sassert, ssz_is_empty, enc_state. rewrite DB. cbn [headers_byte_len andb].
    change (flen acc) with (sum (map fixed_length acc)). destruct (Z.eqb_spec (sum (map fixed_length acc)) 0); [contradiction|]. reflexivity.
  - inversion C as [|? ? C0 C1]; subst. specialize (IH C1).
    destruct c as [t' v'|t' v'|]; cbn [app ssz_due run_ssz] in *.
    + cbn zeta in D. destruct (_ && _)%bool eqn:E; [|discriminate]. pose proof E as E'. apply andb_true_iff in E'. destruct E' as [E1 E2]. apply Z.ltb_lt in E2.
      pose proof (ssz_history [SszEncode t' v'] acc [] (acc ++ [(false, SSZ t' v')]) (Forall_cons _ C0 (Forall_nil _)) B) as H.
      cbn [ssz_due run_ssz] in H. rewrite DB in H. cbn zeta in H. rewrite E in H. destruct (H eq_refl) as (it & R & ->).
      destruct (ssz_encode_to t' v' (enc_state acc)); cbn [obind] in R |- *; try discriminate. injection R as ->. now apply (IH outs).
    + cbn zeta in D. destruct (_ <? _) eqn:E; [|discriminate]. pose proof E as E2. apply Z.ltb_lt in E2.
      pose proof (ssz_history [SszElement t' v'] acc [] (acc ++ [(is_variable_size t', SSZ t' v')]) (Forall_cons _ C0 (Forall_nil _)) B) as H.
      cbn [ssz_due run_ssz] in H. cbn zeta in H. rewrite E in H. destruct (H eq_refl) as (it & R & ->).
      destruct (encode_as_container_element t' v' (enc_state acc)); cbn [obind] in R |- *; try discriminate. injection R as ->. now apply (IH outs).
    + destruct (ssz_due true cs []) as [[outs' rest']|] eqn:D'; [|discriminate]. injection D as <- <-.
      rewrite take_spec by assumption. cbn [obind]. change ssz_new with (enc_state []). now rewrite (IH outs' [] ltac:(cbn; lia) D').
Qed.
End Ssz.

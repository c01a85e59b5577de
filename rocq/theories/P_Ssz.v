(** Proofs about SSZ. *)

From Verif Require Import Base M_Ssz S_Ssz.
From Verif Require Import P_BigInt3.
Open Scope Z_scope.

Section Ind.
Variable P : sty -> Prop.
Hypothesis Hu : forall w, P (SUint w).
Hypothesis Hb : P SBool.
Hypothesis Ha : forall t n, P t -> P (SArray t n).
Hypothesis Hv : forall t, P t -> P (SVec t).
Hypothesis Hs : forall ts, Forall P ts -> P (SStruct ts).
Fixpoint sty_ind' (t : sty) : P t :=
  match t with
  | SUint w => Hu w
  | SBool => Hb
  | SArray t n => Ha t n (sty_ind' t)
  | SVec t => Hv t (sty_ind' t)
  | SStruct ts => Hs ts ((fix all (ts : list sty) : Forall P ts :=
      match ts with [] => Forall_nil _ | t :: ts' => Forall_cons _ (sty_ind' t) (all ts') end) ts)
  end.
End Ind.

Section Ssz.
Context {bld : build}.

(** ** Little-endian numbers *)
Lemma LE_length n : forall v, length (LE n v) = n.
Proof. induction n as [|n IH]; intros v; [reflexivity|]. cbn [LE length]. now rewrite IH. Qed.
Lemma to_le_LE n : forall v, to_le n v = LE n v.
Proof.
  induction n as [|n IH]; intros v; [reflexivity|]. unfold to_le in *. cbn [to_be LE]. now rewrite rev_app_distr, <- IH.
Qed.
Lemma le_val_cons b l : le_val (b :: l) = b + 256 * le_val l.
Proof. unfold le_val, be_val. cbn [rev]. rewrite fold_left_app. cbn [fold_left]. lia. Qed.
Lemma le_val_LE n : forall v, 0 <= v < 256 ^ Z.of_nat n -> le_val (LE n v) = v.
Proof.
  induction n as [|n IH]; intros v Hv.
  - cbn in *. unfold le_val, be_val. cbn. lia.
  - cbn [LE]. rewrite le_val_cons, IH.
    + pose proof (Z.div_mod v 256 ltac:(lia)). lia.
    + rewrite Nat2Z.inj_succ, Z.pow_succ_r in Hv by lia. split; [apply Z.div_pos; lia|]. apply Z.div_lt_upper_bound; lia.
Qed.
Lemma le_val_bound l : bytes l -> 0 <= le_val l < 256 ^ Z.of_nat (length l).
Proof.
  induction 1 as [|b l Hb Hl IH]; [cbn; lia|]. rewrite le_val_cons. cbn [length]. rewrite Nat2Z.inj_succ, Z.pow_succ_r by lia.
  unfold byte in Hb. lia.
Qed.
Lemma LE_le_val l : bytes l -> LE (length l) (le_val l) = l.
Proof.
  induction 1 as [|b l Hb Hl IH]; [reflexivity|]. cbn [length LE]. rewrite le_val_cons. unfold byte in Hb.
  rewrite (Z.add_comm b), Z.mul_comm. rewrite Z_div_plus_full_l, (Z.div_small b), Z.add_0_r, IH by lia.
  rewrite Z.add_comm, Z.mod_add, Z.mod_small by lia. reflexivity.
Qed.
Lemma LE_bytes n : forall v, bytes (LE n v).
Proof.
  induction n as [|n IH]; intros v; [constructor|]. constructor; [|apply IH]. unfold byte. apply Z.mod_pos_bound. lia.
Qed.

Lemma sassert_ok {A} c (k : outcome A) : c = true -> sassert c k = k.
Proof. intros ->. unfold sassert. now rewrite andb_false_r. Qed.
Lemma plus_ok n : n < 2 ^ 32 -> u32_plus n = Ret n.
Proof. intros H. unfold u32_plus. destruct (Z.ltb_spec n (2 ^ 32)); [reflexivity|lia]. Qed.
Lemma u32_ok n : n < 2 ^ 32 -> u32_unwrap n = Ret n.
Proof. intros H. unfold u32_unwrap. destruct (Z.ltb_spec n (2 ^ 32)); [reflexivity|lia]. Qed.

(** ** Sizes *)
Definition part_size (t : sty) : Z := if is_variable_size t then 4 else fixed_size t.
Lemma legal_all ts : (fix all (ts : list sty) : Prop := match ts with [] => True | t :: ts' => legal t /\ all ts' end) ts <-> Forall legal ts.
Proof. induction ts as [|t ts IH]; [split; constructor|]. split; intros H; [constructor; tauto|inversion H; tauto]. Qed.
Lemma fixed_size_nonneg t : 0 <= fixed_size t.
Proof.
  induction t as [| |t n IH| |ts IH] using sty_ind'; cbn [fixed_size]; try lia; try nia.
  induction IH; cbn [fold_right]; lia.
Qed.
Lemma fixed_size_pos t : legal t -> is_variable_size t = false -> 0 < fixed_size t.
Proof.
  induction t as [w| |t n IH| |ts IH] using sty_ind'; cbn [legal is_variable_size fixed_size]; intros L V; try lia; try discriminate.
  - destruct w; cbn; lia.
  - destruct L as (L & Hn & _). specialize (IH L V). nia.
  - destruct L as (Hne & _ & L). apply legal_all in L. destruct ts as [|t ts]; [contradiction|].
    cbn [existsb] in V. apply orb_false_iff in V. inversion IH as [|? ? I0 I1]; subst. inversion L as [|? ? L0 L1]; subst. cbn [fold_right].
    specialize (I0 L0 (proj1 V)). assert (0 <= fold_right (fun t s => fixed_size t + s) 0 ts); [|lia].
    clear. induction ts as [|t ts IH]; cbn [fold_right]; [lia|]. pose proof (fixed_size_nonneg t). lia.
Qed.
Definition sum_loop := fix sum (ts : list sty) (acc : option Z) : outcome (option Z) :=
         match ts with
         | [] => Ret acc
         | t :: ts' =>
             s <- size t ;;
             match acc, s with
             | Some a, Some b => c <- u32_plus (a + b) ;; sum ts' (Some c)
             | _, _ => sum ts' None
             end
         end.
Lemma size_spec t : legal t -> size t = Ret (if is_variable_size t then None else Some (fixed_size t)).
Proof.
  induction t as [w| |t n IH|t|ts IH] using sty_ind'; cbn [legal is_variable_size fixed_size]; intros L; try reflexivity.
  - destruct L as (L & Hn & B). cbn [size]. rewrite (IH L). cbn [obind]. destruct (is_variable_size t) eqn:V; [reflexivity|].
    pose proof (fixed_size_pos t L V). cbn [fixed_size] in B. rewrite !u32_ok by nia. cbn [obind]. now rewrite u32_ok.
  - destruct L as (_ & B & L). apply legal_all in L.
    change (size (SStruct ts)) with (sum_loop ts (Some 0)).
    assert (G : forall acc, 0 <= acc -> acc + fold_right (fun t s => part_size t + s) 0 ts < 2 ^ 32 ->
      sum_loop ts (Some acc) = Ret (if existsb is_variable_size ts then None else Some (acc + fold_right (fun t s => fixed_size t + s) 0 ts)) /\
      sum_loop ts None = Ret None).
    { clear B. induction ts as [|t ts IHt]; intros acc H0 B; [cbn; now rewrite Z.add_0_r|].
      inversion IH as [|? ? I0 I1]; subst. inversion L as [|? ? L0 L1]; subst. cbn [fold_right existsb] in *.
      assert (0 <= fold_right (fun t s => part_size t + s) 0 ts).
      { clear. induction ts as [|t ts IH]; cbn [fold_right]; [lia|]. unfold part_size at 1. pose proof (fixed_size_nonneg t).
        destruct (is_variable_size t); lia. }
      unfold sum_loop; fold sum_loop. rewrite (I0 L0). cbn [obind]. unfold part_size at 1 in B. pose proof (fixed_size_nonneg t).
      destruct (is_variable_size t) eqn:V.
      - cbn [orb]. destruct (IHt I1 L1 0 ltac:(lia) ltac:(lia)) as [_ E]. now rewrite E.
      - cbn [orb]. rewrite plus_ok by lia. cbn [obind]. destruct (IHt I1 L1 (acc + fixed_size t) ltac:(lia) ltac:(lia)) as [E E'].
        rewrite E, E'. split; [|reflexivity]. f_equal. destruct (existsb is_variable_size ts); [reflexivity|]. f_equal. lia. }
    destruct (G 0 ltac:(lia) B) as [E _]. rewrite E. reflexivity.
Qed.

(** ** Composite *)
Definition vlen (ps : list (bool * list Z)) : Z := sum (map (fun p => Z.of_nat (length (variable_part p))) ps).
Definition flen (ps : list (bool * list Z)) : Z := sum (map fixed_length ps).
Lemma sum_app a b : sum (a ++ b) = sum a + sum b.
Proof. induction a as [|x a IH]; cbn [app sum fold_right] in *; [reflexivity|]. unfold sum in *. lia. Qed.
Lemma vlen_app a b : vlen (a ++ b) = vlen a + vlen b. Proof. unfold vlen. now rewrite map_app, sum_app. Qed.
Lemma flen_app a b : flen (a ++ b) = flen a + flen b. Proof. unfold flen. now rewrite map_app, sum_app. Qed.
Lemma vlen_cons p ps : vlen (p :: ps) = Z.of_nat (length (variable_part p)) + vlen ps. Proof. reflexivity. Qed.
Lemma flen_cons p ps : flen (p :: ps) = fixed_length p + flen ps. Proof. reflexivity. Qed.
Lemma vlen_nonneg ps : 0 <= vlen ps. Proof. induction ps as [|p ps IH]; [cbn; lia|]. rewrite vlen_cons. lia. Qed.
Lemma flen_nonneg ps : 0 <= flen ps.
Proof. induction ps as [|p ps IH]; [cbn; lia|]. rewrite flen_cons. unfold fixed_length. destruct (fst p); lia. Qed.
Lemma concat_vlen ps : Z.of_nat (length (concat (map variable_part ps))) = vlen ps.
Proof. induction ps as [|p ps IH]; [reflexivity|]. cbn [map concat]. rewrite app_length, vlen_cons. lia. Qed.
Lemma fixed_parts_length ps : forall o, Z.of_nat (length (fixed_parts o ps)) = flen ps.
Proof.
  induction ps as [|p ps IH]; intros o; [reflexivity|]. cbn [fixed_parts]. rewrite app_length, flen_cons, Nat2Z.inj_add, IH.
  unfold fixed_length. destruct (fst p); [rewrite LE_length|]; lia.
Qed.
Lemma composite_length ps : Z.of_nat (length (composite ps)) = flen ps + vlen ps.
Proof. unfold composite. rewrite app_length, Nat2Z.inj_add, fixed_parts_length, concat_vlen. reflexivity. Qed.
Lemma fixed_parts_app a b : forall o, fixed_parts o (a ++ b) = fixed_parts o a ++ fixed_parts (o + vlen a) b.
Proof.
  induction a as [|p a IH]; intros o; cbn [app fixed_parts]; [now rewrite Z.add_0_r|].
  rewrite IH, vlen_cons, <- app_assoc. do 3 f_equal. lia.
Qed.
Lemma part_le p ps : In p ps -> Z.of_nat (length (snd p)) <= flen ps + vlen ps.
Proof.
  intros H. apply in_split in H. destruct H as (a & b & ->). rewrite vlen_app, flen_app, vlen_cons, flen_cons.
  pose proof (vlen_nonneg a). pose proof (vlen_nonneg b). pose proof (flen_nonneg a). pose proof (flen_nonneg b).
  unfold fixed_length, variable_part. destruct (fst p); lia.
Qed.

(** ** The encoder *)
Fixpoint rel_headers (o : Z) (ps : list (bool * list Z)) : list HeaderType :=
  match ps with
  | [] => []
  | p :: ps' => (if fst p then VariableSizeObjectDataRelativeOffset o else FixedSizeObjectData (snd p)) ::
                rel_headers (o + Z.of_nat (length (variable_part p))) ps'
  end.
Definition enc_state (ps : list (bool * list Z)) : SszEncodingItem :=
  {| headers := rel_headers 0 ps; headers_byte_len := flen ps; encoded_variable_size_objects := concat (map variable_part ps) |}.
Lemma rel_headers_app a p : forall o, rel_headers o (a ++ [p]) =
  rel_headers o a ++ [if fst p then VariableSizeObjectDataRelativeOffset (o + vlen a) else FixedSizeObjectData (snd p)].
Proof.
  induction a as [|q a IH]; intros o; cbn [app rel_headers]; [now rewrite Z.add_0_r|]. rewrite IH, vlen_cons. cbn [app].
  now rewrite Z.add_assoc.
Qed.
Lemma encode_part_spec ps v bs : Z.of_nat (length (composite (ps ++ [(v, bs)]))) < 2 ^ 32 ->
  encode_part v bs (enc_state ps) = Ret (enc_state (ps ++ [(v, bs)])).
Proof.
  rewrite composite_length, vlen_app, flen_app, vlen_cons, flen_cons. change (vlen []) with 0. change (flen []) with 0.
  unfold fixed_length, variable_part. cbn [fst snd]. intros H. pose proof (vlen_nonneg ps). pose proof (flen_nonneg ps).
  unfold enc_state. rewrite rel_headers_app, map_app, concat_app. cbn [map concat fst snd]. rewrite flen_app, flen_cons.
  change (flen []) with 0. unfold fixed_length, variable_part. cbn [fst snd].
  unfold encode_part, encode_variable_size_data, encode_fixed_size_data.
  cbn [headers headers_byte_len encoded_variable_size_objects]. destruct v; cbv iota in H; cbn [length] in H.
  - rewrite concat_vlen. change BYTES_PER_LENGTH_OFFSET with 4. rewrite !u32_ok by lia. cbn [obind].
    now rewrite app_nil_r, Z.add_0_r, Z.add_0_l.
  - rewrite u32_ok by lia. cbn [obind]. rewrite u32_ok by lia. cbn [obind]. now rewrite !app_nil_r, Z.add_0_r.
Qed.
Lemma build_headers_spec len ps : forall o data, len + o + vlen ps < 2 ^ 32 ->
  build_headers len (rel_headers o ps) data = Ret (data ++ fixed_parts (len + o) ps).
Proof.
  induction ps as [|p ps IH]; intros o data H; cbn [rel_headers build_headers fixed_parts]; [now rewrite app_nil_r|].
  rewrite vlen_cons in H. pose proof (vlen_nonneg ps). destruct (fst p) eqn:V; cbn [build_headers].
  - rewrite u32_ok by lia. cbn [obind]. rewrite to_le_LE, IH by lia. rewrite <- app_assoc, (Z.add_comm o len). do 3 f_equal. f_equal. lia.
  - rewrite IH by lia. rewrite <- app_assoc. do 4 f_equal. lia.
Qed.
Lemma take_spec ps : Z.of_nat (length (composite ps)) < 2 ^ 32 -> ssz_take_data (enc_state ps) = Ret (composite ps, ssz_new).
Proof.
  rewrite composite_length. intros H. unfold ssz_take_data, enc_state. cbn [headers headers_byte_len encoded_variable_size_objects].
  rewrite build_headers_spec by lia. cbn [obind app]. rewrite Z.add_0_r. reflexivity.
Qed.
Lemma composite_prefix a b : Z.of_nat (length (composite a)) <= Z.of_nat (length (composite (a ++ b))).
Proof.
  rewrite !composite_length, vlen_app, flen_app. pose proof (vlen_nonneg b). pose proof (flen_nonneg b). lia.
Qed.
Lemma encode_values_spec f t v l : Forall (fun x => f x = Ret (SSZ t x)) l -> forall ps,
  Z.of_nat (length (composite (ps ++ map (fun x => (v, SSZ t x)) l))) < 2 ^ 32 ->
  encode_values f v l (enc_state ps) = Ret (enc_state (ps ++ map (fun x => (v, SSZ t x)) l)).
Proof.
  induction 1 as [|x l Hx Hl IH]; intros ps H; cbn [map encode_values] in *; [now rewrite app_nil_r|].
  rewrite Hx. cbn [obind]. assert (E : ps ++ (v, SSZ t x) :: map (fun x => (v, SSZ t x)) l = (ps ++ [(v, SSZ t x)]) ++ map (fun x => (v, SSZ t x)) l)
    by now rewrite <- app_assoc.
  rewrite E in *. rewrite encode_part_spec.
  - cbn [obind]. now apply IH.
  - pose proof (composite_prefix (ps ++ [(v, SSZ t x)]) (map (fun x => (v, SSZ t x)) l)). lia.
Qed.

Definition fields_parts := fix parts (ts : list sty) (l : list sval) : list (bool * list Z) :=
  match ts, l with t :: ts', v :: l' => (is_variable_size t, SSZ t v) :: parts ts' l' | _, _ => [] end.
Definition fields_typed := fix fields (ts : list sty) (l : list sval) : Prop :=
         match ts, l with
         | [], [] => True
         | t :: ts', v :: l' => has_type t v /\ fields ts' l'
         | _, _ => False
         end.
Definition fields_encode := fix fields (ts : list sty) (l : list sval) (it : SszEncodingItem) : outcome SszEncodingItem :=
               match ts, l with
               | [], [] => Ret it
               | t :: ts', v :: l' =>
                   s <- size t ;; bs <- to_bytes t v ;; it <- encode_part (opt_none s) bs it ;; fields ts' l' it
               | _, _ => Panic
               end.

(** an element is never longer than the whole *)
Lemma to_bytes_spec t : forall v, legal t -> has_type t v -> Z.of_nat (length (SSZ t v)) < 2 ^ 32 -> to_bytes t v = Ret (SSZ t v).
Proof.
  assert (NIL : ssz_new = enc_state []) by reflexivity.
  induction t as [w| |t n IH|t IH|ts IH] using sty_ind'; intros v L T H; destruct v as [k|b|l]; try contradiction.
  - cbn. now rewrite to_le_LE.
  - reflexivity.
  - cbn [has_type] in T. destruct T as [Hn T]. destruct L as (L & _). cbn [to_bytes]. rewrite (proj2 (Nat.eqb_eq _ _) Hn). cbn [oassert].
    rewrite size_spec by assumption. cbn [obind]. cbn [SSZ] in *.
    replace (opt_none _) with (is_variable_size t) by (destruct (is_variable_size t); reflexivity).
    rewrite NIL, (encode_values_spec (to_bytes t) t).
    + cbn [obind app]. rewrite take_spec by assumption. reflexivity.
    + apply Forall_forall. intros x Hx. apply IH; [assumption|exact (proj1 (Forall_forall _ _) T x Hx)|].
      pose proof (part_le (is_variable_size t, SSZ t x) (map (fun v => (is_variable_size t, SSZ t v)) l)) as P. rewrite composite_length in H.
      cbn [snd] in P. specialize (P ltac:(apply in_map_iff; eauto)). lia.
    + exact H.
  - cbn [has_type] in T. cbn [legal] in L. cbn [to_bytes].
    rewrite size_spec by assumption. cbn [obind]. cbn [SSZ] in *.
    replace (opt_none _) with (is_variable_size t) by (destruct (is_variable_size t); reflexivity).
    rewrite NIL, (encode_values_spec (to_bytes t) t).
    + cbn [obind app]. rewrite take_spec by assumption. reflexivity.
    + apply Forall_forall. intros x Hx. apply IH; [assumption|exact (proj1 (Forall_forall _ _) T x Hx)|].
      pose proof (part_le (is_variable_size t, SSZ t x) (map (fun v => (is_variable_size t, SSZ t v)) l)) as P. rewrite composite_length in H.
      cbn [snd] in P. specialize (P ltac:(apply in_map_iff; eauto)). lia.
    + exact H.
  - destruct L as (_ & _ & L). apply legal_all in L. change (has_type (SStruct ts) (VSeq l)) with (fields_typed ts l) in T.
    change (SSZ (SStruct ts) (VSeq l)) with (composite (fields_parts ts l)) in *.
    change (to_bytes (SStruct ts) (VSeq l)) with (it <- fields_encode ts l ssz_new ;; '(data, _) <- ssz_take_data it ;; Ret data).
    assert (G : forall ts l ps, Forall (fun t => forall v, legal t -> has_type t v -> Z.of_nat (length (SSZ t v)) < 2 ^ 32 -> to_bytes t v = Ret (SSZ t v)) ts ->
      Forall legal ts -> fields_typed ts l -> Z.of_nat (length (composite (ps ++ fields_parts ts l))) < 2 ^ 32 ->
      fields_encode ts l (enc_state ps) = Ret (enc_state (ps ++ fields_parts ts l))).
    { clear. induction ts as [|t ts IHt]; intros l ps I L T H; destruct l as [|v l]; try contradiction.
      - cbn. now rewrite app_nil_r.
      - inversion I as [|? ? I0 I1]; subst. inversion L as [|? ? L0 L1]; subst. destruct T as [T0 T1].
        cbn [fields_encode]. cbn [fields_parts] in *.
        assert (E : ps ++ (is_variable_size t, SSZ t v) :: fields_parts ts l = (ps ++ [(is_variable_size t, SSZ t v)]) ++ fields_parts ts l)
          by now rewrite <- app_assoc.
        rewrite E in *. rewrite size_spec by assumption. cbn [obind].
        replace (opt_none _) with (is_variable_size t) by (destruct (is_variable_size t); reflexivity).
        pose proof (composite_prefix (ps ++ [(is_variable_size t, SSZ t v)]) (fields_parts ts l)) as P1.
        rewrite I0; [|assumption|assumption|].
        + cbn [obind]. rewrite encode_part_spec by lia. cbn [obind]. now apply IHt.
        + pose proof (part_le (is_variable_size t, SSZ t v) (ps ++ [(is_variable_size t, SSZ t v)])) as P.
          rewrite composite_length in P1. cbn [snd] in P. specialize (P ltac:(apply in_or_app; right; now left)). lia. }
    rewrite NIL, G by assumption. cbn [obind app]. rewrite take_spec by assumption. reflexivity.
Qed.
End Ssz.

(** SEC 1 points and P1363 signatures as text. *)

From Coq Require Import Lia.
From Verif Require Import Base M_Codec M_BigInt M_BigText M_Modular M_Curve M_Ecdsa M_Encoding
  S_BigInt S_Codec S_Curve S_EcModel S_Ecdsa S_Recover S_Encoding
  P_BigInt1 P_BigInt3 P_BigInt4 P_BigApi P_Codec P_NumTheory P_Modular P_Curve P_EcModel P_Order P_EcLaws P_Ecdsa1 P_Ecdsa2 P_Encoding.
From Verif Require P_Ecdsa3.
Open Scope Z_scope.

Section Proofs.
Context {cfg : digit_cfg}.

Section Params.
Context (D : params) (HD : code_params D).
Local Notation E := (curve_val (d_curve D)).
Local Notation n := (order D).
Local Notation p := (ep E).
Local Notation L := (nbytes n).
Local Notation G := (pt_val (d_base D)).
Local Notation "k # P" := (emul E k P) (at level 35, right associativity).
Let OKD : params_ok (params_val D). Proof. apply HD. Qed.
Let OK : curve_ok E. Proof. apply OKD. Qed.
Let Hn : prime n. Proof. apply OKD. Qed.
Let N2 : 2 < n. Proof. apply OKD. Qed.
Let Wn : wf (d_order D). Proof. apply HD. Qed.
Let HC : code_curve (d_curve D). Proof. exact (params_curve D HD). Qed.
Let Hp : prime p. Proof. apply OK. Qed.
Let P3 : 3 < p. Proof. apply OK. Qed.
Let Wp : wf (c_p (d_curve D)). Proof. apply HC. Qed.

Lemma L_Z : Z.of_nat L = (nbits n + 7) / 8.
Proof. unfold nbytes. rewrite Z2Nat.id; [reflexivity|]. apply Z.div_pos; [pose proof (nbits_pos D); lia|lia]. Qed.
Lemma L_pos : (0 < L)%nat.
Proof. pose proof L_Z. pose proof (nbits_pos D). pose proof (Z.div_le_lower_bound (nbits n + 7) 8 1). lia. Qed.
Lemma n_bytes : n < 256 ^ Z.of_nat L.
Proof.
  rewrite L_Z. change 256 with (2 ^ 8). pose proof (nbits_pos D). assert (0 <= (nbits n + 7) / 8) by (apply Z.div_pos; lia). rewrite <- Z.pow_mul_r by lia.
  eapply Z.lt_le_trans; [apply (n_lt D HD)|]. apply Z.pow_le_mono_r; [lia|]. pose proof (Z.div_mod (nbits n + 7) 8 ltac:(lia)) as K. pose proof (Z.mod_pos_bound (nbits n + 7) 8 ltac:(lia)). lia.
Qed.
Lemma byte_len_n : byte_len (d_order D) = Ret (Z.of_nat L).
Proof.
  rewrite byte_len_spec by assumption. f_equal. rewrite L_Z. f_equal. f_equal. unfold blen, nbits. change (bi_val (d_order D)) with n. rewrite Z.abs_eq by lia.
  destruct (Z.eqb_spec n 0); [lia|reflexivity].
Qed.

(** * Validation *)
Lemma validate_valid P : wf_point P -> valid_public (params_val D) (bi_val (px P)) (bi_val (py P)) -> validate_point D P = Ret true.
Proof.
  intros WP V. destruct (valid_code D HD P WP V) as (HP & d & Hd & EP).
  destruct (validate_full D P HC Wn) as (b & -> & HB); [unfold order in N2; lia|exact WP| |].
  { intros _ _ i Hi _. rewrite EP, <- emul_mul; [|exact OK|apply OKD|apply Z.pow_nonneg; lia|lia]. apply (kG_no2 (params_val D) OKD). pose proof (Z.pow_nonneg 2 i). nia. }
  apply HB in V. now rewrite V.
Qed.

(** * The compressed form *)
Definition decompress (odd : bool) (x : bigint) : outcome (result point_decoding_error point) :=
    let C := d_curve D in
    t1 <- bi_mul x x ;;
    t2 <- bi_mul t1 x ;;
    t3 <- bi_mul (c_a C) x ;;
    t4 <- bi_add t2 t3 ;;
    t5 <- bi_add t4 (c_b C) ;;
    y_squared <- modulo t5 (c_p C) ;;
    roots <- sqrt y_squared (c_p C) ;;
    match roots with
    | None => Ret (Err PDYNotFound)
    | Some (root1, root2) =>
        y <- (if negb odd
              then e <- is_even root1 ;; Ret (if (e : bool) then root1 else root2)
              else o <- is_odd root1 ;; Ret (if (o : bool) then root1 else root2)) ;;
        checked_point D (mkPoint x y)
    end.
Definition rhs (x : Z) : Z := (x * x * x + ea E * x + eb E) mod p.
Lemma decompress_spec odd x : wf x -> rhs (bi_val x) <> 0 ->
  (exists y, wf y /\ 0 < bi_val y < p /\ (bi_val y * bi_val y) mod p = rhs (bi_val x) /\ Z.odd (bi_val y) = odd /\
     decompress odd x = checked_point D (mkPoint x y)) \/
  (decompress odd x = Ret (Err PDYNotFound) /\ forall y, (y * y) mod p <> rhs (bi_val x)).
Proof.
  intros Wx R0. unfold decompress. assert (PP : 0 < p) by lia.
  ret (bi_mul_spec x x Wx Wx) t1 Wt1 Vt1. ret (bi_mul_spec t1 x Wt1 Wx) t2 Wt2 Vt2.
  assert (Wa : wf (c_a (d_curve D))) by apply HC. assert (Wb : wf (c_b (d_curve D))) by apply HC.
  ret (bi_mul_spec (c_a (d_curve D)) x Wa Wx) t3 Wt3 Vt3. ret (bi_add_spec t2 t3 Wt2 Wt3) t4 Wt4 Vt4. ret (bi_add_spec t4 (c_b (d_curve D)) Wt4 Wb) t5 Wt5 Vt5.
  destruct (modulo_spec t5 (c_p (d_curve D)) Wt5 Wp) as (ys & -> & Wys & Vys). { exact PP. } cbn [obind].
  change (bi_val (c_p (d_curve D))) with p in Vys.
  assert (Vys' : bi_val ys = rhs (bi_val x)). { rewrite Vys, Vt5, Vt4, Vt3, Vt2, Vt1. reflexivity. }
  assert (YS : 0 < bi_val ys < p). { pose proof (Z.mod_pos_bound (bi_val t5) p PP) as K. rewrite <- Vys in K. clear - K R0 Vys'. lia. }
  clear Vt1 Vt2 Vt3 Vt4 Vt5 Vys.
  assert (P2 : 2 < bi_val (c_p (d_curve D))) by (change (bi_val (c_p (d_curve D))) with p; lia).
  destruct (sqrt_spec ys (c_p (d_curve D)) Wys Wp Hp P2 YS) as [(y1 & y2 & EQ & W1 & W2 & R1 & R2 & R3)|[EQ HN]].
  - left. change (bi_val (c_p (d_curve D))) with p in *. rewrite EQ. cbn [obind]. rewrite Vys' in R3.
    assert (PO : Z.odd p = true).
    { destruct (Z.odd p) eqn:EO; [reflexivity|]. exfalso. rewrite <- Z.negb_even in EO. apply negb_false_iff in EO. apply Z.even_spec in EO. destruct EO as [q Hq].
      destruct Hp as [_ RP]. specialize (RP 2 ltac:(lia)). destruct RP as [_ _ RP]. specialize (RP 2 (Z.divide_refl 2) ltac:(exists q; lia)). apply Z.divide_1_r in RP. lia. }
    assert (S2 : 0 < bi_val y2 < p /\ (bi_val y2 * bi_val y2) mod p = rhs (bi_val x) /\ Z.odd (bi_val y2) = negb (Z.odd (bi_val y1))).
    { split; [lia|]. split.
      - rewrite R2, <- R3. replace ((p - bi_val y1) * (p - bi_val y1)) with (bi_val y1 * bi_val y1 + (p - 2 * bi_val y1) * p) by ring. apply Z_mod_plus_full.
      - rewrite R2, Z.odd_sub, PO. reflexivity. }
    rewrite is_even_spec, is_odd_spec by assumption. rewrite <- Z.negb_odd.
    destruct odd, (Z.odd (bi_val y1)) eqn:O1; cbn [negb obind] in *.
    + exists y1. auto.
    + exists y2. split; [exact W2|]. destruct S2 as (? & ? & ?). auto.
    + exists y2. split; [exact W2|]. destruct S2 as (? & ? & ?). auto.
    + exists y1. auto.
  - right. rewrite EQ. cbn [obind]. split; [reflexivity|]. intros y. rewrite <- Vys'. apply HN.
Qed.

Lemma decompress_zero odd x : wf x -> rhs (bi_val x) = 0 -> decompress odd x = Panic.
Proof.
  intros Wx R0. unfold decompress. assert (PP : 0 < p) by lia.
  ret (bi_mul_spec x x Wx Wx) t1 Wt1 Vt1. ret (bi_mul_spec t1 x Wt1 Wx) t2 Wt2 Vt2.
  assert (Wa : wf (c_a (d_curve D))) by apply HC. assert (Wb : wf (c_b (d_curve D))) by apply HC.
  ret (bi_mul_spec (c_a (d_curve D)) x Wa Wx) t3 Wt3 Vt3. ret (bi_add_spec t2 t3 Wt2 Wt3) t4 Wt4 Vt4. ret (bi_add_spec t4 (c_b (d_curve D)) Wt4 Wb) t5 Wt5 Vt5.
  destruct (modulo_spec t5 (c_p (d_curve D)) Wt5 Wp) as (ys & -> & Wys & Vys). { exact PP. } cbn [obind].
  rewrite (P_Ecdsa3.sqrt_zero D HD x); [reflexivity|exact Wys|exact Wp|]. rewrite Vys, Vt5, Vt4, Vt3, Vt2, Vt1. exact R0.
Qed.

(** * Decoding by cases *)
Lemma bytes_cons b s : bytes (b :: s) -> byte b /\ bytes s.
Proof. intros H. inversion H. auto. Qed.
Lemma skipn_bytes k l : bytes l -> bytes (skipn k l).
Proof. intros H. apply Forall_forall. intros x Hx. eapply Forall_forall in H; [exact H|]. rewrite <- (firstn_skipn k l). apply in_or_app. now right. Qed.
Lemma firstn_bytes k l : bytes l -> bytes (firstn k l).
Proof. intros H. apply Forall_forall. intros x Hx. eapply Forall_forall in H; [exact H|]. rewrite <- (firstn_skipn k l). apply in_or_app. now left. Qed.
Lemma hex_len : Z.to_nat (Z.of_nat L * 2) = (2 * L)%nat. Proof. lia. Qed.

Lemma slice_ret {A} (l : list A) i j : (i <= j)%nat -> (j <= length l)%nat -> slice l i j = Ret (firstn (j - i) (skipn i l)).
Proof. intros H1 H2. unfold slice. apply Nat.leb_le in H1, H2. now rewrite H1, H2. Qed.

Lemma decode_short data : (length data < 2 * L + 2)%nat -> decode_point data D = Ret (Err PDInvalidFormat).
Proof. intros H. unfold decode_point. cbv zeta. rewrite byte_len_n. cbn [obind]. rewrite hex_len. apply Nat.ltb_lt in H. now rewrite H. Qed.
Lemma decode_cases c0 c1 s : (2 * L <= length s)%nat ->
  decode_point (c0 :: c1 :: s) D =
    if (c0 =? 48) && (c1 =? 52) then
      if Nat.eqb (length s) (2 * L * 2) then
        x <-? hex_or PDInvalidX (firstn (2 * L) s) ;; y <-? hex_or PDInvalidY (skipn (2 * L) s) ;; checked_point D (mkPoint x y)
      else Ret (Err PDInvalidFormat)
    else if (c0 =? 48) && ((c1 =? 50) || (c1 =? 51)) then x <-? hex_or PDInvalidX s ;; decompress (c1 =? 51) x
    else Ret (Err PDInvalidFormat).
Proof.
  intros HL. unfold decode_point. cbv zeta. rewrite byte_len_n. cbn [obind]. rewrite hex_len.
  destruct (Nat.ltb_spec (length (c0 :: c1 :: s)) (2 * L + 2)) as [H|_]; [cbn [length] in H; lia|].
  unfold slice_to. rewrite slice_ret by (cbn [length]; lia). cbn [obind skipn Nat.sub firstn prefix_is].
  destruct ((c0 =? 48) && (c1 =? 52)) eqn:E4.
  - replace (length (c0 :: c1 :: s) =? 2 * L * 2 + 2)%nat with (length s =? 2 * L * 2)%nat
      by (cbn [length]; destruct (Nat.eqb_spec (length s) (2 * L * 2)), (Nat.eqb_spec (S (S (length s))) (2 * L * 2 + 2)); try reflexivity; lia).
    destruct (Nat.eqb_spec (length s) (2 * L * 2)) as [EL|NL]; cbn [negb]; [|reflexivity].
    rewrite slice_ret by (cbn [length]; lia). cbn [obind]. replace (2 * L + 2 - 2)%nat with (2 * L)%nat by lia. cbn [skipn].
    unfold rbind at 1 3. destruct (hex_or PDInvalidX (firstn (2 * L) s)) as [[x|]| |]; try reflexivity.
    unfold slice_from. rewrite slice_ret by (cbn [length]; lia). cbn [obind]. replace (2 * L + 2)%nat with (S (S (2 * L))) by lia. cbn [skipn].
    replace (length (c0 :: c1 :: s) - S (S (2 * L)))%nat with (length (skipn (2 * L) s)) by (rewrite skipn_length; cbn [length]; lia). rewrite firstn_all. reflexivity.
  - destruct (Z.eqb_spec c0 48) as [->|]; cbn [andb negb]; [|reflexivity].
    unfold slice_from. rewrite slice_ret by (cbn [length]; lia). cbn [obind skipn].
    replace (length (48%Z :: c1 :: s) - 2)%nat with (length s) by (cbn [length]; lia). rewrite firstn_all.
    destruct (Z.eqb_spec c1 50) as [->|N1]; cbn [andb negb orb Z.eqb].
    + reflexivity.
    + destruct (Z.eqb_spec c1 51) as [->|N2']; cbn [negb orb]; reflexivity.
Qed.

(** * Characterisation of decoding *)
Definition unc (data : list Z) (x y : Z) : Prop := sec1 L x y false data.
Lemma valid_range x y : valid_public (params_val D) x y -> 0 <= x < p /\ 0 <= y < p /\ (y * y) mod p = rhs x.
Proof. intros (H1 & H2 & H3 & _). auto. Qed.
Lemma nt2 : no_order_two D -> no_two_torsion E.
Proof. intros [H|H]; [|exact H]. exact (cofactor1_no2 (params_val D) OKD H). Qed.
Lemma rhs_nz x : no_order_two D -> rhs x <> 0.
Proof.
  intros NT K. assert (PP : 0 < p) by lia. apply (nt2 NT (Some (x mod p, 0))); [|now exists (x mod p)]. pose proof (Z.mod_pos_bound x p PP) as M. split; [exact M|]. split; [exact (conj (Z.le_refl 0) (Z.le_lt_trans _ _ _ (proj1 M) (proj2 M)))|].
  change (0 * 0) with 0. rewrite Z.mod_0_l by lia. symmetry. rewrite <- K. unfold rhs.
  rewrite <- (Z.add_mod_idemp_l (x * x * x + ea E * x)) by lia. rewrite <- (Z.add_mod_idemp_l (x mod p * (x mod p) * (x mod p) + ea E * (x mod p))) by lia.
  f_equal. f_equal. rewrite (Z.add_mod (x * x * x)) by lia. rewrite (Z.add_mod (x mod p * (x mod p) * (x mod p))) by lia. f_equal. f_equal.
  - rewrite (Z.mul_mod (x * x)) by lia. rewrite (Z.mul_mod x x) by lia. rewrite (Z.mul_mod (x mod p * (x mod p))) by lia. rewrite Z.mod_mod by lia. reflexivity.
  - now rewrite Z.mul_mod_idemp_r by lia.
Qed.

Definition good (data : list Z) (x y : Z) : Prop := valid_public (params_val D) x y /\ (sec1 L x y false data \/ loose_compressed L x y data).

Lemma checked_cases P : wf_point P ->
  let x := bi_val (px P) in let y := bi_val (py P) in
  (d_cofactor D <> 1 /\ on_curve E (Some (x, y)) /\ doubles_two E n (Some (x, y)) /\ checked_point D P = Panic) \/
  ((d_cofactor D <> 1 -> on_curve E (Some (x, y)) -> ~ doubles_two E n (Some (x, y))) /\
   exists r, checked_point D P = Ret r /\ (r = Ok P /\ valid_public (params_val D) x y \/ (r = Err PDInvalidPoint /\ ~ valid_public (params_val D) x y))).
Proof.
  intros WP x y.
  assert (PV : on_curve E (Some (x, y)) -> pt_val P = Some (x, y)).
  { intros (Hx & Hy & O). unfold pt_val. fold x y. destruct ((x =? 0) && (y =? 0)) eqn:EZ; [|reflexivity]. exfalso.
    apply andb_true_iff in EZ as [E0 E1]. apply Z.eqb_eq in E0, E1. rewrite E0, E1 in O. destruct HD as (_ & _ & B0). apply B0. rewrite Z.mod_0_l in O by lia.
    symmetry in O. etransitivity; [|exact O]. f_equal. ring. }
  assert (CK : checked_point D P = match public_key_new P D with Ret (Some _) => Ret (Ok P) | Ret None => Ret (Err PDInvalidPoint) | Panic => Panic | OutOfFuel => OutOfFuel end).
  { unfold checked_point, public_key_new. destruct (validate_point D P) as [[|]| |]; reflexivity. }
  destruct (public_key_cases D HD P WP) as [(H1 & H2 & H3 & H4)|(H1 & b & H2 & H3)].
  - left. rewrite CK, H4. split; [exact H1|].
    assert (ES : pt_val P = Some (x, y)).
    { destruct (pt_val P) as [[x' y']|] eqn:EV. { destruct (pt_some P x' y' WP EV) as [<- <-]. reflexivity. }
      destruct H3 as (i & _ & _ & T). rewrite emul_None in T. destruct T as [? T]. discriminate. }
    rewrite ES in H2, H3. auto.
  - right. split. { intros C1 HO. specialize (H1 C1). rewrite (PV HO) in H1. auto. }
    rewrite CK, H2. destruct b; (eexists; split; [reflexivity|]); [left|right]; (split; [reflexivity|]); [now apply H3|]. intros K. apply H3 in K. discriminate.
Qed.
Lemma app_cut {A} (a b s : list A) k : s = a ++ b -> length a = k -> firstn k s = a /\ skipn k s = b.
Proof. intros -> <-. split; [apply firstn_app_2_0 || (rewrite firstn_app, firstn_all, Nat.sub_diag; cbn; apply app_nil_r)|]. rewrite skipn_app, skipn_all, Nat.sub_diag. reflexivity. Qed.

Lemma loose_inv x y c0 c1 s : loose_compressed L x y (c0 :: c1 :: s) -> 0 <= x -> c0 = 48 /\ c1 = (if Z.odd y then 51 else 50) /\ signed_hex L x s.
Proof.
  intros H Hx. inversion H; subst; split; try reflexivity; split; try reflexivity.
  - eapply hex_plain; eauto.
  - eapply hex_plus; eauto.
  - eapply hex_minus; [eassumption|]. exact H4.
Qed.
Lemma loose_make x y s : signed_hex L x s -> 0 <= x -> loose_compressed L x y (48 :: (if Z.odd y then 51 else 50) :: s).
Proof.
  intros H Hx. destruct H as [k xs Hk H|k xs Hk H|k xs Hk H].
  - now apply loose_plain with k.
  - now apply loose_plus with k.
  - assert (x = 0) by (apply hex_number_range in H; lia). subst x. now apply loose_minus with k.
Qed.
Lemma loose_fun x x' s : signed_hex L x s -> signed_hex L x' s -> x = x'.
Proof.
  intros H G. destruct H as [k xs Hk H|k xs Hk H|k xs Hk H]; inversion G as [k' xs' Hk' H'|k' xs' Hk' H'|k' xs' Hk' H']; subst.
  - destruct H as (A1 & vs & A2 & <-), H' as (B1 & ws & B2 & <-). f_equal. eapply digits_of_fun; eauto.
  - exfalso. destruct H as (_ & vs & A2 & _). now apply not_sign_digit in A2.
  - exfalso. destruct H as (_ & vs & A2 & _). now apply not_sign_digit in A2.
  - exfalso. destruct H' as (_ & vs & A2 & _). now apply not_sign_digit in A2.
  - destruct H as (A1 & vs & A2 & <-), H' as (B1 & ws & B2 & <-). f_equal. eapply digits_of_fun; eauto.
  - exfalso. destruct H' as (_ & vs & A2 & _). now apply not_sign_digit in A2.
  - destruct H as (A1 & vs & A2 & E1), H' as (B1 & ws & B2 & E2). pose proof (digits_of_fun _ _ _ _ A2 B2). subst. lia.
Qed.

Definition decoded (data : list Z) (o : outcome (result point_decoding_error point)) : Prop :=
  (sec1_panics (params_val D) data /\ o = Panic) \/
  (~ sec1_panics (params_val D) data /\ exists r, o = Ret r /\
    match r with Ok P => wf_point P /\ good data (bi_val (px P)) (bi_val (py P)) | Err _ => forall x y, ~ good data x y end).
Lemma decoded_none data e : (forall x y, ~ (sec1 L x y false data \/ loose_compressed L x y data)) ->
  (forall c s x, (c = 50 \/ c = 51) -> data = 48 :: c :: s -> ~ signed_hex L x s) -> decoded data (Ret (Err e)).
Proof.
  intros N1 N2'. right. split.
  - intros [(c & s & x & Hc & Hd & Hs & _)|(_ & x & y & _ & H & _)]; [|eapply N1; eauto]. eapply N2'; eauto.
  - eexists. split; [reflexivity|]. intros x y (_ & H). eapply N1; eauto.
Qed.
Lemma loose_signed x y c0 c1 s : loose_compressed L x y (c0 :: c1 :: s) -> c0 = 48 /\ c1 = (if Z.odd y then 51 else 50) /\ signed_hex L x s.
Proof.
  intros H. inversion H; subst; split; try reflexivity; split; try reflexivity.
  - eapply hex_plain; eauto.
  - eapply hex_plus; eauto.
  - eapply hex_minus; [eassumption|]. exact H4.
Qed.
Lemma on_pos x y : on_curve E (Some (x, y)) -> 0 <= x < p /\ 0 <= y < p /\ (y * y) mod p = rhs x.
Proof. intros H. exact H. Qed.

Lemma decode_all data : bytes data -> decoded data (decode_point data D).
Proof.
  intros Hb. destruct (Nat.lt_ge_cases (length data) (2 * L + 2)) as [SH|LG].
  { rewrite decode_short by assumption. apply decoded_none.
    - intros x y [H|H].
      + inversion H as [xs ys (L1 & _) (L2 & _)|]; subst. cbn [length] in SH. rewrite app_length in SH. lia.
      + inversion H as [k xs K (L1 & _)|k xs K (L1 & _)|k xs K (L1 & _)]; subst; cbn [length] in SH; lia.
    - intros c s x _ -> H. inversion H as [k xs K (L1 & _)|k xs K (L1 & _)|k xs K (L1 & _)]; subst; cbn [length] in SH; lia. }
  destruct data as [|c0 [|c1 s]]; [cbn in LG; lia|cbn in LG; lia|]. apply bytes_cons in Hb as [_ Hb]. apply bytes_cons in Hb as [_ Hb].
  rewrite decode_cases by (cbn [length] in LG; lia).
  destruct ((c0 =? 48) && (c1 =? 52)) eqn:E4.
  - apply andb_true_iff in E4 as [E0 E1]. apply Z.eqb_eq in E0, E1. subst c0 c1.
    assert (NL : forall x y, ~ loose_compressed L x y (48 :: 52 :: s)).
    { intros x y H. inversion H; destruct (Z.odd y); discriminate. }
    assert (NC : forall c s0 x, (c = 50 \/ c = 51) -> 48 :: 52 :: s = 48 :: c :: s0 -> ~ signed_hex L x s0).
    { intros c s0 x Hc Hd. injection Hd as <- _. destruct Hc; discriminate. }
    destruct (Nat.eqb_spec (length s) (2 * L * 2)) as [EL|NE].
    + pose proof (firstn_bytes (2 * L) s Hb) as B1. pose proof (skipn_bytes (2 * L) s Hb) as B2.
      assert (F1 : length (firstn (2 * L) s) = (2 * L)%nat) by (rewrite firstn_length; lia). assert (F2 : length (skipn (2 * L) s) = (2 * L)%nat) by (rewrite skipn_length; lia).
      assert (GD : forall x y, sec1 L x y false (48 :: 52 :: s) \/ loose_compressed L x y (48 :: 52 :: s) -> hex_number L (firstn (2 * L) s) x /\ hex_number L (skipn (2 * L) s) y).
      { intros x y [H|H]; [|exfalso; eapply NL; eauto]. inversion H as [xs ys H1 H2|]; subst. destruct (app_cut xs ys (xs ++ ys) (2 * L) eq_refl (proj1 H1)) as [-> ->]. auto. }
      destruct (hex_or_fixed PDInvalidX L _ B1 F1 L_pos) as [(x & xb & Hx & -> & Wx & Vx)|[NX ->]]; cbn [rbind].
      2:{ apply decoded_none; [|exact NC]. intros x y H. apply GD in H as [H _]. eapply NX; eauto. }
      destruct (hex_or_fixed PDInvalidY L _ B2 F2 L_pos) as [(y & yb & Hy & -> & Wy & Vy)|[NY ->]]; cbn [rbind].
      2:{ apply decoded_none; [|exact NC]. intros x' y' H. apply GD in H as [_ H]. eapply NY; eauto. }
      assert (TX : sec1 L x y false (48 :: 52 :: s)) by (rewrite <- (firstn_skipn (2 * L) s); now constructor).
      destruct (checked_cases (mkPoint xb yb) (conj Wx Wy)) as [(H1 & H2 & H3 & ->)|(H1 & r & -> & HR)]; cbn [px py] in *; rewrite Vx, Vy in *.
      * left. split; [|reflexivity]. right. split; [exact H1|]. exists x, y. auto.
      * right. split.
        -- intros [(c & s0 & x' & Hc & Hd & Hs & _)|(C1 & x' & y' & HO & H & T)]; [eapply NC; eauto|]. apply GD in H as [G1 G2].
           rewrite <- (hex_number_fun L _ x x' Hx G1), <- (hex_number_fun L _ y y' Hy G2) in HO, T. exact (H1 C1 HO T).
        -- eexists. split; [reflexivity|]. destruct HR as [[-> V]|[-> NV]].
           ++ split; [split; assumption|]. cbn [px py]. rewrite Vx, Vy. split; [exact V|]. now left.
           ++ intros x' y' (V & H). apply GD in H as [G1 G2]. apply NV. now rewrite (hex_number_fun L _ x x' Hx G1), (hex_number_fun L _ y y' Hy G2).
    + apply decoded_none; [|exact NC]. intros x y [H|H]; [|eapply NL; eauto]. inversion H as [xs ys (H1 & _) (H2 & _)|]; subst. apply NE. rewrite app_length. lia.
  - assert (NU : forall x y, ~ sec1 L x y false (c0 :: c1 :: s)). { intros x y H. inversion H; subst. discriminate. }
    destruct ((c0 =? 48) && ((c1 =? 50) || (c1 =? 51))) eqn:E2.
    + apply andb_true_iff in E2 as [E0 E1]. apply Z.eqb_eq in E0. subst c0.
      assert (CC : c1 = 50 \/ c1 = 51) by (apply orb_true_iff in E1 as [E1|E1]; apply Z.eqb_eq in E1; auto).
      assert (CO : forall y, c1 = (if Z.odd y then 51 else 50) <-> Z.odd y = (c1 =? 51)).
      { intros y. apply orb_true_iff in E1 as [E1|E1]; apply Z.eqb_eq in E1; subst c1; cbn [Z.eqb Pos.eqb]; destruct (Z.odd y); split; congruence. }
      destruct (hex_or_loose PDInvalidX L s Hb) as [(x & xb & Hx & -> & Wx & Vx)|[NX ->]]; [cbn [length] in LG; lia|apply L_pos| |]; cbn [rbind].
      2:{ apply decoded_none.
          - intros x y [H|H]; [eapply NU; eauto|]. apply loose_signed in H as (_ & _ & H). eapply NX; eauto.
          - intros c s0 x _ Hd. injection Hd as <- <-. apply NX. }
      assert (GD : forall x' y', sec1 L x' y' false (48 :: c1 :: s) \/ loose_compressed L x' y' (48 :: c1 :: s) -> x' = x /\ Z.odd y' = (c1 =? 51)).
      { intros x' y' [H|H]; [exfalso; eapply NU; eauto|]. apply loose_signed in H as (_ & H1 & H2). split; [eapply loose_fun; eauto|]. now apply CO. }
      destruct (Z.eq_dec (rhs x) 0) as [R0|RN].
      { left. split; [|apply decompress_zero; [exact Wx|now rewrite Vx]]. left. exists c1, s, x. auto. }
      assert (NC : forall c s0 x', 48 :: c1 :: s = 48 :: c :: s0 -> signed_hex L x' s0 -> rhs x' <> 0).
      { intros c s0 x' Hd Hs. injection Hd as <- <-. now rewrite (loose_fun x' x s Hs Hx). }
      rewrite <- Vx in RN. destruct (decompress_spec (c1 =? 51) xb Wx RN) as [(yb & Wy & Ry & EY & OY & ->)|[-> NY]]; rewrite Vx in RN.
      * rewrite Vx in EY.
        assert (SAME : forall y', on_curve E (Some (x, y')) -> Z.odd y' = (c1 =? 51) -> y' = bi_val yb).
        { intros y' HO OY'. destruct (on_pos _ _ HO) as (Rx & _). apply (parity_point (params_val D) OKD x); [exact HO| |congruence].
          split; [exact Rx|]. split; [cbn [params_val e_curve]; lia|]. exact EY. }
        assert (TX : forall x0, x0 = x -> 0 <= x0 -> loose_compressed L x0 (bi_val yb) (48 :: c1 :: s)).
        { intros x0 -> X0. apply CO in OY. rewrite OY. now apply loose_make. }
        destruct (checked_cases (mkPoint xb yb) (conj Wx Wy)) as [(H1 & H2 & H3 & ->)|(H1 & r & -> & HR)]; cbn [px py] in *; rewrite Vx in *.
        -- left. split; [|reflexivity]. right. split; [exact H1|]. exists x, (bi_val yb). split; [exact H2|]. split; [|exact H3]. right. apply TX; [reflexivity|apply H2].
        -- right. split.
           ++ intros [(c & s0 & x' & Hc & Hd & Hs & R)|(C1 & x' & y' & HO & H & T)]; [exact (NC _ _ _ Hd Hs R)|].
              apply GD in H as [-> O']. pose proof (SAME y' HO O') as SY; subst y'. exact (H1 C1 HO T).
           ++ eexists. split; [reflexivity|]. destruct HR as [[-> V]|[-> NV]].
              ** split; [split; assumption|]. cbn [px py]. rewrite Vx. split; [exact V|]. right. apply TX; [reflexivity|]. destruct (valid_range _ _ V) as (Rx & _). lia.
              ** intros x' y' (V & H). apply GD in H as [-> O']. apply NV. replace (bi_val yb) with y'; [exact V|]. apply SAME; [|exact O']. exact (valid_range _ _ V).
      * right. rewrite Vx in NY. split.
        -- intros [(c & s0 & x' & Hc & Hd & Hs & R)|(C1 & x' & y' & HO & H & T)]; [exact (NC _ _ _ Hd Hs R)|].
           apply GD in H as [-> _]. destruct HO as (_ & _ & K). exact (NY y' K).
        -- eexists. split; [reflexivity|]. intros x' y' (V & H). apply GD in H as [-> _]. destruct (valid_range _ _ V) as (_ & _ & K). exact (NY y' K).
    + apply decoded_none.
      * intros x y [H|H]; [eapply NU; eauto|]. apply loose_signed in H as (-> & -> & H). destruct (Z.odd y); discriminate.
      * intros c s0 x Hc Hd. injection Hd as -> -> ->. destruct Hc; subst c; discriminate.
Qed.
Lemma no_two_decodes data : no_order_two D -> ~ sec1_panics (params_val D) data.
Proof.
  intros NT [(c & s & x & _ & _ & _ & K)|(C1 & x & y & HO & _ & (i & Hi & _ & T))].
  - exact (rhs_nz x NT K).
  - destruct NT as [NT|NT]; [exact (C1 NT)|]. apply (NT (emul E (2 ^ i) (Some (x, y)))); [|exact T]. apply emul_closed; [exact OK|exact HO].
Qed.
Lemma decode_nt data : no_order_two D -> bytes data ->
  exists r, decode_point data D = Ret r /\
    match r with Ok P => wf_point P /\ good data (bi_val (px P)) (bi_val (py P)) | Err _ => forall x y, ~ good data x y end.
Proof. intros NT Hb. destruct (decode_all data Hb) as [[K _]|[_ K]]; [exfalso; exact (no_two_decodes data NT K)|exact K]. Qed.

(** a text of a valid key with non-zero ordinate is accepted, on any parameters *)
Lemma decode_valid data x y : bytes data -> valid_public (params_val D) x y -> 0 < y -> sec1 L x y false data \/ loose_compressed L x y data ->
  exists P, decode_point data D = Ret (Ok P) /\ wf_point P /\ bi_val (px P) = x /\ bi_val (py P) = y.
Proof.
  intros Hb V Y0 H. destruct (valid_range _ _ V) as (Rx & Ry & EY). destruct H as [H|H].
  - inversion H as [xs ys H1 H2|]; subst data. apply bytes_cons in Hb as [_ Hb]. apply bytes_cons in Hb as [_ Hb].
    assert (LL : length (xs ++ ys) = (2 * L * 2)%nat) by (rewrite app_length, (proj1 H1), (proj1 H2); lia).
    rewrite decode_cases by lia. cbn [Z.eqb Pos.eqb andb]. apply Nat.eqb_eq in LL. rewrite LL. destruct (app_cut xs ys (xs ++ ys) (2 * L) eq_refl (proj1 H1)) as [-> ->].
    apply Forall_app in Hb as [B1 B2].
    destruct (hex_or_read PDInvalidX L xs x B1 H1 L_pos) as (xb & -> & Wx & Vx). cbn [rbind].
    destruct (hex_or_read PDInvalidY L ys y B2 H2 L_pos) as (yb & -> & Wy & Vy). cbn [rbind]. unfold checked_point.
    rewrite (validate_valid (mkPoint xb yb)); [|split; assumption|cbn [px py]; now rewrite Vx, Vy]. cbn [obind]. exists (mkPoint xb yb). split; [reflexivity|]. split; [split; assumption|]. auto.
  - assert (exists s, data = 48 :: (if Z.odd y then 51 else 50) :: s) as (s & ->) by (inversion H; eauto).
    apply loose_inv in H as (_ & _ & H); [|lia]. apply bytes_cons in Hb as [_ Hb]. apply bytes_cons in Hb as [_ Hb].
    assert (LS : (2 * L <= length s)%nat) by (destruct H as [k xs Hk (LL & _)|k xs Hk (LL & _)|k xs Hk (LL & _)]; cbn [length]; lia).
    rewrite decode_cases by assumption.
    replace ((if Z.odd y then 51 else 50) =? 52) with false by (destruct (Z.odd y); reflexivity).
    replace ((if Z.odd y then 51 else 50) =? 51) with (Z.odd y) by (destruct (Z.odd y); reflexivity).
    replace ((if Z.odd y then 51 else 50) =? 50) with (negb (Z.odd y)) by (destruct (Z.odd y); reflexivity).
    cbn [Z.eqb Pos.eqb andb]. replace (negb (Z.odd y) || Z.odd y) with true by (destruct (Z.odd y); reflexivity).
    destruct (hex_or_loose PDInvalidX L s Hb LS L_pos) as [(x' & xb & Hx & -> & Wx & Vx)|[NX _]]; [|exfalso; eapply NX; eauto]. cbn [rbind].
    rewrite <- (loose_fun _ _ _ H Hx) in Vx.
    assert (RN : rhs (bi_val xb) <> 0).
    { rewrite Vx, <- EY. intros K. apply Z.mod_divide in K; [|lia]. apply prime_mult in K; [|exact Hp]. destruct K as [K|K]; apply Z.divide_pos_le in K; lia. }
    destruct (decompress_spec (Z.odd y) xb Wx RN) as [(yb & Wy & Ry' & EY' & OY & ->)|[_ NY]].
    2:{ exfalso. apply (NY y). now rewrite Vx. }
    assert (Vy : bi_val yb = y).
    { apply (parity_point (params_val D) OKD x); [| |congruence].
      - split; [exact Rx|]. split; [cbn [params_val e_curve]; lia|]. rewrite Vx in EY'. exact EY'.
      - split; [exact Rx|]. split; [exact Ry|]. exact EY. }
    unfold checked_point. rewrite (validate_valid (mkPoint xb yb)); [|split; assumption|cbn [px py]; now rewrite Vx, Vy]. cbn [obind]. exists (mkPoint xb yb). split; [reflexivity|]. split; [split; assumption|]. auto.
Qed.

(** * Encoding *)
Lemma encode_in P c : wf_point P -> 1 <= bi_val (px P) < n -> 1 <= bi_val (py P) < n ->
  exists t, encode_point P D c = Ret t /\ sec1 L (bi_val (px P)) (bi_val (py P)) c t /\ lower_case t.
Proof.
  intros [Wx Wy] Hx Hy. unfold encode_point. rewrite !in_range_true by assumption. cbn [obind oassert dassert]. rewrite byte_len_n. cbn [obind]. pose proof n_bytes as NB.
  assert (Rx : 0 <= bi_val (px P) < 256 ^ Z.of_nat L) by lia. assert (Ry : 0 <= bi_val (py P) < 256 ^ Z.of_nat L) by lia. destruct c.
  - rewrite is_even_spec by assumption. cbn [obind]. destruct (pad_lower (px P) L Wx Rx L_pos) as (h & -> & EP). cbn [obind]. rewrite Z.mul_comm, EP.
    eexists. split; [reflexivity|]. rewrite <- Z.negb_odd. split.
    + replace (if negb (Z.odd (bi_val (py P))) then 50 else 51) with (if Z.odd (bi_val (py P)) then 51 else 50) by (destruct (Z.odd _); reflexivity).
      constructor. now apply hexs_number.
    + constructor; [lia|]. constructor; [destruct (Z.odd _); cbn; lia|]. apply lower_hex_lower, to_be_bytes_range.
  - unfold point_to_bytes. rewrite byte_len_n. cbn [obind].
    pose proof (pad_bytes (px P) L Wx Rx) as E1. pose proof (pad_bytes (py P) L Wy Ry) as E2.
    destruct (bi_to_be_bytes (px P)) as [bx| |]; cbn [obind] in *; try discriminate. rewrite E1. cbn [obind].
    destruct (bi_to_be_bytes (py P)) as [bby| |]; cbn [obind] in *; try discriminate. rewrite E2. cbn [obind].
    eexists. split; [reflexivity|]. rewrite bytes_lower_app. split.
    + constructor; apply hexs_number; assumption.
    + constructor; [lia|]. constructor; [lia|]. apply lower_app; apply lower_hex_lower, to_be_bytes_range.
Qed.
Lemma encode_out P c : wf_point P -> ~ (1 <= bi_val (px P) < n /\ 1 <= bi_val (py P) < n) -> encode_point P D c = Panic.
Proof.
  intros [Wx Wy] H. unfold encode_point. rewrite !in_range_spec by assumption. cbn [obind]. change (bi_val (d_order D)) with n.
  destruct (Z.ltb_spec 0 (bi_val (px P))), (Z.ltb_spec (bi_val (px P)) n); cbn [andb oassert dassert obind]; try reflexivity.
  destruct (Z.ltb_spec 0 (bi_val (py P))), (Z.ltb_spec (bi_val (py P)) n); cbn [andb oassert dassert obind]; try reflexivity. exfalso. apply H. lia.
Qed.

(** * Signatures *)
Lemma p1363_encode sg : sig_params sg = D -> wf (sig_r sg) -> wf (sig_s sg) -> 1 <= bi_val (sig_r sg) < n -> 1 <= bi_val (sig_s sg) < n ->
  exists t, to_p1363_hex sg = Ret t /\ p1363 L (bi_val (sig_r sg)) (bi_val (sig_s sg)) t /\ lower_case t.
Proof.
  intros ED Wr Ws Hr Hs. unfold to_p1363_hex. rewrite ED, byte_len_n. cbn [obind]. pose proof n_bytes as NB.
  assert (Rr : 0 <= bi_val (sig_r sg) < 256 ^ Z.of_nat L) by lia. assert (Rs : 0 <= bi_val (sig_s sg) < 256 ^ Z.of_nat L) by lia.
  destruct (pad_lower (sig_r sg) L Wr Rr L_pos) as (h & -> & EP). cbn [obind]. destruct (pad_lower (sig_s sg) L Ws Rs L_pos) as (h' & -> & EP'). cbn [obind].
  rewrite (Z.mul_comm (Z.of_nat L)), EP, EP'. eexists. split; [reflexivity|]. split.
  - exists (hexs L (bi_val (sig_r sg))), (hexs L (bi_val (sig_s sg))). split; [now apply hexs_number|]. split; [now apply hexs_number|reflexivity].
  - apply lower_app; apply lower_hex_lower, to_be_bytes_range.
Qed.
Lemma p1363_decode data : bytes data ->
  exists res, from_p1363_hex data D = Ret res /\
    match res with
    | Ok sg => code_sig sg /\ sig_params sg = D /\ p1363 L (bi_val (sig_r sg)) (bi_val (sig_s sg)) data
    | Err _ => forall r s, p1363 L r s data -> ~ (1 <= r < n /\ 1 <= s < n)
    end.
Proof.
  intros Hb. unfold from_p1363_hex. rewrite byte_len_n. cbn [obind]. cbv zeta. rewrite hex_len.
  destruct (Nat.eqb_spec (length data) (2 * L * 2)) as [EL|NE]; cbn [negb].
  2:{ eexists. split; [reflexivity|]. intros r s (rs & ss & (H1 & _) & (H2 & _) & ->). exfalso. apply NE. rewrite app_length. lia. }
  unfold slice_to, slice_from. rewrite !slice_ret by lia. cbn [obind]. rewrite Nat.sub_0_r. cbn [skipn].
  replace (length data - 2 * L)%nat with (length (skipn (2 * L) data)) by (rewrite skipn_length; lia). rewrite firstn_all.
  pose proof (firstn_bytes (2 * L) data Hb) as B1. pose proof (skipn_bytes (2 * L) data Hb) as B2.
  assert (F1 : length (firstn (2 * L) data) = (2 * L)%nat) by (rewrite firstn_length; lia). assert (F2 : length (skipn (2 * L) data) = (2 * L)%nat) by (rewrite skipn_length; lia).
  assert (GD : forall r s, p1363 L r s data -> hex_number L (firstn (2 * L) data) r /\ hex_number L (skipn (2 * L) data) s).
  { intros r s (rs & ss & H1 & H2 & ED). destruct (app_cut rs ss data (2 * L) ED (proj1 H1)) as [-> ->]. auto. }
  destruct (hex_or_fixed SDInvalidFormat L _ B1 F1 L_pos) as [(r & rb & Hr & -> & Wr & Vr)|[NX ->]]; cbn [rbind].
  2:{ eexists. split; [reflexivity|]. intros r s H. apply GD in H as [H _]. exfalso. eapply NX; eauto. }
  destruct (hex_or_fixed SDInvalidFormat L _ B2 F2 L_pos) as [(s & sb & Hs & -> & Ws & Vs)|[NY ->]]; cbn [rbind].
  2:{ eexists. split; [reflexivity|]. intros r' s' H. apply GD in H as [_ H]. exfalso. eapply NY; eauto. }
  rewrite signature_new_spec by assumption. cbn [obind]. eexists. split; [reflexivity|]. change (order D) with n in *. rewrite Vr, Vs.
  destruct (Z.leb_spec 1 r), (Z.leb_spec r (n - 1)), (Z.leb_spec 1 s), (Z.leb_spec s (n - 1)); cbn [andb];
    try (intros r' s' H'; apply GD in H' as [H1' H2']; rewrite <- (hex_number_fun L _ r r' Hr H1'), <- (hex_number_fun L _ s s' Hs H2'); lia).
  split; [split; [exact HD|]; cbn [sig_r sig_s sig_params]; rewrite Vr, Vs; split; [assumption|]; split; [assumption|]; lia|]. split; [reflexivity|].
  cbn [sig_r sig_s]. rewrite Vr, Vs. exists (firstn (2 * L) data), (skipn (2 * L) data). split; [assumption|]. split; [assumption|]. symmetry. apply firstn_skipn.
Qed.
End Params.
End Proofs.

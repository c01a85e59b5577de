(** Public key recovery returns no key twice on a curve whose base point generates it. *)

From Coq Require Import Lia.
From Verif Require Import Base M_BigInt M_Modular M_Curve M_Ecdsa S_BigInt S_Curve S_EcModel S_Ecdsa S_Recover S_Sign
  P_BigInt1 P_BigInt3 P_BigInt4 P_BigApi P_NumTheory P_Modular P_Curve P_EcModel P_Order P_EcLaws P_Ecdsa1 P_Ecdsa2 P_Ecdsa3 P_Sign P_EcdsaProp.
Open Scope Z_scope.

Section Proofs.
Context {cfg : digit_cfg}.
Section Params.
Context (D : params) (HD : code_params D).
Local Notation E := (curve_val (d_curve D)).
Local Notation n := (order D).
Local Notation p := (ep E).
Local Notation G := (pt_val (d_base D)).
Local Notation "k # P" := (emul E k P) (at level 35, right associativity).
Let OKD : params_ok (params_val D). Proof. apply HD. Qed.
Let OK : curve_ok E. Proof. apply OKD. Qed.
Let Hn : prime n. Proof. apply OKD. Qed.
Let N2 : 2 < n. Proof. apply OKD. Qed.
Let N0 : 0 < n. Proof. lia. Qed.
Let Wn : wf (d_order D). Proof. apply HD. Qed.
Let HG : on_curve E G. Proof. apply OKD. Qed.
Let HC : code_curve (d_curve D). Proof. now apply params_curve. Qed.
Let Hp : prime p. Proof. apply OK. Qed.
Let P3 : 3 < p. Proof. apply OK. Qed.
Let Wp : wf (c_p (d_curve D)). Proof. apply HC. Qed.
Local Notation key pk := (pt_val (pk_data pk)).

Section Recover.
Context (sg : signature) (HS : code_sig sg) (ES : sig_params sg = D).
Context (CF : 0 <= d_cofactor D < 2 ^ 32).
Context (h : bigint) (Hh : code_hash D h).
Context (e_neg : bigint) (We : wf e_neg) (Ve : bi_val e_neg = (- bi_val h) mod n).
Context (r_inv : bigint) (Wri : wf r_inv) (Vri : bi_val r_inv = zinv n (bi_val (sig_r sg))).
Local Notation r := (bi_val (sig_r sg)).
Local Notation s := (bi_val (sig_s sg)).
Local Notation e := (bi_val h).
Local Notation rec R := (recovered (params_val D) R e r s).
Let Wr : wf (sig_r sg). Proof. apply HS. Qed.
Let Ws : wf (sig_s sg). Proof. apply HS. Qed.
Let Hr : 1 <= r < n. Proof. destruct HS as (_ & _ & _ & K & _). now rewrite ES in K. Qed.
Let Hs : 1 <= s < n. Proof. destruct HS as (_ & _ & _ & _ & K). now rewrite ES in K. Qed.

Lemma candidate_sub R ks : code_point (d_curve D) R -> recover_candidate sg h e_neg r_inv R = Ret ks ->
  exists Rs, incl Rs [pt_val R] /\ NoDup Rs /\ (length Rs <= 1)%nat /\ map (fun pk => key pk) ks = map (fun R => rec R) Rs.
Proof.
  intros HR EQ. destruct (candidate_spec D HD sg HS ES CF h Hh e_neg We Ve r_inv Wri Vri R HR) as [[_ K]|(_ & ks' & K & L & S & _)]; rewrite EQ in K; [discriminate|].
  injection K as <-. destruct ks as [|pk [|pk' ks]]; [|  |cbn in L; lia].
  - exists []. split; [intros ? []|]. split; [constructor|]. split; [cbn; lia|reflexivity].
  - exists [pt_val R]. split; [apply incl_refl|]. split; [constructor; [intros []|constructor]|]. split; [cbn; lia|]. cbn [map]. f_equal. apply S. now left.
Qed.
Lemma nodup_app {A} (l l' : list A) : NoDup l -> NoDup l' -> (forall a, In a l -> In a l' -> False) -> NoDup (l ++ l').
Proof.
  induction 1 as [|a l Ha _ IH]; intros N' DJ; cbn [app]; [exact N'|]. constructor.
  - intros I. apply in_app_or in I. destruct I as [I|I]; [contradiction|]. apply (DJ a); [now left|exact I].
  - apply IH; [exact N'|]. intros b I I'. apply (DJ b); [now right|exact I'].
Qed.
Lemma points_sub Rs : Forall (code_point (d_curve D)) Rs -> NoDup (map pt_val Rs) -> forall ks, recover_points sg h e_neg r_inv Rs = Ret ks ->
  exists Ps, incl Ps (map pt_val Rs) /\ NoDup Ps /\ (length Ps <= length Rs)%nat /\ map (fun pk => key pk) ks = map (fun R => rec R) Ps.
Proof.
  induction 1 as [|R Rs HR FR IH]; cbn [recover_points map]; intros ND ks EQ.
  - injection EQ as <-. exists []. split; [intros ? []|]. split; [constructor|]. split; [cbn; lia|reflexivity].
  - destruct (recover_candidate sg h e_neg r_inv R) as [k1| |] eqn:E1; try discriminate. cbn [obind] in EQ.
    destruct (recover_points sg h e_neg r_inv Rs) as [k2| |] eqn:E2; try discriminate. cbn [obind] in EQ. injection EQ as <-.
    apply NoDup_cons_iff in ND. destruct ND as [NI ND]. destruct (IH ND k2 eq_refl) as (P2 & I2 & N2' & L2 & M2).
    destruct (candidate_sub R k1 HR E1) as (P1 & I1 & N1 & L1 & M1). exists (P1 ++ P2). split; [|split; [|split]].
    + intros P I. apply in_app_or in I. destruct I as [I|I]; [destruct (I1 P I) as [<-|[]]; now left|right; now apply I2].
    + apply nodup_app; try assumption. intros P J1 J2. destruct (I1 P J1) as [<-|[]]. now apply NI, I2.
    + rewrite app_length. cbn [length]. lia.
    + now rewrite !map_app, M1, M2.
Qed.

Lemma select_nodup id x y1 y2 Rs : wf x -> wf y1 -> wf y2 -> 0 < bi_val x -> bi_val y1 <> bi_val y2 -> select_points id x y1 y2 = Ret Rs ->
  NoDup (map pt_val Rs) /\ (length Rs <= 2)%nat.
Proof.
  intros Wx W1 W2 Hx NE. assert (ONE : forall P : point, NoDup (map pt_val [P]) /\ (length [P] <= 2)%nat) by (intros; split; [constructor; [intros []|constructor]|cbn; lia]).
  unfold select_points. destruct id as [[| | |]|].
  1,3: rewrite is_even_spec by assumption; cbn [obind]; intros K; injection K as <-; apply ONE.
  1,2: rewrite is_odd_spec by assumption; cbn [obind]; intros K; injection K as <-; apply ONE.
  intros K. injection K as <-. split; [|cbn; lia]. cbn [map].
  rewrite (pt_val_some (bi_val x) (bi_val y1)), (pt_val_some (bi_val x) (bi_val y2)) by (lia || reflexivity).
  constructor; [|constructor; [intros []|constructor]]. intros [K|[]]. congruence.
Qed.

Lemma loop_sub id k : forall j ks, 0 <= j -> j + Z.of_nat k <= 2 ^ 33 -> recover_loop sg h e_neg r_inv id k j = Ret ks ->
  exists Ps, NoDup Ps /\ (forall P, In P Ps -> exists x y, P = Some (x, y) /\ candidate D sg id j (j + Z.of_nat k - 1) x y) /\
    (length Ps <= 2 * k)%nat /\ map (fun pk => key pk) ks = map (fun R => rec R) Ps.
Proof.
  induction k as [|k IH]; intros j ks Hj Hk; cbn [recover_loop].
  { intros EQ. injection EQ as <-. exists []. split; [constructor|]. split; [intros ? []|]. split; [cbn; lia|reflexivity]. }
  cbv zeta. rewrite ES. change (2 ^ 33) with 8589934592 in *.
  assert (NIL : exists Ps, NoDup Ps /\ (forall P, In P Ps -> exists x y, P = Some (x, y) /\ candidate D sg id j (j + Z.of_nat (S k) - 1) x y) /\
    (length Ps <= 2 * S k)%nat /\ map (fun pk : public_key => key pk) [] = map (fun R => rec R) Ps).
  { exists []. split; [constructor|]. split; [intros ? []|]. split; [cbn; lia|reflexivity]. }
  assert (NEXT : forall ks', recover_loop sg h e_neg r_inv id k (j + 1) = Ret ks' ->
    exists Ps, NoDup Ps /\ (forall P, In P Ps -> exists x y, P = Some (x, y) /\ candidate D sg id (j + 1) (j + Z.of_nat (S k) - 1) x y) /\
    (length Ps <= 2 * k)%nat /\ map (fun pk => key pk) ks' = map (fun R => rec R) Ps).
  { intros ks' EQ. pose proof (IH (j + 1) ks' ltac:(lia) ltac:(lia) EQ) as K. replace (j + 1 + Z.of_nat k - 1) with (j + Z.of_nat (S k) - 1) in K by lia. exact K. }
  clear IH. destruct (from_u128_spec j Positive) as (jb & Ej & Wj & Vj). { change (2 ^ 128) with 340282366920938463463374607431768211456. lia. }
  unfold from_uint. rewrite Ej. cbn [obind sgz] in *. ret (bi_mul_spec jb (d_order D) Wj Wn) jn Wjn Vjn. ret (bi_add_spec (sig_r sg) jn Wr Wjn) x Wx Vx.
  rewrite Vjn, Vj in Vx. change (bi_val (d_order D)) with n in Vx. rewrite bi_ge_spec by assumption. cbn [obind].
  change (bi_val (c_p (d_curve D))) with p. destruct (Z.leb_spec p (bi_val x)) as [L|L].
  { intros EQ. injection EQ as <-. exact NIL. }
  assert (Hx : 0 < bi_val x < p) by (pose proof (Z.mul_nonneg_nonneg j n Hj (Z.lt_le_incl _ _ N0)); clear Vjn; split; [lia|exact L]).
  assert (PP : 0 < p) by (clear - P3; lia).
  ret (bi_mul_spec x x Wx Wx) t1 Wt1 Vt1. ret (bi_mul_spec t1 x Wt1 Wx) t2 Wt2 Vt2.
  assert (Wa : wf (c_a (d_curve D))) by apply HC. assert (Wb : wf (c_b (d_curve D))) by apply HC.
  ret (bi_mul_spec (c_a (d_curve D)) x Wa Wx) t3 Wt3 Vt3. ret (bi_add_spec t2 t3 Wt2 Wt3) t4 Wt4 Vt4. ret (bi_add_spec t4 (c_b (d_curve D)) Wt4 Wb) t5 Wt5 Vt5.
  destruct (modulo_spec t5 (c_p (d_curve D)) Wt5 Wp) as (ys & -> & Wys & Vys). { exact PP. } cbn [obind].
  change (bi_val (c_p (d_curve D))) with p in Vys.
  assert (Vys' : bi_val ys = (bi_val x * bi_val x * bi_val x + ea E * bi_val x + eb E) mod p).
  { rewrite Vys, Vt5, Vt4, Vt3, Vt2, Vt1. reflexivity. }
  destruct (Z.eq_dec (bi_val ys) 0) as [YZ|YS0].
  { rewrite (sqrt_zero D HD h ys (c_p (d_curve D)) Wys Wp YZ). discriminate. }
  assert (YS : 0 < bi_val ys < p) by (pose proof (Z.mod_pos_bound (bi_val t5) p PP) as K; rewrite <- Vys in K; clear - K YS0; lia).
  clear Vt1 Vt2 Vt3 Vt4 Vt5 Vys.
  destruct (sqrt_full ys (c_p (d_curve D)) Wys Wp Hp ltac:(change (bi_val (c_p (d_curve D))) with p; lia) YS) as [(y1 & y2 & EQ & W1 & W2 & HR & NE)|[EQ HN]].
  - destruct (sqrt_spec ys (c_p (d_curve D)) Wys Wp Hp ltac:(change (bi_val (c_p (d_curve D))) with p; lia) YS) as [(y1' & y2' & EQ' & _ & _ & R1 & R2 & _)|[EQ' _]]; [|congruence].
    rewrite EQ in EQ'. injection EQ' as <- <-. change (bi_val (c_p (d_curve D))) with p in *. rewrite EQ. cbn [obind].
    assert (R1' : 0 < bi_val y1 < p).
    { destruct (Z.eq_dec (bi_val y1) 0) as [K|K]; [|lia]. exfalso. assert (K2 : (bi_val y1 * bi_val y1) mod p = bi_val ys) by (apply HR; [lia|now left]).
      rewrite K in K2. change (0 * 0) with 0 in K2. rewrite Z.mod_0_l in K2; lia. }
    destruct (select_spec D HD sg HS ES CF h id x y1 y2 Wx W1 W2 Hx) as (Rs & ER & FR & LR & S1 & _); [rewrite <- Vys'; exact HR|exact R1'|exact R2|].
    assert (NY : bi_val y1 <> bi_val y2).
    { rewrite R2. intros K. pose proof (p_odd p Hp ltac:(lia)) as O. assert (p = 2 * bi_val y1) by lia. rewrite H in O. rewrite Z.mul_comm, Z.mod_mul in O by lia. lia. }
    destruct (select_nodup id x y1 y2 Rs Wx W1 W2 (proj1 Hx) NY ER) as [ND L2]. rewrite ER. cbn [obind].
    destruct (recover_points sg h e_neg r_inv Rs) as [k1| |] eqn:E1; try discriminate. cbn [obind].
    destruct (recover_loop sg h e_neg r_inv id k (j + 1)) as [k2| |] eqn:E2; try discriminate. cbn [obind]. intros EQ3. injection EQ3 as <-.
    destruct (points_sub Rs FR ND k1 E1) as (P1 & I1 & N1 & L1 & M1). destruct (NEXT k2 eq_refl) as (P2 & N2' & C2 & L2' & M2).
    assert (X1 : forall P, In P P1 -> exists y, P = Some (bi_val x, y) /\ on_curve E P /\ id_parity id y).
    { intros P IP. apply I1, in_map_iff in IP. destruct IP as (R & <- & IR). destruct (S1 R IR) as (y & PV & PY). exists y. split; [exact PV|]. split; [|exact PY].
      eapply Forall_forall in FR; [|exact IR]. apply FR. }
    exists (P1 ++ P2). split; [|split; [|split]].
    + apply nodup_app; try assumption. intros P J1 J2. destruct (X1 P J1) as (y & -> & _). destruct (C2 _ J2) as (x' & y' & K & (j' & Hj' & Ex' & _)). injection K as <- <-. clear - Vx Ex' Hj' N0. nia.
    + intros P IP. apply in_app_or in IP. destruct IP as [IP|IP].
      * destruct (X1 P IP) as (y & -> & OC & PY). exists (bi_val x), y. split; [reflexivity|]. exists j. split; [lia|]. split; [lia|]. auto.
      * destruct (C2 P IP) as (x' & y' & -> & (j' & Hj' & K)). exists x', y'. split; [reflexivity|]. exists j'. split; [lia|exact K].
    + rewrite app_length. clear - L1 L2 L2'. unfold epoint in *. lia.
    + now rewrite !map_app, M1, M2.
  - rewrite EQ. cbn [obind]. intros E2. destruct (NEXT ks E2) as (P2 & N2' & C2 & L2' & M2). exists P2. split; [exact N2'|]. split; [|split; [lia|exact M2]].
    intros P IP. destruct (C2 P IP) as (x' & y' & -> & (j' & Hj' & K)). exists x', y'. split; [reflexivity|]. exists j'. split; [lia|exact K].
Qed.

Lemma recovered_inj (C1 : d_cofactor D = 1) P Q : on_curve E P -> on_curve E Q -> rec P = rec Q -> P = Q.
Proof.
  intros OP OQ EQ. destruct (gen1 (params_val D) OKD C1 P OP) as (k & Hk & EP). destruct (gen1 (params_val D) OKD C1 Q OQ) as (l & Hl & EL).
  change (e_order (params_val D)) with n in *. rewrite EP, EL in EQ. rewrite !(recovered_log (params_val D) OKD) in EQ by lia. change (e_order (params_val D)) with n in EQ.
  pose proof (inv_pos (params_val D) OKD r Hr) as IP. pose proof (inv_n (params_val D) OKD r Hr) as IN. pose proof (inv_n (params_val D) OKD s Hs) as JN. change (e_order (params_val D)) with n in *.
  pose proof (Z.mod_pos_bound (- e) n N0) as EB. set (m := (- e) mod n) in *. set (u := zinv n r) in *. set (v := zinv n s) in *. clearbody m u v.
  assert (K : cg n (u * (s * k + m)) (u * (s * l + m))).
  { apply cg_iff; [lia|]. apply (emul_eq_mod E OK G n HG ltac:(apply OKD) Hn ltac:(apply OKD)); [nia|nia|exact EQ]. }
  assert (K2 : cg n k l).
  { transitivity (r * (u * (s * k + m)) * v - m * v).
    - replace (r * (u * (s * k + m)) * v - m * v) with ((r * u) * (s * v) * k + ((r * u) - 1) * (m * v)) by ring. rewrite IN, JN. apply cg_iff; [lia|]. f_equal. ring.
    - rewrite K. replace (r * (u * (s * l + m)) * v - m * v) with ((r * u) * (s * v) * l + ((r * u) - 1) * (m * v)) by ring. rewrite IN, JN. apply cg_iff; [lia|]. f_equal. ring. }
  apply cg_iff in K2; [|lia]. rewrite !Z.mod_small in K2 by lia. congruence.
Qed.
End Recover.

Lemma recover_nodup sg hash id o ks : code_sig sg -> sig_params sg = D -> d_cofactor D = 1 -> bytes hash -> recover_with_options sg hash id o = Ret (Ok ks) ->
  NoDup (map (fun pk => key pk) ks) /\ (length ks <= match id with None => 4 | Some _ => 1 end)%nat.
Proof.
  intros HS ES C1 Hb EQ. assert (CF : 0 <= d_cofactor D < 2 ^ 32) by (rewrite C1; lia).
  destruct (recover_inv sg hash id o ks HS EQ) as [Hne ST]. rewrite ES in ST.
  assert (LID : id <> None -> (length ks <= 1)%nat).
  { intros NI. destruct (recover_done sg hash id o ks HS ltac:(now rewrite ES) Hb EQ) as (_ & _ & _ & h & _ & _ & K). rewrite ES in K.
    destruct id as [[| | |]|]; [| | | |congruence]; cbn [j_bounds] in K; destruct K as [K _]; specialize (K ltac:(discriminate)); rewrite ?C1 in K; cbn in K; lia. }
  assert (HS' := HS). destruct HS' as (_ & Wr & Ws & Hr & Hs). rewrite ES in Hr, Hs.
  destruct (hash_n_spec D hash Hne Hb) as (h & E1 & Hh & Vh).
  destruct (invert_n D HD (sig_r sg) Wr Hr) as (ri & E2 & Wri & Vri).
  destruct (bi_neg_spec h (proj1 Hh)) as [Wneg Vneg].
  destruct (modulo_n D HD (bi_neg h) Wneg) as (en & E3 & We & Ve). rewrite Vneg in Ve.
  assert (JB : 0 <= fst (j_bounds id D) /\ 0 <= snd (j_bounds id D) - fst (j_bounds id D) + 1 <= 2 /\ snd (j_bounds id D) < 2 ^ 32).
  { destruct id as [[| | |]|]; cbn [j_bounds fst snd]; rewrite ?C1; lia. }
  assert (RL : let (lo, hi) := j_bounds id D in recover_loop sg h en ri id (Z.to_nat (hi - lo + 1)) lo = Ret ks).
  { unfold recover_with_options in EQ. cbv zeta in EQ. destruct hash as [|b0 bs0] eqn:EH; [congruence|]. rewrite <- EH in *. rewrite ES in EQ.
    assert (EQ2 : (if ro_strict o then m <- hash_length_matches (Z.of_nat (length hash)) D ;; Ret (negb m) else Ret false) = Ret (ro_strict o && negb (8 * Z.of_nat (length hash) =? nbits n))).
    { destruct (ro_strict o); [|reflexivity]. rewrite (matches_spec D HD) by auto. reflexivity. }
    rewrite EQ2 in EQ. cbn [obind] in EQ. destruct (_ && _); [discriminate|]. rewrite (bit_len_n D HD) in EQ. cbn [obind] in EQ. rewrite E1 in EQ. cbn [obind] in EQ.
    rewrite is_zero_spec in EQ by apply Hh. cbn [obind] in EQ. destruct (_ =? 0); [discriminate|].
    destruct (j_bounds id D) as [lo hi]. rewrite E2 in EQ. cbn [obind] in EQ. rewrite E3 in EQ. cbn [obind] in EQ.
    destruct (recover_loop sg h en ri id (Z.to_nat (hi - lo + 1)) lo); try discriminate. cbn [obind] in EQ. congruence. }
  destruct (j_bounds id D) as [lo hi]. cbn [fst snd] in JB. destruct JB as (J0 & J1 & J2).
  destruct (loop_sub sg HS ES CF h Hh en We Ve ri Wri Vri id (Z.to_nat (hi - lo + 1)) lo ks J0) as (Ps & ND & CA & LP & MP).
  { rewrite Z2Nat.id by lia. change (2 ^ 33) with (2 ^ 32 + 2 ^ 32). change (2 ^ 32) with 4294967296 in *. lia. }
  { exact RL. }
  split.
  - rewrite MP. assert (OC : forall P, In P Ps -> on_curve E P). { intros P IP. destruct (CA P IP) as (x & y & -> & (j & _ & _ & K & _)). exact K. }
    clear LP CA MP. induction ND as [|P Ps NI ND IH]; cbn [map]; constructor.
    + intros I. apply in_map_iff in I. destruct I as (Q & EQ9 & IQ). apply NI. replace P with Q; [exact IQ|].
      apply (recovered_inj sg HS ES h C1); [apply OC; now right|apply OC; now left|exact EQ9].
    + apply IH. intros Q IQ. apply OC. now right.
  - destruct id as [i|]; [apply LID; discriminate|]. rewrite <- (map_length (fun pk => key pk)), MP, map_length. unfold epoint in *. lia.
Qed.
End Params.

(** With cofactor 1, the keys are exactly those that accept the signature, each once, and at most four. *)
Lemma recover_exactly sg hash o ks : code_sig sg -> d_cofactor (sig_params sg) = 1 -> covers (sig_params sg) -> bytes hash ->
  recover_with_options sg hash None o = Ret (Ok ks) ->
  NoDup (map (fun pk => pt_val (pk_data pk)) ks) /\ (length ks <= 4)%nat /\
  forall pk, code_pk pk -> pk_params pk = sig_params sg ->
    (In (pt_val (pk_data pk)) (map (fun pk => pt_val (pk_data pk)) ks) <-> accepted hash sg pk (mkVO false (ro_strict o))).
Proof.
  intros HS C1 CV Hb EQ. destruct (recover_nodup (sig_params sg) (proj1 HS) sg hash None o ks HS eq_refl C1 Hb EQ) as [ND L].
  split; [exact ND|]. split; [exact L|]. intros pk HP EP. assert (CF : 0 <= d_cofactor (sig_params sg) < 2 ^ 32) by (rewrite C1; lia). split.
  - intros I. apply in_map_iff in I. destruct I as (pk' & EK & I). destruct (recover_sound sg hash None o ks pk' HS CF Hb EQ I) as (HP' & EP' & A).
    apply verify_true in A; try assumption; [|congruence]. apply verify_true; try assumption; [congruence|]. rewrite EP, <- EK. rewrite EP' in A. exact A.
  - intros A. destruct (recover_all sg hash o ks pk HS CF CV Hb EQ HP EP A) as (pk' & I & EK). apply in_map_iff. exists pk'. auto.
Qed.
End Proofs.

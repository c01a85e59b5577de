(** The hash as an integer, the gates of verification and recovery, and public key recovery. *)

From Coq Require Import Lia.
From Verif Require Import Base M_BigInt M_Modular M_Curve M_Ecdsa S_BigInt S_Curve S_EcModel S_Ecdsa S_Recover
  P_BigInt1 P_BigInt3 P_BigInt4 P_BigApi P_NumTheory P_Modular P_Curve P_EcModel P_Order P_EcLaws P_Ecdsa1 P_Ecdsa2.
Open Scope Z_scope.

Section Proofs.
Context {cfg : digit_cfg}.

(** ** The leftmost bits of the hash *)
Lemma firstn_bytes k l : bytes l -> bytes (firstn k l).
Proof. intros H. apply Forall_forall. intros x Hx. eapply Forall_forall in H; [exact H|]. rewrite <- (firstn_skipn k l). apply in_or_app. now left. Qed.
Lemma be_val_firstn k l : bytes l -> (k <= length l)%nat -> be_val (firstn k l) = be_val l / 2 ^ (8 * (Z.of_nat (length l) - Z.of_nat k)).
Proof.
  intros H Hk. rewrite <- (firstn_skipn k l) at 2. rewrite be_val_app, skipn_length.
  assert (B : bytes (skipn k l)) by (apply Forall_forall; intros x Hx; eapply Forall_forall in H; [exact H|]; rewrite <- (firstn_skipn k l); apply in_or_app; now right).
  pose proof (be_val_bound _ B) as B2. rewrite skipn_length in B2. rewrite Nat2Z.inj_sub in * by assumption. rewrite Z.pow_mul_r by lia. change (2 ^ 8) with 256.
  rewrite Z.div_add_l by lia. rewrite Z.div_small by exact B2. lia.
Qed.
Lemma from_be_bytes_max_spec bs m : bs <> [] -> bytes bs -> 0 < m ->
  returns (from_be_bytes_max bs m) (be_val bs / 2 ^ Z.max 0 (8 * Z.of_nat (length bs) - m)).
Proof.
  intros Hne Hb Hm. unfold from_be_bytes_max. replace (0 <? m) with true by (symmetry; apply Z.ltb_lt; lia). cbn [oassert dassert].
  destruct (Z.leb_spec (Z.of_nat (length bs) * 8) m) as [L|L].
  - rewrite Z.max_l by lia. rewrite Z.pow_0_r, Z.div_1_r. exact (bi_from_be_bytes_spec bs Positive Hne Hb).
  - rewrite Z.max_r by lia. pose proof (Z.div_mod m 8 ltac:(lia)) as DM. pose proof (Z.mod_pos_bound m 8 ltac:(lia)) as DB.
    pose proof (Z.div_pos m 8 ltac:(lia) ltac:(lia)) as DP.
    assert (NE : forall k, (0 < k)%nat -> firstn k bs <> []) by (intros [|k]; [lia|]; destruct bs; [congruence|discriminate]).
    destruct (Z.eqb_spec (m mod 8) 0) as [E|E].
    + rewrite slice_to_ret by lia. cbn [obind].
      pose proof (bi_from_be_bytes_spec (firstn (Z.to_nat (m / 8)) bs) Positive) as R. rewrite be_val_firstn in R; [|assumption|lia].
      cbn [sgz] in R. replace (8 * Z.of_nat (length bs) - m) with (8 * (Z.of_nat (length bs) - Z.of_nat (Z.to_nat (m / 8)))) by lia.
      apply R; [apply NE; lia|now apply firstn_bytes].
    + rewrite slice_to_ret by lia. cbn [obind].
      pose proof (bi_from_be_bytes_spec (firstn (S (Z.to_nat (m / 8))) bs) Positive) as R. rewrite be_val_firstn in R; [|assumption|lia].
      cbn [sgz] in R. destruct R as (w & -> & Ww & Vw); [apply NE; lia|now apply firstn_bytes|]. cbn [obind].
      destruct (shr_full w (8 - m mod 8) Ww ltac:(lia)) as (r & -> & Wr & Vr). exists r. split; [reflexivity|]. split; [assumption|]. rewrite Vr, Vw.
      pose proof (be_val_bound bs Hb) as B.
      assert (P : 0 <= be_val bs / 2 ^ (8 * (Z.of_nat (length bs) - Z.of_nat (S (Z.to_nat (m / 8)))))) by (apply Z.div_pos; [lia|apply Z.pow_pos_nonneg; lia]).
      rewrite Z.abs_eq by exact P. set (q := be_val bs / _) in *.
      replace (Z.sgn q * (q / 2 ^ (8 - m mod 8))) with (q / 2 ^ (8 - m mod 8)).
      2:{ destruct (Z.eq_dec q 0) as [->|]; [now rewrite Z.div_0_l by (apply Z.pow_nonzero; lia)|]. rewrite Z.sgn_pos by lia. lia. }
      unfold q. rewrite Z.div_div by (try apply Z.pow_nonzero; try apply Z.pow_pos_nonneg; lia). rewrite <- Z.pow_add_r by lia. f_equal. f_equal. lia.
Qed.
Lemma hash_int_bound n bs : bytes bs -> 0 < nbits n -> 0 <= hash_int n bs < 2 ^ nbits n.
Proof.
  intros Hb Hn. unfold hash_int. pose proof (be_val_bound bs Hb) as B. change 256 with (2 ^ 8) in B. rewrite <- Z.pow_mul_r in B by lia.
  split; [apply Z.div_pos; [lia|apply Z.pow_pos_nonneg; lia]|]. apply Z.div_lt_upper_bound; [apply Z.pow_pos_nonneg; lia|].
  rewrite <- Z.pow_add_r by lia. eapply Z.lt_le_trans; [apply B|]. apply Z.pow_le_mono_r; lia.
Qed.

Section Params.
Context (D : params) (HD : code_params D).
Local Notation E := (curve_val (d_curve D)).
Local Notation n := (order D).
Local Notation p := (ep E).
Local Notation G := (pt_val (d_base D)).
Local Notation "k # P" := (emul E k P) (at level 35, right associativity).
Let OKD : params_ok (params_val D). Proof. apply HD. Qed.
Let OK : curve_ok E. Proof. apply OKD. Qed.
Let Hn : prime n. Proof. apply OKD. Qed.
Let N2 : 2 < n. Proof. apply OKD. Qed.
Let N0 : 0 < n. Proof. lia. Qed.
Let Wn : wf (d_order D). Proof. apply HD. Qed.
Let HG : on_curve E G. Proof. apply OKD. Qed.
Let HC : code_curve (d_curve D). Proof. now apply params_curve. Qed.

Lemma hash_n_spec hash : hash <> [] -> bytes hash ->
  exists h, from_be_bytes_max hash (nbits n) = Ret h /\ code_hash D h /\ bi_val h = hash_int n hash.
Proof.
  intros Hne Hb. pose proof (nbits_pos D) as NP. destruct (from_be_bytes_max_spec hash (nbits n) Hne Hb NP) as (h & H1 & H2 & H3).
  exists h. split; [exact H1|]. split; [|exact H3]. split; [exact H2|]. rewrite H3. apply (hash_int_bound n hash Hb NP).
Qed.
Lemma strict_dec (c : digit_cfg) m : strict_usable c m \/ ~ strict_usable c m.
Proof. unfold strict_usable. destruct (Z.eq_dec (nbits m mod 8) 0); [tauto|]. destruct (debug_checks c); [right; intros [?|?]; [contradiction|discriminate]|tauto]. Qed.
Lemma matches_spec len : strict_usable cfg n -> hash_length_matches len D = Ret (8 * len =? nbits n).
Proof.
  intros H. unfold hash_length_matches. rewrite (bit_len_n D HD). cbn [obind]. unfold dcheck. cbn [obind]. rewrite (Z.mul_comm 8).
  destruct H as [H|H]; rewrite H; [|reflexivity]. now destruct (debug_checks cfg).
Qed.
Lemma matches_panics len : ~ strict_usable cfg n -> hash_length_matches len D = Panic.
Proof.
  intros H. unfold hash_length_matches. rewrite (bit_len_n D HD). cbn [obind]. unfold dcheck. cbn [obind].
  assert (H1 : nbits n mod 8 <> 0) by (intros K; apply H; now left). assert (H2 : debug_checks cfg = true).
  { destruct (debug_checks cfg) eqn:G; [reflexivity|]. exfalso. apply H. now right. }
  rewrite H2. apply Z.eqb_neq in H1. rewrite H1. reflexivity.
Qed.

(** ** Verification *)
Lemma verify_spec pk sg hash o : code_pk pk -> pk_params pk = D -> code_sig sg -> sig_params sg = D -> bytes hash -> hash <> [] ->
  (vo_strict o = true -> strict_usable cfg n) ->
  exists b, verify_with_options hash sg pk o = Ret (
      if vo_low_s o && (n / 2 <? bi_val (sig_s sg)) then Err VStrictHighS
      else if vo_strict o && negb (8 * Z.of_nat (length hash) =? nbits n) then Err VHashBitLength
      else if hash_int n hash =? 0 then Err VZeroHash
      else Ok b) /\
    (b = true <-> ecdsa_valid (params_val D) (pt_val (pk_data pk)) (hash_int n hash) (bi_val (sig_r sg)) (bi_val (sig_s sg))).
Proof.
  intros HP EP (_ & Wr & Ws & Hr & Hs) ES Hb Hne ST. rewrite ES in Hr, Hs. destruct (hash_n_spec hash Hne Hb) as (h & H1 & H2 & H3).
  destruct (pk_verify_spec D HD pk h sg HP EP H2 Wr Ws Hr Hs) as (b & B1 & B2). exists b. rewrite H3 in B2. split; [|exact B2].
  unfold verify_with_options. destruct hash as [|b0 bs0] eqn:EH; [congruence|]. rewrite <- EH in *.
  assert (EQ1 : (if vo_low_s o then low <- is_low_s_signature sg ;; Ret (negb low) else Ret false) = Ret (vo_low_s o && (n / 2 <? bi_val (sig_s sg)))).
  { destruct (vo_low_s o); [|reflexivity]. rewrite (is_low_s_spec D HD) by assumption. cbn [obind andb]. now rewrite Z.ltb_antisym. }
  rewrite EQ1. cbn [obind]. destruct (_ && _); [reflexivity|]. rewrite EP.
  assert (EQ2 : (if vo_strict o then m <- hash_length_matches (Z.of_nat (length hash)) D ;; Ret (negb m) else Ret false) = Ret (vo_strict o && negb (8 * Z.of_nat (length hash) =? nbits n))).
  { destruct (vo_strict o); [|reflexivity]. rewrite matches_spec by auto. reflexivity. }
  rewrite EQ2. cbn [obind]. destruct (_ && _); [reflexivity|]. rewrite (bit_len_n D HD). cbn [obind]. rewrite H1. cbn [obind].
  rewrite is_zero_spec by apply H2. cbn [obind]. rewrite H3. destruct (_ =? 0); [reflexivity|]. rewrite B1. reflexivity.
Qed.
Lemma verify_panics pk sg hash o : pk_params pk = D -> sig_params sg = D -> wf (sig_s sg) -> hash <> [] -> vo_strict o = true -> ~ strict_usable cfg n ->
  (vo_low_s o = true -> bi_val (sig_s sg) <= n / 2) -> verify_with_options hash sg pk o = Panic.
Proof.
  intros EP ES Ws Hne ST NB LS. unfold verify_with_options. destruct hash as [|b0 bs0] eqn:EH; [congruence|]. rewrite <- EH in *.
  assert (EQ1 : (if vo_low_s o then low <- is_low_s_signature sg ;; Ret (negb low) else Ret false) = Ret false).
  { destruct (vo_low_s o); [|reflexivity]. rewrite (is_low_s_spec D HD) by assumption. cbn [obind]. f_equal. apply negb_false_iff, Z.leb_le. auto. }
  rewrite EQ1. cbn [obind]. rewrite ST, EP, matches_panics by assumption. reflexivity.
Qed.

(** ** Recovery *)
Section Recover.
Context (sg : signature) (HS : code_sig sg) (ES : sig_params sg = D).
Context (CF : 0 <= d_cofactor D < 2 ^ 32).
Context (h : bigint) (Hh : code_hash D h).
Context (e_neg : bigint) (We : wf e_neg) (Ve : bi_val e_neg = (- bi_val h) mod n).
Context (r_inv : bigint) (Wri : wf r_inv) (Vri : bi_val r_inv = zinv n (bi_val (sig_r sg))).
Local Notation r := (bi_val (sig_r sg)).
Local Notation s := (bi_val (sig_s sg)).
Local Notation e := (bi_val h).
Local Notation rec R := (recovered (params_val D) R e r s).
Let Wr : wf (sig_r sg). Proof. apply HS. Qed.
Let Ws : wf (sig_s sg). Proof. apply HS. Qed.
Let Hr : 1 <= r < n. Proof. destruct HS as (_ & _ & _ & K & _). now rewrite ES in K. Qed.
Let Hs : 1 <= s < n. Proof. destruct HS as (_ & _ & _ & _ & K). now rewrite ES in K. Qed.

(** What is known of every key the search returns. *)
Definition good_key (pk : public_key) : Prop :=
  code_pk pk /\ pk_params pk = D /\ ecdsa_valid (params_val D) (pt_val (pk_data pk)) e r s.
(** The key recovered from R is valid and accepts the signature. *)
Definition good_point (R : epoint) : Prop :=
  exists x y, rec R = Some (x, y) /\ valid_public (params_val D) x y /\ ecdsa_valid (params_val D) (rec R) e r s.

Lemma sqrt_zero (a q : bigint) : wf a -> wf q -> bi_val a = 0 -> sqrt a q = Panic.
Proof.
  intros Wa Wq Z0. unfold sqrt. ret bi_zero_spec z Wz Vz. ret bi_one_spec o Wo Vo. ret (from_int_small (cfg:=cfg) 2 ltac:(lia)) two W2 V2.
  rewrite is_odd_spec by assumption. cbn [obind]. destruct (Z.odd (bi_val q)); [|reflexivity]. cbn [oassert]. rewrite bi_gt_spec by assumption. cbn [obind].
  destruct (_ <? _); [|reflexivity]. cbn [oassert]. rewrite bi_gt_spec by assumption. rewrite Vz, Z0. reflexivity.
Qed.
Lemma mul_cases P k : code_point (d_curve D) P -> wf k -> 0 <= bi_val k ->
  (doubles_two E (bi_val k) (pt_val P) /\ mul_point (d_curve D) P k = Panic) \/
  (~ doubles_two E (bi_val k) (pt_val P) /\
   exists R, mul_point (d_curve D) P k = Ret R /\ code_point (d_curve D) R /\ pt_val R = bi_val k # pt_val P).
Proof.
  intros HP Wk Hk. destruct (doubles_two_dec E (bi_val k) (pt_val P)) as [T|T].
  - left. split; [exact T|]. now apply mul_panic_if.
  - right. split; [exact T|]. apply mul_full; try assumption. intros i Hi L K. apply T. now exists i.
Qed.
Definition trap (R : epoint) : Prop := recovery_trap (params_val D) e r s R.
Lemma pt_val_some x y : ~ (x = 0 /\ y = 0) -> forall P, bi_val (px P) = x -> bi_val (py P) = y -> pt_val P = Some (x, y).
Proof.
  intros H P <- <-. unfold pt_val. destruct (Z.eqb_spec (bi_val (px P)) 0), (Z.eqb_spec (bi_val (py P)) 0); cbn [andb]; try reflexivity. exfalso. auto.
Qed.

Lemma candidate_spec R : code_point (d_curve D) R ->
  (trap (pt_val R) /\ recover_candidate sg h e_neg r_inv R = Panic) \/
  (~ trap (pt_val R) /\ exists ks, recover_candidate sg h e_neg r_inv R = Ret ks /\ (length ks <= 1)%nat /\
    (forall pk, In pk ks -> good_key pk /\ pt_val (pk_data pk) = rec (pt_val R)) /\
    (good_point (pt_val R) -> exists pk, In pk ks /\ pt_val (pk_data pk) = rec (pt_val R))).
Proof.
  intros HR. unfold recover_candidate. rewrite ES. unfold trap, recovery_trap. cbv zeta. cbn [params_val e_curve e_order e_base e_cofactor].
  destruct (mul_cases R (sig_s sg) HR Ws ltac:(lia)) as [[T ->]|(T1 & sr & -> & Hsr & Vsr)]; cbn [obind].
  { left. split; [now left|reflexivity]. }
  destruct (mul_cases (d_base D) e_neg (base_code D HD) We) as [[T _]|(_ & eg & -> & Heg & Veg)]; cbn [obind].
  { rewrite Ve. apply Z.mod_pos_bound. lia. }
  { exfalso. destruct T as (i & Hi & _ & T). revert T. apply (kG_no2 (params_val D) OKD). apply Z.pow_nonneg. lia. }
  destruct (add_full (d_curve D) sr eg HC Hsr Heg) as (q0 & -> & Hq0 & Vq0).
  { intros [T1' T2]. rewrite T1', Veg in T2. revert T2. apply (kG_no2 (params_val D) OKD). rewrite Ve. apply Z.mod_pos_bound. lia. } cbn [obind].
  assert (VT : pt_val q0 = eadd E (s # pt_val R) (((- e) mod n) # pt_val (d_base D))) by (rewrite Vq0, Vsr, Veg, Ve; reflexivity).
  change (bi_val (d_order D)) with n. rewrite <- VT, <- Vri. clear Vsr Veg Vq0.
  destruct (mul_cases q0 r_inv Hq0 Wri) as [[T ->]|(T2 & q & -> & Hq & Vq)]; cbn [obind].
  { rewrite Vri. pose proof (zinv_range n Hn r). lia. }
  { left. split; [right; now left|reflexivity]. }
  assert (Eq : pt_val q = rec (pt_val R)) by (rewrite Vq, VT, Vri; reflexivity). rewrite <- Vq.
  destruct (public_key_cases D HD q (proj1 Hq)) as [(C1 & O & T & ->)|(NB & b & -> & HB)]; cbn [obind].
  { left. split; [right; right; auto|reflexivity]. }
  right. split. { intros [K|[K|[K1 K2]]]; [now apply T1|now apply T2|]. apply NB; [exact K1|apply Hq|exact K2]. }
  destruct b.
  - assert (V : valid_public (params_val D) (bi_val (px q)) (bi_val (py q))) by now apply HB.
    assert (CP : code_pk (mkPk q D)) by (split; [exact HD|]; split; [apply Hq|exact V]).
    destruct (pk_verify_spec D HD (mkPk q D) h sg CP eq_refl Hh Wr Ws Hr Hs) as (b & -> & HB2). cbn [obind]. cbn [pk_data] in HB2. destruct b.
    + exists [mkPk q D]. split; [reflexivity|]. split; [cbn; lia|]. split.
      * intros pk [<-|[]]. split; [|exact Eq]. split; [exact CP|]. split; [reflexivity|]. now apply HB2.
      * intros _. exists (mkPk q D). split; [now left|exact Eq].
    + exists []. split; [reflexivity|]. split; [cbn; lia|]. split; [intros pk []|]. intros (x & y & _ & _ & K). rewrite <- Eq in K. apply HB2 in K. discriminate.
  - exists []. split; [reflexivity|]. split; [cbn; lia|]. split; [intros pk []|]. intros (x & y & K1 & K2 & _). rewrite <- Eq in K1.
    destruct (pt_some q x y (proj1 Hq) K1) as [Ex Ey]. rewrite <- Ex, <- Ey in K2. apply HB in K2. discriminate.
Qed.
Lemma points_spec Rs : Forall (code_point (d_curve D)) Rs ->
  ((exists R, In R Rs /\ trap (pt_val R)) /\ recover_points sg h e_neg r_inv Rs = Panic) \/
  ((forall R, In R Rs -> ~ trap (pt_val R)) /\
   exists ks, recover_points sg h e_neg r_inv Rs = Ret ks /\ (length ks <= length Rs)%nat /\
    (forall pk, In pk ks -> good_key pk /\ exists R, In R Rs /\ pt_val (pk_data pk) = rec (pt_val R)) /\
    (forall R, In R Rs -> good_point (pt_val R) -> exists pk, In pk ks /\ pt_val (pk_data pk) = rec (pt_val R))).
Proof.
  induction 1 as [|R Rs HR _ IH]; cbn [recover_points].
  - right. split; [intros R []|]. exists []. split; [reflexivity|]. split; [cbn; lia|]. split; [intros pk []|intros R []].
  - destruct (candidate_spec R HR) as [[T ->]|(T & ks & -> & L & S1 & C1)].
    { left. split; [|reflexivity]. exists R. split; [now left|exact T]. }
    destruct IH as [[(R' & I & T') ->]|(T' & ks' & -> & L' & S2 & C2)]; cbn [obind].
    { left. split; [|reflexivity]. exists R'. split; [now right|exact T']. }
    right. split. { intros R' [<-|H]; [exact T|now apply T']. }
    exists (ks ++ ks'). split; [reflexivity|]. split; [rewrite app_length; cbn [length]; lia|]. split.
    + intros pk H. apply in_app_or in H. destruct H as [H|H].
      * destruct (S1 pk H) as [K1 K2]. split; [exact K1|]. exists R. split; [now left|exact K2].
      * destruct (S2 pk H) as (K1 & R' & K2 & K3). split; [exact K1|]. exists R'. split; [now right|exact K3].
    + intros R' [<-|H] GP.
      * destruct (C1 GP) as (pk & K1 & K2). exists pk. split; [apply in_or_app; now left|exact K2].
      * destruct (C2 R' H GP) as (pk & K1 & K2). exists pk. split; [apply in_or_app; now right|exact K2].
Qed.

(** The points of the search: abscissa r + j n below p for j from lo to hi, ordinate of the wanted parity. *)
Definition candidate (id : option recovery_id) (lo hi x y : Z) : Prop :=
  exists j, lo <= j <= hi /\ x = r + j * n /\ on_curve E (Some (x, y)) /\ id_parity id y.

Let Hp : prime p. Proof. apply OK. Qed.
Let P3 : 3 < p. Proof. apply OK. Qed.
Let Wp : wf (c_p (d_curve D)). Proof. apply HC. Qed.
Lemma p_odd' : Z.odd p = true.
Proof. pose proof (p_odd p Hp ltac:(lia)) as O. rewrite Z.odd_spec. exists (p / 2). pose proof (Z.div_mod p 2). lia. Qed.

Lemma select_spec id x y1 y2 : wf x -> wf y1 -> wf y2 -> 0 < bi_val x < p ->
  (forall t, 0 <= t < p -> (t * t) mod p = (bi_val x * bi_val x * bi_val x + ea E * bi_val x + eb E) mod p <-> t = bi_val y1 \/ t = bi_val y2) ->
  0 < bi_val y1 < p -> bi_val y2 = p - bi_val y1 ->
  exists Rs, select_points id x y1 y2 = Ret Rs /\ Forall (code_point (d_curve D)) Rs /\ (id <> None -> length Rs = 1)%nat /\
    (forall R, In R Rs -> exists y, pt_val R = Some (bi_val x, y) /\ id_parity id y) /\
    (forall y, on_curve E (Some (bi_val x, y)) -> id_parity id y -> exists R, In R Rs /\ pt_val R = Some (bi_val x, y)).
Proof.
  intros Wx W1 W2 Hx HR H1 H2.
  assert (CP : forall y, y = y1 \/ y = y2 -> code_point (d_curve D) (mkPoint x y) /\ pt_val (mkPoint x y) = Some (bi_val x, bi_val y)).
  { intros y Hy. assert (PV : pt_val (mkPoint x y) = Some (bi_val x, bi_val y)) by (apply pt_val_some; [lia|reflexivity|reflexivity]). split; [|exact PV].
    split; [split; [exact Wx|destruct Hy as [->| ->]; assumption]|]. rewrite PV. split; [lia|]. 
    assert (Ry : 0 <= bi_val y < p) by (destruct Hy as [->| ->]; lia). split; [exact Ry|]. apply HR; [exact Ry|]. destruct Hy as [->| ->]; auto. }
  assert (PO : Z.odd (bi_val y2) = negb (Z.odd (bi_val y1))) by (rewrite H2, Z.odd_sub, p_odd'; destruct (Z.odd (bi_val y1)); reflexivity).
  assert (ONE : forall w, (exists c : bool, select_points id x y1 y2 = Ret [mkPoint x (if c then y1 else y2)] /\
      (forall y, y = y1 \/ y = y2 -> id_parity id (bi_val y) <-> (Z.odd (bi_val y) = w)) /\ (c = Bool.eqb (Z.odd (bi_val y1)) w)) ->
      exists Rs, select_points id x y1 y2 = Ret Rs /\ Forall (code_point (d_curve D)) Rs /\ (id <> None -> length Rs = 1)%nat /\
    (forall R, In R Rs -> exists y, pt_val R = Some (bi_val x, y) /\ id_parity id y) /\
    (forall y, on_curve E (Some (bi_val x, y)) -> id_parity id y -> exists R, In R Rs /\ pt_val R = Some (bi_val x, y))).
  { intros w (c & -> & PK & EC). set (y := if c then y1 else y2). assert (Hy : y = y1 \/ y = y2) by (unfold y; destruct c; auto).
    assert (Oy : Z.odd (bi_val y) = w). { unfold y. rewrite EC. destruct (Z.odd (bi_val y1)) eqn:O1, w; cbn [Bool.eqb]; rewrite ?PO, ?O1; reflexivity. }
    destruct (CP y Hy) as [K1 K2]. exists [mkPoint x y]. split; [reflexivity|]. split; [now constructor|]. split; [reflexivity|]. split.
    - intros R [<-|[]]. exists (bi_val y). split; [exact K2|]. now apply PK.
    - intros t Ot Pt. exists (mkPoint x y). split; [now left|]. rewrite K2. f_equal. f_equal.
      assert (Ht : t = bi_val y1 \/ t = bi_val y2). { apply HR; [apply Ot|apply Ot]. }
      assert (Ow : Z.odd t = w). { destruct Ht as [->| ->]; [apply (PK y1)|apply (PK y2)]; auto. }
      eapply (parity_point (params_val D) OKD); [|exact Ot|congruence]. destruct K1 as [_ K1]. rewrite K2 in K1. exact K1. }
  unfold select_points in *. destruct id as [[| | |]|]; cbn [id_parity] in *.
  - apply (ONE false). exists (Z.even (bi_val y1)). rewrite is_even_spec by assumption. cbn [obind]. split; [reflexivity|]. split; [tauto|]. rewrite <- Z.negb_odd. now destruct (Z.odd (bi_val y1)).
  - apply (ONE true). exists (Z.odd (bi_val y1)). rewrite is_odd_spec by assumption. cbn [obind]. split; [reflexivity|]. split; [tauto|]. now destruct (Z.odd (bi_val y1)).
  - apply (ONE false). exists (Z.even (bi_val y1)). rewrite is_even_spec by assumption. cbn [obind]. split; [reflexivity|]. split; [tauto|]. rewrite <- Z.negb_odd. now destruct (Z.odd (bi_val y1)).
  - apply (ONE true). exists (Z.odd (bi_val y1)). rewrite is_odd_spec by assumption. cbn [obind]. split; [reflexivity|]. split; [tauto|]. now destruct (Z.odd (bi_val y1)).
  - destruct (CP y1 (or_introl eq_refl)) as [K1 V1]. destruct (CP y2 (or_intror eq_refl)) as [K2 V2].
    exists [mkPoint x y1; mkPoint x y2]. split; [reflexivity|]. split; [constructor; [exact K1|constructor; [exact K2|constructor]]|]. split; [congruence|]. split.
    + intros R [<-|[<-|[]]]; eauto.
    + intros t Ot _. assert (Ht : t = bi_val y1 \/ t = bi_val y2) by (apply HR; apply Ot). destruct Ht as [->| ->].
      * exists (mkPoint x y1). split; [now left|exact V1].
      * exists (mkPoint x y2). split; [right; now left|exact V2].
Qed.

Definition blocked (id : option recovery_id) (lo hi : Z) : Prop :=
  exists j x, lo <= j <= hi /\ x = r + j * n /\
    (on_curve E (Some (x, 0)) \/ exists y, on_curve E (Some (x, y)) /\ id_parity id y /\ trap (Some (x, y))).
Lemma loop_spec id k : forall j, 0 <= j -> j + Z.of_nat k <= 2 ^ 33 ->
  (blocked id j (j + Z.of_nat k - 1) /\ recover_loop sg h e_neg r_inv id k j = Panic) \/
  (~ blocked id j (j + Z.of_nat k - 1) /\
   exists ks, recover_loop sg h e_neg r_inv id k j = Ret ks /\ (id <> None -> length ks <= k)%nat /\
    (forall pk, In pk ks -> good_key pk /\ exists x y, candidate id j (j + Z.of_nat k - 1) x y /\ pt_val (pk_data pk) = rec (Some (x, y))) /\
    (forall x y, candidate id j (j + Z.of_nat k - 1) x y -> good_point (Some (x, y)) -> exists pk, In pk ks /\ pt_val (pk_data pk) = rec (Some (x, y)))).
Proof.
  induction k as [|k IH]; intros j Hj Hk; cbn [recover_loop].
  { right. split; [intros (j' & x & Hj' & _); lia|]. exists []. split; [reflexivity|]. split; [cbn; lia|]. split; [intros pk []|]. intros x y (j' & Hj' & _). cbn in Hj'. lia. }
  cbv zeta. rewrite ES. change (2 ^ 33) with 8589934592 in *.
  assert (NEXT : (blocked id (j + 1) (j + Z.of_nat (S k) - 1) /\ recover_loop sg h e_neg r_inv id k (j + 1) = Panic) \/
    (~ blocked id (j + 1) (j + Z.of_nat (S k) - 1) /\ exists ks, recover_loop sg h e_neg r_inv id k (j + 1) = Ret ks /\ (id <> None -> length ks <= k)%nat /\
    (forall pk, In pk ks -> good_key pk /\ exists x y, candidate id (j + 1) (j + Z.of_nat (S k) - 1) x y /\ pt_val (pk_data pk) = rec (Some (x, y))) /\
    (forall x y, candidate id (j + 1) (j + Z.of_nat (S k) - 1) x y -> good_point (Some (x, y)) -> exists pk, In pk ks /\ pt_val (pk_data pk) = rec (Some (x, y))))).
  { pose proof (IH (j + 1) ltac:(lia) ltac:(lia)) as K. replace (j + 1 + Z.of_nat k - 1) with (j + Z.of_nat (S k) - 1) in K by lia. exact K. }
  clear IH. destruct (from_u128_spec j Positive) as (jb & Ej & Wj & Vj). { change (2 ^ 128) with 340282366920938463463374607431768211456. lia. }
  unfold from_uint. rewrite Ej. cbn [obind sgz] in *. ret (bi_mul_spec jb (d_order D) Wj Wn) jn Wjn Vjn. ret (bi_add_spec (sig_r sg) jn Wr Wjn) x Wx Vx.
  rewrite Vjn, Vj in Vx. change (bi_val (d_order D)) with n in Vx. rewrite bi_ge_spec by assumption. cbn [obind].
  change (bi_val (c_p (d_curve D))) with p. destruct (Z.leb_spec p (bi_val x)) as [L|L].
  { right. split. { intros (j' & x' & Hj' & -> & [(Ox & _)|(y' & (Ox & _) & _)]); change (ep E) with p in Ox; nia. }
    exists []. split; [reflexivity|]. split; [cbn; lia|]. split; [intros pk []|]. intros x' y' (j' & Hj' & -> & (Ox & _) & _) _. exfalso. nia. }
  assert (Hx : 0 < bi_val x < p) by (pose proof (Z.mul_nonneg_nonneg j n Hj (Z.lt_le_incl _ _ N0)); clear Vjn; split; [lia|exact L]).
  assert (PP : 0 < p) by (clear - P3; lia).
  ret (bi_mul_spec x x Wx Wx) t1 Wt1 Vt1. ret (bi_mul_spec t1 x Wt1 Wx) t2 Wt2 Vt2.
  assert (Wa : wf (c_a (d_curve D))) by apply HC. assert (Wb : wf (c_b (d_curve D))) by apply HC.
  ret (bi_mul_spec (c_a (d_curve D)) x Wa Wx) t3 Wt3 Vt3. ret (bi_add_spec t2 t3 Wt2 Wt3) t4 Wt4 Vt4. ret (bi_add_spec t4 (c_b (d_curve D)) Wt4 Wb) t5 Wt5 Vt5.
  destruct (modulo_spec t5 (c_p (d_curve D)) Wt5 Wp) as (ys & -> & Wys & Vys). { exact PP. } cbn [obind].
  change (bi_val (c_p (d_curve D))) with p in Vys.
  assert (Vys' : bi_val ys = (bi_val x * bi_val x * bi_val x + ea E * bi_val x + eb E) mod p).
  { rewrite Vys, Vt5, Vt4, Vt3, Vt2, Vt1. reflexivity. }
  assert (O0 : bi_val ys = 0 <-> on_curve E (Some (bi_val x, 0))).
  { rewrite Vys'. split.
    - intros K. split; [change (ep E) with p; lia|]. split; [change (ep E) with p; lia|]. change (ep E) with p. change (0 * 0) with 0. rewrite Z.mod_0_l by lia. now symmetry.
    - intros (_ & _ & K). change (ep E) with p in K. rewrite <- K. change (0 * 0) with 0. apply Z.mod_0_l. lia. }
  destruct (Z.eq_dec (bi_val ys) 0) as [YZ|YS0].
  { left. split; [|now rewrite (sqrt_zero ys (c_p (d_curve D)) Wys Wp YZ)]. exists j, (bi_val x). split; [lia|]. split; [lia|]. left. now apply O0. }
  assert (YS : 0 < bi_val ys < p) by (pose proof (Z.mod_pos_bound (bi_val t5) p PP) as K; rewrite <- Vys in K; clear - K YS0; lia).
  clear Vt1 Vt2 Vt3 Vt4 Vt5 Vys.
  destruct (sqrt_full ys (c_p (d_curve D)) Wys Wp Hp ltac:(change (bi_val (c_p (d_curve D))) with p; lia) YS) as [(y1 & y2 & EQ & W1 & W2 & HR & NE)|[EQ HN]].
  - destruct (sqrt_spec ys (c_p (d_curve D)) Wys Wp Hp ltac:(change (bi_val (c_p (d_curve D))) with p; lia) YS) as [(y1' & y2' & EQ' & _ & _ & R1 & R2 & _)|[EQ' _]]; [|congruence].
    rewrite EQ in EQ'. injection EQ' as <- <-. change (bi_val (c_p (d_curve D))) with p in *. rewrite EQ. cbn [obind].
    assert (R1' : 0 < bi_val y1 < p).
    { destruct (Z.eq_dec (bi_val y1) 0) as [K|K]; [|lia]. exfalso. assert (K2 : (bi_val y1 * bi_val y1) mod p = bi_val ys) by (apply HR; [lia|now left]).
      rewrite K in K2. change (0 * 0) with 0 in K2. rewrite Z.mod_0_l in K2; lia. }
    destruct (select_spec id x y1 y2 Wx W1 W2 Hx) as (Rs & -> & FR & LR & S1 & C1); [rewrite <- Vys'; exact HR|exact R1'|exact R2|]. cbn [obind].
    destruct (points_spec Rs FR) as [[(R & IR & T) ->]|(T & ks & -> & Lk & S2 & C2)]; cbn [obind].
    { left. split; [|reflexivity]. exists j, (bi_val x). split; [lia|]. split; [lia|]. right. destruct (S1 R IR) as (y & PV & PY). exists y. rewrite <- PV.
      split; [|split; [exact PY|exact T]]. eapply Forall_forall in FR; [|exact IR]. apply FR. }
    destruct NEXT as [[(j' & x' & Hj' & K) ->]|(NB & ks' & -> & Lk' & S3 & C3)]; cbn [obind].
    { left. split; [|reflexivity]. exists j', x'. split; [lia|exact K]. }
    right. split.
    { intros (j' & x' & Hj' & Ex & K). destruct (Z.eq_dec j' j) as [->|NJ]; [|apply NB; exists j', x'; split; [lia|]; auto].
      assert (Exx : x' = bi_val x) by lia. rewrite Exx in K. destruct K as [K|(y & O & PY & K)]; [apply YS0; now apply O0|].
      destruct (C1 y O PY) as (R & IR & PV). apply (T R IR). now rewrite PV. }
    exists (ks ++ ks'). split; [reflexivity|]. split; [intros I; rewrite app_length; specialize (LR I); specialize (Lk' I); lia|]. split.
    + intros pk H. apply in_app_or in H. destruct H as [H|H].
      * destruct (S2 pk H) as (G1 & R & IR & ER). split; [exact G1|]. destruct (S1 R IR) as (y & PV & PY). exists (bi_val x), y. rewrite <- PV.
        split; [|exact ER]. exists j. split; [lia|]. split; [lia|]. split; [|exact PY]. rewrite <- PV. eapply Forall_forall in FR; [|exact IR]. apply FR.
      * destruct (S3 pk H) as (G1 & x' & y' & (j' & Hj' & CC) & ER). split; [exact G1|]. exists x', y'. split; [|exact ER]. exists j'. split; [lia|exact CC].
    + intros x' y' (j' & Hj' & Ex & CO & CPar) GP. destruct (Z.eq_dec j' j) as [->|NJ].
      * assert (Exx : x' = bi_val x) by lia. subst x'. rewrite Exx in *. destruct (C1 y' CO CPar) as (R & IR & PV). rewrite <- PV in GP.
        destruct (C2 R IR GP) as (pk & I1 & I2). exists pk. split; [apply in_or_app; now left|]. rewrite <- PV. exact I2.
      * destruct (C3 x' y') as (pk & I1 & I2); [exists j'; split; [lia|]; auto|exact GP|]. exists pk. split; [apply in_or_app; now right|exact I2].
  - rewrite EQ. cbn [obind]. destruct NEXT as [[(j' & x' & Hj' & K) ->]|(NB & ks' & -> & Lk' & S3 & C3)].
    { left. split; [|reflexivity]. exists j', x'. split; [lia|exact K]. }
    right. split.
    { intros (j' & x' & Hj' & Ex & K). destruct (Z.eq_dec j' j) as [->|NJ]; [|apply NB; exists j', x'; split; [lia|]; auto].
      assert (Exx : x' = bi_val x) by lia. rewrite Exx in K. destruct K as [K|(y & (_ & _ & O) & _)]; [apply YS0; now apply O0|].
      apply (HN y). change (bi_val (c_p (d_curve D))) with p. change (ep E) with p in O. congruence. }
    exists ks'. split; [reflexivity|]. split; [intros I; specialize (Lk' I); lia|]. split.
    + intros pk H. destruct (S3 pk H) as (G1 & x' & y' & (j' & Hj' & CC) & ER). split; [exact G1|]. exists x', y'. split; [|exact ER]. exists j'. split; [lia|exact CC].
    + intros x' y' (j' & Hj' & Ex & CO & CPar) GP. destruct (Z.eq_dec j' j) as [->|NJ].
      * exfalso. assert (Exx : x' = bi_val x) by lia. rewrite Exx in CO. destruct CO as (_ & _ & CO). apply (HN y'). change (bi_val (c_p (d_curve D))) with p. congruence.
      * destruct (C3 x' y') as (pk & I1 & I2); [exists j'; split; [lia|]; auto|exact GP|]. exists pk. split; [exact I1|exact I2].
Qed.
End Recover.
End Params.
End Proofs.

(** The nonce generator against RFC 6979. *)

From Coq Require Import Lia.
From Verif Require Import Base M_BigInt M_Modular M_Curve M_Loop M_Hmac M_Random M_Ecdsa M_Rfc6979 S_BigInt S_Curve S_EcModel S_Hash S_Ecdsa S_Rfc6979
  P_BigInt1 P_BigInt3 P_BigInt4 P_BigApi P_NumTheory P_Modular P_Hash P_Ecdsa1 P_Ecdsa2 P_Ecdsa3.
Open Scope Z_scope.

(** * A loop that follows a sequence of abstract states until one of them is final *)
Section Follow.
Context {S R A : Type} (body : S -> outcome (S + R)) (Rel : S -> A -> Prop) (next : A -> A) (final : A -> Prop) (Q : A -> R -> Prop).
Hypothesis Hstep : forall s a, Rel s a ->
  (exists s', body s = Ret (inl s') /\ Rel s' (next a) /\ ~ final a) \/ (exists r, body s = Ret (inr r) /\ final a /\ Q a r).
Lemma iter_plus i j a : Nat.iter i next (Nat.iter j next a) = Nat.iter (i + j) next a.
Proof. induction i as [|i IH]; cbn; [reflexivity|now f_equal]. Qed.
Lemma loop_follow n : forall s a, Rel s a ->
  (exists s', loop n body s = Ret (inl s') /\ Rel s' (Nat.iter (2 ^ n) next a) /\ forall j, (j < 2 ^ n)%nat -> ~ final (Nat.iter j next a)) \/
  (exists r i, loop n body s = Ret (inr r) /\ final (Nat.iter i next a) /\ Q (Nat.iter i next a) r /\ forall j, (j < i)%nat -> ~ final (Nat.iter j next a)).
Proof.
  induction n as [|n IH]; intros s a Hs; cbn [loop].
  - destruct (Hstep s a Hs) as [(s' & E & H1 & H2)|(r & E & H1 & H2)].
    + left. exists s'. split; [exact E|]. split; [exact H1|]. cbn. intros [|j] Hj; [exact H2|lia].
    + right. exists r, O. split; [exact E|]. split; [exact H1|]. split; [exact H2|]. intros j Hj. lia.
  - destruct (IH s a Hs) as [(s1 & -> & H1 & M1)|(r & i & -> & H)]; cbn [obind]; [|right; exists r, i; auto].
    destruct (IH s1 _ H1) as [(s2 & -> & H2 & M2)|(r & i & -> & H2 & H3 & M2)].
    + left. exists s2. split; [reflexivity|]. rewrite iter_plus in H2. replace (2 ^ Datatypes.S n)%nat with (2 ^ n + 2 ^ n)%nat by (cbn; lia). split; [exact H2|].
      intros j Hj. destruct (Nat.lt_ge_cases j (2 ^ n)) as [L|L]; [now apply M1|]. specialize (M2 (j - 2 ^ n)%nat ltac:(lia)). rewrite iter_plus in M2.
      replace (j - 2 ^ n + 2 ^ n)%nat with j in M2 by lia. exact M2.
    + right. exists r, (i + 2 ^ n)%nat. rewrite iter_plus in H2, H3. split; [reflexivity|]. split; [exact H2|]. split; [exact H3|].
      intros j Hj. destruct (Nat.lt_ge_cases j (2 ^ n)) as [L|L]; [now apply M1|]. specialize (M2 (j - 2 ^ n)%nat ltac:(lia)). rewrite iter_plus in M2.
      replace (j - 2 ^ n + 2 ^ n)%nat with j in M2 by lia. exact M2.
Qed.
Lemma run_loop_follow n s a : Rel s a ->
  (run_loop n body s = OutOfFuel /\ forall j, (j < 2 ^ n)%nat -> ~ final (Nat.iter j next a)) \/
  (exists r i, run_loop n body s = Ret r /\ final (Nat.iter i next a) /\ Q (Nat.iter i next a) r /\ forall j, (j < i)%nat -> ~ final (Nat.iter j next a)).
Proof.
  intros Hs. unfold run_loop. destruct (loop_follow n s a Hs) as [(s1 & -> & H1 & M1)|(r & i & -> & H)]; cbn [obind]; [left; auto|right; exists r, i; auto].
Qed.
End Follow.

Section Proofs.
Context {cfg : digit_cfg}.
Section Order.
Context (q : bigint) (Wq : wf q) (Hq : 2 < bi_val q).
Local Notation Q := (bi_val q).
Local Notation rf := (mkRfc q (nbits Q) ((nbits Q + 7) / 8 * 8)).

Lemma nb_pos : 0 < nbits Q. Proof. unfold nbits. pose proof (Z.log2_nonneg Q). lia. Qed.
Lemma nb_bounds : 2 ^ (nbits Q - 1) <= Q < 2 ^ nbits Q.
Proof. unfold nbits. replace (Z.log2 Q + 1 - 1) with (Z.log2 Q) by lia. rewrite Z.add_1_r. apply Z.log2_spec. lia. Qed.
Lemma rfc6979_new_spec extra : rfc6979_new q extra = Ret (rf extra).
Proof.
  unfold rfc6979_new. rewrite bit_len_spec by assumption. cbn [obind]. unfold blen, nbits. rewrite Z.abs_eq by lia. destruct (Z.eqb_spec Q 0); [lia|reflexivity].
Qed.
Lemma rlen_Z : Z.of_nat (rlen Q) = (nbits Q + 7) / 8.
Proof. unfold rlen, qlen. rewrite Z2Nat.id; [reflexivity|]. pose proof nb_pos. apply Z.div_pos; lia. Qed.
Lemma rlen_bound : Q < 256 ^ Z.of_nat (rlen Q).
Proof.
  rewrite rlen_Z. change 256 with (2 ^ 8). pose proof nb_pos. assert (0 <= (nbits Q + 7) / 8) by (apply Z.div_pos; lia). rewrite <- Z.pow_mul_r by lia.
  eapply Z.lt_le_trans; [apply nb_bounds|]. apply Z.pow_le_mono_r; [lia|]. pose proof (Z.div_mod (nbits Q + 7) 8 ltac:(lia)) as K. pose proof (Z.mod_pos_bound (nbits Q + 7) 8 ltac:(lia)). lia.
Qed.

Lemma bits2int_spec extra bs : bs <> [] -> bytes bs -> returns (bits2int (rf extra) bs) (BITS2INT Q bs).
Proof.
  intros Hne Hb. unfold bits2int. destruct (bi_from_be_bytes_spec bs Positive Hne Hb) as (w & -> & Ww & Vw). cbn [obind sgz rf_qlen] in *. unfold BITS2INT, qlen.
  pose proof (be_val_bound bs Hb) as B. destruct (Z.ltb_spec (nbits Q) (Z.of_nat (length bs) * 8)) as [L|L].
  - rewrite Z.max_r by lia. assert (L' : 0 <= Z.of_nat (length bs) * 8 - nbits Q) by lia. destruct (shr_full w _ Ww L') as (r & E & Wr & Vr). exists r. split; [exact E|]. split; [exact Wr|].
    rewrite Vr, Vw, Z.abs_eq by lia. replace (8 * Z.of_nat (length bs)) with (Z.of_nat (length bs) * 8) by lia.
    destruct (Z.eq_dec (be_val bs) 0) as [E0|]; [rewrite E0, Z.div_0_l by (apply Z.pow_nonzero; lia); reflexivity|]. rewrite Z.sgn_pos by lia. lia.
  - rewrite Z.max_l by lia. rewrite Z.pow_0_r, Z.div_1_r. exists w. auto.
Qed.
Lemma int2octets_spec extra x : wf x -> 0 <= bi_val x < Q -> int2octets (rf extra) x = Ret (INT2OCTETS Q (bi_val x)).
Proof.
  intros Wx Hx. unfold int2octets. cbn [rf_q rf_rlen]. rewrite bi_lt_spec by assumption. cbn [obind]. replace (bi_val x <? Q) with true by (symmetry; apply Z.ltb_lt; lia). cbn [oassert dassert].
  destruct (bi_to_be_bytes_spec x Wx) as (l & -> & Bl & Vl & Ml). cbn [obind]. rewrite Z.abs_eq in Vl by lia. rewrite Z.div_mul by lia. rewrite <- rlen_Z. cbv zeta.
  pose proof rlen_bound as RB. assert (LE : (length l <= rlen Q)%nat).
  { destruct Ml as [->|Ml]; [cbn; lia|]. destruct l as [|b l]; [cbn; lia|]. cbn [hd] in Ml. inversion Bl as [|? ? B1 B2]; subst. unfold byte in B1. rewrite be_val_cons in Vl.
    pose proof (be_val_bound l B2) as BV. destruct (Nat.le_gt_cases (length (b :: l)) (rlen Q)) as [|G]; [assumption|exfalso]. cbn [length] in G.
    assert (256 ^ Z.of_nat (rlen Q) <= 256 ^ Z.of_nat (length l)) by (apply Z.pow_le_mono_r; lia). nia. }
  unfold INT2OCTETS. destruct (Z.ltb_spec (Z.of_nat (length l)) (Z.of_nat (rlen Q))) as [L|L].
  - set (k := Z.to_nat (Z.of_nat (rlen Q) - Z.of_nat (length l))). unfold rotate_right. rewrite app_length, repeat_length.
    replace (Nat.leb k (length l + k)) with true by (symmetry; apply Nat.leb_le; lia). replace (length l + k - k)%nat with (length l) by lia.
    rewrite skipn_app, firstn_app, skipn_all, Nat.sub_diag, firstn_all. cbn [skipn firstn app]. rewrite app_nil_r. f_equal.
    replace (rlen Q) with (k + length l)%nat by (unfold k; lia). rewrite to_be_pad; [|rewrite <- Vl; now apply be_val_bound].
    f_equal. rewrite <- Vl. symmetry. now apply to_be_be_val.
  - f_equal. replace (rlen Q) with (length l) by lia. rewrite <- Vl. symmetry. now apply to_be_be_val.
Qed.
Lemma BITS2INT_bound bs : bytes bs -> 0 <= BITS2INT Q bs < 2 ^ nbits Q.
Proof. intros Hb. apply (hash_int_bound Q bs Hb nb_pos). Qed.
Lemma bits2octets_spec extra bs : bs <> [] -> bytes bs -> bits2octets (rf extra) bs = Ret (BITS2OCTETS Q bs).
Proof.
  intros Hne Hb. unfold bits2octets. destruct (bits2int_spec extra bs Hne Hb) as (z1 & -> & W1 & V1). cbn [obind rf_q].
  assert (Q0 : Q <> 0) by lia. assert (Q1 : 0 < Q) by lia. destruct (bi_rem_spec z1 q W1 Wq Q0) as (z2 & -> & W2 & V2). cbn [obind]. pose proof (BITS2INT_bound bs Hb) as B. rewrite <- V1 in B.
  rewrite Z.rem_mod_nonneg in V2 by lia. pose proof (Z.mod_pos_bound (bi_val z1) Q Q1) as R. rewrite int2octets_spec by (assumption || lia).
  unfold BITS2OCTETS. cbv zeta. rewrite <- V1. f_equal. f_equal. rewrite V2. pose proof nb_bounds as NB.
  assert (2 ^ nbits Q = 2 * 2 ^ (nbits Q - 1)). { rewrite <- Z.pow_succ_r by (pose proof nb_pos; lia). f_equal. lia. }
  destruct (Z.ltb_spec (bi_val z1) Q); [now apply Z.mod_small; lia|]. symmetry. apply (Zmod_unique _ _ 1); lia.
Qed.
Lemma INT2OCTETS_ok v : length (INT2OCTETS Q v) = rlen Q /\ bytes (INT2OCTETS Q v).
Proof. split; [apply to_be_length|apply to_be_bytes_range]. Qed.

Section Hash.
Context (be : bool) (nm : hash_name) (SZ : nbits Q < 2 ^ 60).
Local Notation h := (hasher_of be nm).
Local Notation hm := (HMAC (HASH nm) (block_len nm)).
Local Notation hlen := (out_len nm).

Lemma hlen_pos : (0 < hlen)%nat. Proof. destruct nm; cbn; lia. Qed.
Lemma fits_small k : Z.of_nat k <= 2 ^ 58 + 1000 -> fits nm k.
Proof.
  intros HZ. destruct nm; cbn [fits]; auto; change (2 ^ 64) with 18446744073709551616; change (2 ^ 58) with 288230376151711744 in HZ; lia.
Qed.
Lemma rlen_small : 2 * Z.of_nat (rlen Q) <= 2 ^ 58.
Proof.
  rewrite rlen_Z. change (2 ^ 58) with (2 * 2 ^ 57).
  apply Z.mul_le_mono_nonneg_l; [lia|]. apply Z.lt_succ_r. apply Z.div_lt_upper_bound; [lia|]. change (8 * Z.succ (2 ^ 57)) with (2 ^ 60 + 8). lia.
Qed.
Lemma sizes : (block_len nm <= 144 /\ hlen <= 64)%nat. Proof. destruct nm; cbn; lia. Qed.

Lemma hm_ok key text (st : h_state h) : obj nm be st -> bytes key -> length key = hlen -> bytes text -> Z.of_nat (length text) <= 2 ^ 58 + 200 ->
  exists st', hmac h key text st = Ret (hm key text, st') /\ obj nm be st' /\ bytes (hm key text) /\ length (hm key text) = hlen.
Proof.
  intros Ho Hk Lk Ht Lt. pose proof sizes as SZS. apply hmac_spec; try assumption; apply fits_small; change (2 ^ 58) with 288230376151711744 in *; lia.
Qed.

(** ** The blocks *)
Definition kv_ok (s : list Z * list Z) : Prop := bytes (fst s) /\ length (fst s) = hlen /\ bytes (snd s) /\ length (snd s) = hlen.
Lemma hm_small key text (st : h_state h) : obj nm be st -> bytes key -> length key = hlen -> bytes text -> (length text <= 200)%nat ->
  exists st', hmac h key text st = Ret (hm key text, st') /\ obj nm be st' /\ bytes (hm key text) /\ length (hm key text) = hlen.
Proof. intros. apply hm_ok; try assumption. change (2 ^ 58) with 288230376151711744. lia. Qed.
Lemma blocks_spec k m : forall v (st : h_state h), obj nm be st -> kv_ok (k, v) ->
  length (fst (BLOCKS hm k v m)) = (m * hlen)%nat /\ bytes (fst (BLOCKS hm k v m)) /\ kv_ok (k, snd (BLOCKS hm k v m)).
Proof.
  induction m as [|m IH]; intros v st Ho (H1 & H2 & H3 & H4); cbn [BLOCKS fst snd] in *.
  - split; [reflexivity|]. split; [constructor|]. repeat split; assumption.
  - pose proof sizes as SZS. destruct (hm_small k v st Ho H1 H2 H3 ltac:(lia)) as (st' & _ & O' & B' & L').
    destruct (IH (hm k v) st' O') as (I1 & I2 & I3); [repeat split; assumption|]. cbv zeta. destruct (BLOCKS hm k (hm k v) m) as [T V]. cbn [fst snd] in *.
    split; [rewrite app_length, I1, L'; cbn; lia|]. split; [now apply Forall_app_intro|exact I3].
Qed.
Lemma nblocks_lt j : 8 * (Z.of_nat j * Z.of_nat hlen) < nbits Q <-> (j < nblocks hlen Q)%nat.
Proof.
  unfold nblocks, qlen. pose proof hlen_pos. set (L := 8 * Z.of_nat hlen). assert (L0 : 0 < L) by (unfold L; lia). pose proof nb_pos as NP.
  pose proof (Z.div_mod (nbits Q + L - 1) L ltac:(lia)) as DM. pose proof (Z.mod_pos_bound (nbits Q + L - 1) L L0) as DB.
  set (d := (nbits Q + L - 1) / L) in *. assert (D0 : 0 <= d) by (apply Z.div_pos; lia). clearbody d.
  replace (8 * (Z.of_nat j * Z.of_nat hlen)) with (Z.of_nat j * L) by (unfold L; ring). clearbody L. split; intros K.
  - assert (Z.of_nat j < d) by nia. lia.
  - assert (Z.of_nat j + 1 <= d) by lia. nia.
Qed.
Lemma fill_spec extra k : forall m j fuel v t (st : h_state h), (j + m = nblocks hlen Q)%nat -> (m <= fuel)%nat -> length t = (j * hlen)%nat -> obj nm be st -> kv_ok (k, v) ->
  exists st', fill_t h fuel (rf extra) k v t st = Ret (t ++ fst (BLOCKS hm k v m), snd (BLOCKS hm k v m), st') /\ obj nm be st'.
Proof.
  induction m as [|m IH]; intros j fuel v t st Hj Hf Lt Ho Hkv.
  - assert (N : ~ 8 * (Z.of_nat j * Z.of_nat hlen) < nbits Q) by (rewrite nblocks_lt; lia).
    exists st. split; [|exact Ho]. cbn [BLOCKS fst snd]. rewrite app_nil_r.
    destruct fuel; cbn [fill_t rf_qlen]; rewrite Lt, Nat2Z.inj_mul; replace (Z.of_nat j * Z.of_nat hlen * 8 <? nbits Q) with false by (symmetry; apply Z.ltb_ge; lia); reflexivity.
  - assert (N : 8 * (Z.of_nat j * Z.of_nat hlen) < nbits Q) by (rewrite nblocks_lt; lia).
    destruct fuel as [|fuel]; [lia|]. cbn [fill_t rf_qlen]. rewrite Lt, Nat2Z.inj_mul. replace (Z.of_nat j * Z.of_nat hlen * 8 <? nbits Q) with true by (symmetry; apply Z.ltb_lt; lia).
    destruct Hkv as (H1 & H2 & H3 & H4). cbn [fst snd] in *. pose proof sizes as SZS. destruct (hm_small k v st Ho H1 H2 H3 ltac:(lia)) as (st1 & E1 & O1 & B1 & L1). rewrite E1. cbn [obind].
    destruct (IH (Datatypes.S j) fuel (hm k v) (t ++ hm k v) st1) as (st2 & E2 & O2); try lia; try assumption; [rewrite app_length, Lt, L1; cbn; lia|repeat split; assumption|].
    exists st2. split; [|exact O2]. rewrite E2. cbn [BLOCKS]. cbv zeta. destruct (BLOCKS hm k (hm k v) m) as [T V]. cbn [fst snd]. now rewrite <- app_assoc.
Qed.
Lemma nblocks_fuel : (nblocks hlen Q <= Z.to_nat (nbits Q))%nat.
Proof.
  unfold nblocks, qlen. apply Z2Nat.inj_le; [apply Z.div_pos; pose proof hlen_pos; pose proof nb_pos; lia|pose proof nb_pos; lia|].
  pose proof hlen_pos. pose proof nb_pos. apply Z.lt_succ_r, Z.div_lt_upper_bound; [lia|]. nia.
Qed.
Lemma nblocks_pos : (0 < nblocks hlen Q)%nat.
Proof. apply nblocks_lt. pose proof nb_pos. cbn. lia. Qed.

(** ** The rejection loop *)
Local Notation cand := (CANDIDATE hm hlen Q).
Local Notation rej := (REJECT hm hlen Q).
Definition nrel (s : list Z * list Z * h_state h) (a : list Z * list Z) : Prop := kv_ok a /\ obj nm be (snd s) /\ fst s = a.
Definition nfinal (a : list Z * list Z) : Prop := 1 <= cand a <= Q - 1.
Definition nres (a : list Z * list Z) (r : bigint * h_state h) : Prop := wf (fst r) /\ bi_val (fst r) = cand a /\ obj nm be (snd r).
Lemma nonce_step extra s a : nrel s a ->
  (exists s', nonce_body h (rf extra) s = Ret (inl s') /\ nrel s' (rej a) /\ ~ nfinal a) \/
  (exists r, nonce_body h (rf extra) s = Ret (inr r) /\ nfinal a /\ nres a r).
Proof.
  destruct s as [[k v] st]. intros (Hkv & Ho & E). cbn [fst snd] in *. subst a. unfold nonce_body.
  destruct (fill_spec extra k (nblocks hlen Q) 0 (Z.to_nat (nbits Q)) v [] st eq_refl nblocks_fuel eq_refl Ho Hkv) as (st1 & E1 & O1). cbn [rf_qlen]. rewrite E1. cbn [obind app].
  destruct (blocks_spec k (nblocks hlen Q) v st Ho Hkv) as (L1 & B1 & K1). 
  destruct (bits2int_spec extra (fst (BLOCKS hm k v (nblocks hlen Q)))) as (w & -> & Ww & Vw); [|exact B1|].
  { intros Z0. rewrite Z0 in L1. cbn in L1. pose proof nblocks_pos. pose proof hlen_pos. nia. }
  cbn [obind rf_q]. rewrite in_range_spec by assumption. cbn [obind]. 
  assert (FIN : (0 <? bi_val w) && (bi_val w <? Q) = true <-> nfinal (k, v)).
  { unfold nfinal, CANDIDATE. cbn [fst snd]. rewrite <- Vw, andb_true_iff, !Z.ltb_lt. lia. }
  destruct ((0 <? bi_val w) && (bi_val w <? Q)) eqn:EB.
  - right. eexists. split; [reflexivity|]. split; [now apply FIN|]. split; [exact Ww|]. split; [exact Vw|exact O1].
  - left. unfold REJECT. cbn [fst snd]. set (V := snd (BLOCKS hm k v (nblocks hlen Q))) in *. destruct K1 as (H1 & H2 & H3 & H4). cbn [fst snd] in *. pose proof sizes as SZS.
    assert (BV : bytes (V ++ [0])) by (apply Forall_app_intro; [exact H3|constructor; [unfold byte; lia|constructor]]).
    destruct (hm_small k (V ++ [0]) st1 O1 H1 H2 BV) as (st2 & -> & O2 & B2 & L2). { rewrite app_length. cbn [length]. lia. } cbn [obind].
    destruct (hm_small (hm k (V ++ [0])) V st2 O2 B2 L2 H3 ltac:(lia)) as (st3 & -> & O3 & B3 & L3). cbn [obind].
    eexists. split; [reflexivity|]. split; [|intros K; apply FIN in K; discriminate]. repeat split; assumption.
Qed.

(** ** The whole generator *)
Lemma generate_spec fuel sk hash (extra : bool) random (st : h_state h) : wf (sk_data sk) -> 1 <= bi_val (sk_data sk) < Q -> bi_val (d_order (sk_params sk)) = Q -> wf (d_order (sk_params sk)) ->
  bytes hash -> hash <> [] -> obj nm be st ->
  forall ex, (if extra then random = Ret (Ok ex) else ex = []) -> bytes ex -> (length ex <= 32)%nat ->
  let x := bi_val (sk_data sk) in
  (exists k st', generate_nonce h fuel (rf extra) hash sk random st = Ret (Ok (k, st')) /\ wf k /\ IS_NONCE hm hlen Q x hash ex (bi_val k) /\ obj nm be st') \/
  (generate_nonce h fuel (rf extra) hash sk random st = OutOfFuel /\ forall i, (i < 2 ^ fuel)%nat -> ~ 1 <= NONCE hm hlen Q x hash ex i <= Q - 1).
Proof.
  intros Wd Hd Eo Wo Hb Hne Ho ex Hex Bex Lex x. unfold generate_nonce. cbn [rf_q rf_extra]. rewrite dcheck_true by (rewrite bi_eq_spec by assumption; now rewrite Eo, Z.eqb_refl).
  rewrite int2octets_spec by (assumption || lia). cbn [obind]. rewrite bits2octets_spec by assumption. cbn [obind].
  assert (RND : (if extra then random else Ret (Ok [])) = Ret (Ok ex)) by (destruct extra; [exact Hex|now rewrite Hex]). rewrite RND. cbn [obind]. cbv zeta.
  set (seed := INT2OCTETS Q (bi_val (sk_data sk)) ++ BITS2OCTETS Q hash ++ ex). rewrite <- !app_assoc. fold x. fold x in seed. fold seed. rewrite out_len_eq.
  destruct (INT2OCTETS_ok x) as [I1 I2]. assert (B2O : length (BITS2OCTETS Q hash) = rlen Q /\ bytes (BITS2OCTETS Q hash)) by apply INT2OCTETS_ok. destruct B2O as [J1 J2].
  assert (LS : (length seed = rlen Q + (rlen Q + length ex))%nat) by (unfold seed; now rewrite !app_length, I1, J1).
  assert (BS : bytes seed) by (unfold seed; repeat apply Forall_app_intro; assumption).
  pose proof rlen_small as RS. pose proof sizes as SZS.
  assert (B1 : bytes (repeat 1 hlen)) by (apply Forall_repeat; unfold byte; lia). assert (B0 : bytes (repeat 0 hlen)) by (apply Forall_repeat; unfold byte; lia).
  assert (L1 : length (repeat 1 hlen) = hlen) by apply repeat_length. assert (L0 : length (repeat 0 hlen) = hlen) by apply repeat_length.
  assert (SE : forall v c, bytes v -> length v = hlen -> byte c -> bytes (v ++ [c] ++ seed) /\ Z.of_nat (length (v ++ [c] ++ seed)) <= 2 ^ 58 + 200).
  { intros v c Bv Lv Hc. split; [apply Forall_app_intro; [exact Bv|apply Forall_app_intro; [constructor; [exact Hc|constructor]|exact BS]]|]. rewrite !app_length, Lv, LS. cbn [length]. lia. }
  destruct (SE (repeat 1 hlen) 0 B1 L1 ltac:(unfold byte; lia)) as [S1 S2].
  destruct (hm_ok (repeat 0 hlen) _ st Ho B0 L0 S1 S2) as (st1 & -> & O1 & Bk1 & Lk1). cbn [obind]. set (K1 := hm (repeat 0 hlen) _) in *.
  destruct (hm_small K1 (repeat 1 hlen) st1 O1 Bk1 Lk1 B1 ltac:(lia)) as (st2 & -> & O2 & Bv1 & Lv1). cbn [obind]. set (V1 := hm K1 (repeat 1 hlen)) in *.
  destruct (SE V1 1 Bv1 Lv1 ltac:(unfold byte; lia)) as [S3 S4].
  rewrite <- ?app_assoc. fold seed.
  destruct (hm_ok K1 _ st2 O2 Bk1 Lk1 S3 S4) as (st3 & -> & O3 & Bk2 & Lk2). cbn [obind]. set (K2 := hm K1 (V1 ++ [1] ++ seed)) in *.
  destruct (hm_small K2 V1 st3 O3 Bk2 Lk2 Bv1 ltac:(lia)) as (st4 & -> & O4 & Bv2 & Lv2). cbn [obind]. set (V2 := hm K2 V1) in *.
  assert (ESET : SETUP hm hlen Q x hash ex = (K2, V2)) by reflexivity.
  destruct (run_loop_follow (nonce_body h (rf extra)) nrel rej nfinal nres (nonce_step extra) fuel (K2, V2, st4) (K2, V2)) as [[-> F]|([k st'] & i & -> & F & (R1 & R2 & R3) & M)].
  { repeat split; assumption. }
  - right. split; [reflexivity|]. intros i Hi. unfold NONCE, STATE. rewrite ESET. apply (F i Hi).
  - left. cbn [obind fst snd] in *. exists k, st'. split; [reflexivity|]. split; [exact R1|]. split; [|exact R3].
    exists i. unfold NONCE, STATE. rewrite ESET. split; [now rewrite R2|]. split; [rewrite R2; exact F|exact M].
Qed.
Lemma generate_err fuel sk hash random (st : h_state h) err : wf (sk_data sk) -> 1 <= bi_val (sk_data sk) < Q -> bi_val (d_order (sk_params sk)) = Q -> wf (d_order (sk_params sk)) ->
  bytes hash -> hash <> [] -> random = Ret (Err err) ->
  generate_nonce h fuel (rf true) hash sk random st = Ret (Err (FailedToGenerateRandomBytes err)).
Proof.
  intros Wd Hd Eo Wo Hb Hne ->. unfold generate_nonce. cbn [rf_q rf_extra]. rewrite dcheck_true by (rewrite bi_eq_spec by assumption; now rewrite Eo, Z.eqb_refl).
  rewrite int2octets_spec by (assumption || lia). cbn [obind]. rewrite bits2octets_spec by assumption. reflexivity.
Qed.
End Hash.
End Order.

Lemma is_nonce_unique (hm : list Z -> list Z -> list Z) hlen q x h1 ex k k' : IS_NONCE hm hlen q x h1 ex k -> IS_NONCE hm hlen q x h1 ex k' -> k = k'.
Proof.
  intros (i & E & H & M) (i' & E' & H' & M'). destruct (Nat.lt_trichotomy i i') as [L|[->|L]]; [|congruence|].
  - exfalso. apply (M' i L). now rewrite E.
  - exfalso. apply (M i' L). now rewrite E'.
Qed.
End Proofs.

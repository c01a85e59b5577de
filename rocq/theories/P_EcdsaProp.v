(** The properties of keys, signing, verification and recovery, from the specifications of the single functions. *)

From Coq Require Import Lia.
From Verif Require Import Base M_BigInt M_Modular M_Curve M_Loop M_Hmac M_Random M_Ecdsa M_Rfc6979
  S_BigInt S_Curve S_EcModel S_Hash S_Ecdsa S_Recover S_Rfc6979 S_Sign
  P_BigInt1 P_BigInt3 P_BigInt4 P_BigApi P_NumTheory P_Modular P_Curve P_EcModel P_Order P_EcLaws P_Hash P_Ecdsa1 P_Ecdsa2 P_Ecdsa3 P_Rfc6979 P_Sign.
Open Scope Z_scope.

Section Proofs.
Context {cfg : digit_cfg}.

(** * Keys *)
Lemma public_key_new1 D P : wf_curve (d_curve D) -> wf_point P -> d_cofactor D = 1 ->
  exists b : bool, public_key_new P D = Ret (if b then Some (mkPk P D) else None) /\
    (b = true <-> valid_public (params_val D) (bi_val (px P)) (bi_val (py P))).
Proof.
  intros WC WP H1. destruct (validate_cofactor1 D P WC WP H1) as (b & E & H). exists b. split; [|exact H].
  unfold public_key_new. rewrite E. reflexivity.
Qed.
Lemma public_key_newh D P : code_params D -> wf_point P ->
  ~ (d_cofactor D <> 1 /\ on_curve (curve_val (d_curve D)) (pt_val P) /\ doubles_two (curve_val (d_curve D)) (order D) (pt_val P)) ->
  exists b : bool, public_key_new P D = Ret (if b then Some (mkPk P D) else None) /\
    (b = true <-> valid_public (params_val D) (bi_val (px P)) (bi_val (py P))).
Proof. intros HD WP NT. destruct (public_key_cases D HD P WP) as [(K1 & K2 & K3 & _)|[_ K]]; [|exact K]. exfalso. apply NT. auto. Qed.
Lemma public_key_panics D P : code_params D -> wf_point P ->
  (public_key_new P D = Panic <-> d_cofactor D <> 1 /\ on_curve (curve_val (d_curve D)) (pt_val P) /\ doubles_two (curve_val (d_curve D)) (order D) (pt_val P)).
Proof.
  intros HD WP. destruct (public_key_cases D HD P WP) as [(K1 & K2 & K3 & E)|[K (b & E & _)]]; rewrite E; [tauto|]. split; [discriminate|].
  intros (K1 & K2 & K3). exfalso. exact (K K1 K2 K3).
Qed.
Lemma private_key_new_full D data : wf data -> wf (d_order D) ->
  exists b : bool, private_key_new data D = Ret (if b then Some (mkSk data D) else None) /\ (b = true <-> 1 <= bi_val data <= order D - 1).
Proof.
  intros W1 W2. eexists. split; [apply private_key_new_spec; assumption|]. rewrite andb_true_iff, !Z.leb_le. reflexivity.
Qed.
Lemma public_key_of_full sk : code_sk sk -> exists pk, public_key_of sk = Ret pk /\ matching sk pk /\ code_pk pk.
Proof. intros H. apply (public_key_of_spec (sk_params sk) (proj1 H)); [exact H|reflexivity]. Qed.
Lemma signature_new_full D r s : wf r -> wf s -> wf (d_order D) ->
  exists b : bool, signature_new r s D = Ret (if b then Some (mkSig r s D) else None) /\
    (b = true <-> (1 <= bi_val r <= order D - 1 /\ 1 <= bi_val s <= order D - 1)).
Proof.
  intros W1 W2 W3. eexists. split; [apply signature_new_spec; assumption|]. rewrite !andb_true_iff, !Z.leb_le. tauto.
Qed.

(** * Signing *)
Section Sign.
Context (be : bool) (nm : hash_name) (sk : private_key) (HK : code_sk sk).
Local Notation D := (sk_params sk).
Local Notation n := (order D).
Local Notation d := (bi_val (sk_data sk)).
Local Notation h := (hasher_of be nm).
Context (SZ : nbits n < 2 ^ 60) (hash : list Z) (Hb : bytes hash) (o : signing_options).
Context (rng : nat -> outcome (result get_os_random_bytes_error (list Z))) (HR : rng_ok rng).
Context (fuel : nat) (st : h_state h) (Ho : obj nm be st).
Local Notation e := (hash_int n hash).
Local Notation out := (sign_with_hasher h fuel hash sk o rng st).
Let HD : code_params D. Proof. apply HK. Qed.
Let OKD : params_ok (params_val D). Proof. apply HD. Qed.

Lemma signed sg id : out = Ret (Ok (sg, id)) ->
  hash <> [] /\ (so_strict o = true -> strict_ok n hash) /\ (so_zero o = false -> e <> 0) /\
  code_sig sg /\ sig_params sg = D /\ (so_low_s o = true -> bi_val (sig_s sg) <= n / 2) /\
  ecdsa_valid (params_val D) (emul (curve_val (d_curve D)) d (pt_val (d_base D))) e (bi_val (sig_r sg)) (bi_val (sig_s sg)) /\
  exists i k, nonce_of_attempt nm n d hash o rng i k /\ 1 <= k < n /\
    signature_of (params_val D) (so_low_s o) d e k (bi_val (sig_r sg)) (bi_val (sig_s sg)) (recid_u8 id).
Proof.
  intros EQ. assert (Hne : hash <> []) by (intros ->; discriminate).
  destruct (sign_ok D HD be nm SZ sk HK eq_refl hash Hb Hne o rng HR fuel st sg id Ho EQ) as (H1 & H2 & i & k & AT & (G1 & G2 & G3 & G4) & _).
  cbn [fst snd] in *. destruct HK as (_ & _ & Hd).
  destruct (signature_point (params_val D) OKD _ _ _ _ _ _ _ Hd G3 G4) as (_ & _ & LS & _).
  split; [exact Hne|]. split; [exact H1|]. split; [exact H2|]. split; [exact G1|]. split; [exact G2|]. split; [exact LS|].
  split; [exact (signature_valid (params_val D) OKD _ _ _ _ _ _ _ Hd G3 G4)|]. exists i, k. auto.
Qed.
End Sign.

Lemma sign_ranges be nm sk fuel hash o rng (st : h_state (hasher_of be nm)) sg id :
  code_sk sk -> nbits (order (sk_params sk)) < 2 ^ 60 -> bytes hash -> rng_ok rng -> obj nm be st ->
  sign_with_hasher (hasher_of be nm) fuel hash sk o rng st = Ret (Ok (sg, id)) ->
  sig_params sg = sk_params sk /\ 1 <= bi_val (sig_r sg) <= order (sk_params sk) - 1 /\ 1 <= bi_val (sig_s sg) <= order (sk_params sk) - 1 /\
  (so_low_s o = true -> bi_val (sig_s sg) <= order (sk_params sk) / 2).
Proof.
  intros HK SZ Hb HR Ho EQ. destruct (signed be nm sk HK SZ hash Hb o rng HR fuel st Ho sg id EQ) as (_ & _ & _ & (_ & _ & _ & H1 & H2) & EP & LS & _).
  rewrite EP in H1, H2. split; [exact EP|]. split; [lia|]. split; [lia|exact LS].
Qed.

Lemma verify_true pk sg hash o : code_pk pk -> code_sig sg -> sig_params sg = pk_params pk -> bytes hash ->
  let n := order (pk_params pk) in
  accepted hash sg pk o <->
    (hash <> [] /\ (vo_low_s o = true -> bi_val (sig_s sg) <= n / 2) /\ (vo_strict o = true -> strict_ok n hash) /\ hash_int n hash <> 0 /\
     ecdsa_valid (params_val (pk_params pk)) (pt_val (pk_data pk)) (hash_int n hash) (bi_val (sig_r sg)) (bi_val (sig_s sg))).
Proof.
  intros HP HS ES Hb n. unfold accepted. destruct (list_eq_dec Z.eq_dec hash []) as [->|Hne]. { split; [discriminate|]. intros (K & _). congruence. }
  assert (HD : code_params (pk_params pk)) by apply HP. assert (Ws : wf (sig_s sg)) by apply HS.
  destruct (vo_low_s o && (n / 2 <? bi_val (sig_s sg))) eqn:EL.
  { assert (EQ : verify_with_options hash sg pk o = Ret (Err VStrictHighS)).
    { unfold verify_with_options. destruct hash as [|b0 bs0] eqn:EH; [congruence|]. apply andb_true_iff in EL. destruct EL as [E1 E2]. rewrite E1.
      rewrite (is_low_s_spec (pk_params pk) HD) by assumption. cbn [obind]. fold n. rewrite Z.leb_antisym, E2. reflexivity. }
    rewrite EQ. split; [discriminate|]. intros (_ & K & _). apply andb_true_iff in EL. destruct EL as [E1 E2]. apply Z.ltb_lt in E2. specialize (K E1). lia. }
  assert (LS : vo_low_s o = true -> bi_val (sig_s sg) <= n / 2).
  { intros K. rewrite K in EL. cbn [andb] in EL. now apply Z.ltb_ge in EL. }
  assert (DEC : (vo_strict o = true -> strict_usable cfg n) \/ (vo_strict o = true /\ ~ strict_usable cfg n)).
  { destruct (vo_strict o); [|left; discriminate]. destruct (strict_dec cfg n); auto. }
  destruct DEC as [ST|[ST NB]].
  2:{ rewrite (verify_panics (pk_params pk) HD) by (assumption || reflexivity). split; [discriminate|]. intros (_ & _ & K & _). destruct (K ST) as [K1 _]. exfalso. apply NB. now left. }
  destruct (verify_spec (pk_params pk) HD pk sg hash o HP eq_refl HS ES Hb Hne ST) as (b & -> & HB). fold n. fold n in HB. rewrite EL.
  destruct (vo_strict o && negb (8 * Z.of_nat (length hash) =? nbits n)) eqn:ESt.
  { split; [discriminate|]. intros (_ & _ & K & _). apply andb_true_iff in ESt. destruct ESt as [E1 E2]. destruct (K E1) as [_ K2]. rewrite K2, Z.eqb_refl in E2. discriminate. }
  destruct (Z.eqb_spec (hash_int n hash) 0) as [Z0|Z0]. { split; [discriminate|]. tauto. }
  split.
  - intros K. injection K as ->. split; [exact Hne|]. split; [exact LS|]. split; [|split; [exact Z0|now apply HB]].
    intros K. rewrite K in ESt. cbn [andb] in ESt. apply negb_false_iff, Z.eqb_eq in ESt. split; [|exact ESt]. rewrite <- ESt, Z.mul_comm. apply Z.mod_mul. lia.
  - intros (_ & _ & _ & _ & K). apply HB in K. now rewrite K.
Qed.

Lemma matching_pk sk pk : code_sk sk -> matching sk pk -> code_pk pk.
Proof.
  intros HK (E1 & E2 & E3). destruct (public_key_of_full sk HK) as (pk' & _ & (M1 & M2 & M3) & (_ & _ & V)).
  split; [rewrite E1; apply HK|]. split; [exact E2|]. rewrite E1. rewrite M1 in V.
  assert (K : pt_val (pk_data pk') = pt_val (pk_data pk)) by (rewrite M3, E3; reflexivity).
  destruct (valid_point_of (sk_params sk) (pk_data pk') (params_curve _ (proj1 HK)) M2 V) as [_ NN].
  destruct (pt_val (pk_data pk')) as [[x y]|] eqn:EV; [|congruence].
  destruct (pt_some (pk_data pk') x y M2 EV) as [X1 Y1]. destruct (pt_some (pk_data pk) x y E2 (eq_sym K)) as [X2 Y2]. now rewrite X2, Y2, <- X1, <- Y1.
Qed.

(** * Signing, then verifying *)
Lemma sign_verify be nm sk pk fuel hash o vo rng (st : h_state (hasher_of be nm)) sg id :
  code_sk sk -> matching sk pk -> nbits (order (sk_params sk)) < 2 ^ 60 -> bytes hash -> rng_ok rng -> obj nm be st ->
  sign_with_hasher (hasher_of be nm) fuel hash sk o rng st = Ret (Ok (sg, id)) ->
  hash_int (order (sk_params sk)) hash <> 0 ->
  (vo_low_s vo = true -> so_low_s o = true) -> (vo_strict vo = true -> strict_ok (order (sk_params sk)) hash) ->
  accepted hash sg pk vo.
Proof.
  intros HK HM SZ Hb HR Ho EQ Z0 LS ST. destruct (signed be nm sk HK SZ hash Hb o rng HR fuel st Ho sg id EQ) as (Hne & H1 & H2 & CS & EP & L & V & _).
  pose proof (matching_pk sk pk HK HM) as HP. destruct HM as (M1 & M2 & M3).
  apply verify_true; try assumption; [now rewrite EP|]. rewrite M1, M3. split; [exact Hne|]. split; [auto|]. split; [exact ST|]. split; [exact Z0|exact V].
Qed.
Lemma sign_verify_default be fuel hash sk pk rng sg id :
  code_sk sk -> public_key_of sk = Ret pk -> nbits (order (sk_params sk)) < 2 ^ 60 -> bytes hash -> rng_ok rng ->
  sign_default be fuel hash sk rng = Ret (Ok (sg, id)) -> verify hash sg pk = Ret (Ok true).
Proof.
  intros HK EP SZ Hb HR EQ. destruct (public_key_of_full sk HK) as (pk' & E & HM & _). rewrite EP in E. injection E as <-.
  destruct (signed be Sha256 sk HK SZ hash Hb _ rng HR fuel _ (new_obj be Sha256) sg id EQ) as (Hne & H1 & H2 & _).
  refine (sign_verify be Sha256 sk pk fuel hash signing_default verifying_default rng _ sg id HK HM SZ Hb HR (new_obj be Sha256) EQ (H2 eq_refl) _ _); [reflexivity|].
  intros _. apply H1. reflexivity.
Qed.
(** A zero hash is never accepted. *)
Lemma zero_hash_never pk sg hash o : code_pk pk -> code_sig sg -> sig_params sg = pk_params pk -> bytes hash ->
  hash_int (order (pk_params pk)) hash = 0 -> ~ accepted hash sg pk o.
Proof. intros H1 H2 H3 H4 H5 K. apply verify_true in K; try assumption. tauto. Qed.

(** * Malleability *)
Lemma malleable_verify pk sg sg' hash o : code_pk pk -> code_sig sg -> code_sig sg' -> sig_params sg = pk_params pk -> sig_params sg' = pk_params pk ->
  bytes hash -> bi_val (sig_r sg') = bi_val (sig_r sg) -> bi_val (sig_s sg') = order (pk_params pk) - bi_val (sig_s sg) ->
  vo_low_s o = false -> verify_with_options hash sg' pk o = verify_with_options hash sg pk o.
Proof.
  intros HP HS HS' ES ES' Hb Er Es L. assert (HD : code_params (pk_params pk)) by apply HP.
  destruct (list_eq_dec Z.eq_dec hash []) as [->|Hne]. { reflexivity. }
  assert (DEC : (vo_strict o = true -> strict_usable cfg (order (pk_params pk))) \/ (vo_strict o = true /\ ~ strict_usable cfg (order (pk_params pk)))).
  { destruct (vo_strict o); [|left; discriminate]. destruct (strict_dec cfg (order (pk_params pk))); auto. }
  destruct DEC as [ST|[ST NB]].
  2:{ rewrite !(verify_panics (pk_params pk) HD); try assumption; try reflexivity; try (intros K; rewrite L in K; discriminate); [apply HS|apply HS']. }
  destruct (verify_spec (pk_params pk) HD pk sg hash o HP eq_refl HS ES Hb Hne ST) as (b & -> & HB).
  destruct (verify_spec (pk_params pk) HD pk sg' hash o HP eq_refl HS' ES' Hb Hne ST) as (b' & -> & HB').
  rewrite L. cbn [andb]. assert (EQ : b' = b); [|now rewrite EQ].
  apply Bool.eq_true_iff_eq. rewrite HB, HB', Er, Es. destruct HP as (_ & WP & VP).
  destruct (valid_code (pk_params pk) HD (pk_data pk) WP VP) as (CP & d & Hd & ->). symmetry.
  destruct HS as (_ & _ & _ & _ & Hs). rewrite ES in Hs.
  apply (malleable (params_val (pk_params pk)) (proj1 (proj2 HD))); [lia|exact Hs].
Qed.
Lemma low_s_gate pk sg hash o : code_pk pk -> code_sig sg -> sig_params sg = pk_params pk -> hash <> [] -> vo_low_s o = true ->
  verify_with_options hash sg pk o =
    (if order (pk_params pk) / 2 <? bi_val (sig_s sg) then Ret (Err VStrictHighS) else verify_with_options hash sg pk (mkVO false (vo_strict o))).
Proof.
  intros HP HS ES Hne L. assert (HD : code_params (pk_params pk)) by apply HP. assert (Ws : wf (sig_s sg)) by apply HS.
  unfold verify_with_options. destruct hash as [|b0 bs0] eqn:EH; [congruence|]. rewrite L. rewrite (is_low_s_spec (pk_params pk) HD) by assumption. cbn [obind vo_low_s].
  rewrite Z.leb_antisym, Bool.negb_involutive. destruct (_ <? _); reflexivity.
Qed.
Lemma one_low pk sg sg' : code_pk pk -> bi_val (sig_s sg') = order (pk_params pk) - bi_val (sig_s sg) ->
  (bi_val (sig_s sg) <= order (pk_params pk) / 2 <-> ~ bi_val (sig_s sg') <= order (pk_params pk) / 2).
Proof.
  intros HP E. pose proof (n_odd (params_val (pk_params pk)) (proj1 (proj2 (proj1 HP)))) as O. change (e_order (params_val (pk_params pk))) with (order (pk_params pk)) in O.
  apply Z.odd_spec in O. destruct O as [q O]. rewrite E, O. replace (2 * q + 1) with (1 + q * 2) by ring. rewrite Z.div_add by lia. change (1 / 2) with 0. lia.
Qed.
Lemma malleable_full pk sg sg' hash o : code_pk pk -> code_sig sg -> code_sig sg' -> sig_params sg = pk_params pk -> sig_params sg' = pk_params pk ->
  bytes hash -> bi_val (sig_r sg') = bi_val (sig_r sg) -> bi_val (sig_s sg') = order (pk_params pk) - bi_val (sig_s sg) ->
  (vo_low_s o = false -> verify_with_options hash sg' pk o = verify_with_options hash sg pk o) /\
  (vo_low_s o = true -> hash <> [] ->
     (exists hi lo, (hi = sg /\ lo = sg' \/ hi = sg' /\ lo = sg) /\ order (pk_params pk) / 2 < bi_val (sig_s hi) /\ bi_val (sig_s lo) <= order (pk_params pk) / 2 /\
        verify_with_options hash hi pk o = Ret (Err VStrictHighS) /\
        verify_with_options hash lo pk o = verify_with_options hash sg pk (mkVO false (vo_strict o)))) /\
  (vo_low_s o = true -> ~ (accepted hash sg pk o /\ accepted hash sg' pk o)).
Proof.
  intros HP HS HS' ES ES' Hb Er Es. pose proof (one_low pk sg sg' HP Es) as OL.
  assert (M : verify_with_options hash sg' pk (mkVO false (vo_strict o)) = verify_with_options hash sg pk (mkVO false (vo_strict o))) by (apply malleable_verify; auto).
  split; [intros; now apply malleable_verify|]. split.
  - intros L Hne. pose proof (low_s_gate pk sg hash o HP HS ES Hne L) as G1. pose proof (low_s_gate pk sg' hash o HP HS' ES' Hne L) as G2.
    destruct (Z.ltb_spec (order (pk_params pk) / 2) (bi_val (sig_s sg))) as [K|K].
    + assert (K' : bi_val (sig_s sg') <= order (pk_params pk) / 2) by (destruct (Z.le_gt_cases (bi_val (sig_s sg')) (order (pk_params pk) / 2)); [assumption|exfalso; lia]).
      exists sg, sg'. split; [auto|]. split; [exact K|]. split; [exact K'|]. split; [exact G1|].
      rewrite G2. destruct (Z.ltb_spec (order (pk_params pk) / 2) (bi_val (sig_s sg'))); [lia|exact M].
    + assert (K' : order (pk_params pk) / 2 < bi_val (sig_s sg')) by (apply OL in K; lia).
      exists sg', sg. split; [auto|]. split; [exact K'|]. split; [exact K|]. split; [|exact G1].
      rewrite G2. apply Z.ltb_lt in K'. now rewrite K'.
  - intros L [A1 A2]. apply verify_true in A1; try assumption. apply verify_true in A2; try assumption. destruct A1 as (_ & A1 & _). destruct A2 as (_ & A2 & _).
    apply OL in A1; auto.
Qed.

(** * Recovery *)
Lemma nt_of D : code_params D -> recoverable D -> no_two_torsion (curve_val (d_curve D)).
Proof. intros HD [_ [H|H]]; [|exact H]. exact (cofactor1_no2 (params_val D) (proj1 (proj2 HD)) H). Qed.

Lemma recover_inv sg hash id o ks : code_sig sg -> recover_with_options sg hash id o = Ret (Ok ks) ->
  hash <> [] /\ (ro_strict o = true -> strict_usable cfg (order (sig_params sg))).
Proof.
  intros HS EQ. unfold recover_with_options in EQ. cbv zeta in EQ. destruct hash as [|b0 bs0] eqn:EH; [discriminate|]. split; [discriminate|].
  intros ST. rewrite ST in EQ. destruct (strict_dec cfg (order (sig_params sg))) as [|NB]; [assumption|].
  rewrite (matches_panics (sig_params sg) (proj1 HS)) in EQ by assumption. discriminate.
Qed.

Lemma recover_panic_iff sg hash id o : code_sig sg -> 0 <= d_cofactor (sig_params sg) < 2 ^ 32 -> bytes hash ->
  let n := order (sig_params sg) in
  (recover_with_options sg hash id o = Panic <->
   hash <> [] /\ ((ro_strict o = true /\ ~ strict_usable cfg n) \/
     ((ro_strict o = true -> strict_ok n hash) /\ hash_int n hash <> 0 /\
      recovery_panics (params_val (sig_params sg)) id (hash_int n hash) (bi_val (sig_r sg)) (bi_val (sig_s sg))))).
Proof.
  intros HS CF Hb n. assert (HD := proj1 HS). destruct (list_eq_dec Z.eq_dec hash []) as [->|Hne]. { cbn. split; [discriminate|tauto]. }
  assert (DEC : (ro_strict o = true -> strict_usable cfg n) \/ (ro_strict o = true /\ ~ strict_usable cfg n)).
  { destruct (ro_strict o); [destruct (strict_dec cfg n)|]; auto. left. discriminate. }
  destruct DEC as [ST|[SO NB]].
  2: { split; [auto|]. intros _. unfold recover_with_options. cbv zeta. destruct hash as [|b0 bs0] eqn:EH; [congruence|]. rewrite <- EH in *.
    rewrite SO, (matches_panics (sig_params sg) HD) by assumption. reflexivity. }
  assert (STI : forall (b : bool), ro_strict o && negb (8 * Z.of_nat (length hash) =? nbits n) = b -> (b = false <-> (ro_strict o = true -> strict_ok n hash))).
  { intros b <-. destruct (ro_strict o) eqn:SO; cbn [andb]; [|split; [discriminate|reflexivity]].
    rewrite negb_false_iff, Z.eqb_eq. split.
    - intros L _. split; [|exact L]. rewrite <- L, Z.mul_comm. apply Z.mod_mul. lia.
    - intros K. apply (K eq_refl). }
  destruct (recover_cases (sig_params sg) HD sg hash o HS eq_refl Hb Hne ST CF id) as [[P E]|(P & h & ks & _ & _ & E & _)]; cbv beta in E; fold n in E, P; rewrite E; clear E;
  destruct (ro_strict o && _) eqn:E1; specialize (STI _ eq_refl).
  1,3: split; [discriminate|]; intros (_ & [[K1 K2]|(K & _)]); [exfalso; now apply K2, ST|]; apply STI in K; discriminate.
  - assert (K1 : ro_strict o = true -> strict_ok n hash) by now apply STI. destruct (Z.eqb_spec (hash_int n hash) 0) as [Z0|Z0].
    + split; [discriminate|]. intros (_ & [[K2 K3]|(_ & K & _)]); [exfalso; now apply K3, ST|contradiction].
    + split; [|reflexivity]. intros _. auto.
  - destruct (Z.eqb_spec (hash_int n hash) 0) as [Z0|Z0]; (split; [discriminate|]); intros (_ & [[K2 K3]|(_ & K & K')]); try (exfalso; now apply K3, ST); contradiction.
Qed.
(** If recovery succeeds it met no point of order two. *)
Lemma recover_done sg hash id o ks : code_sig sg -> 0 <= d_cofactor (sig_params sg) < 2 ^ 32 -> bytes hash -> recover_with_options sg hash id o = Ret (Ok ks) ->
  let D := sig_params sg in let n := order D in
  hash <> [] /\ (ro_strict o = true -> strict_ok n hash) /\ hash_int n hash <> 0 /\
  exists h, bi_val h = hash_int n hash /\ code_hash D h /\
    let (lo, hi) := j_bounds id D in
    (id <> None -> (length ks <= Z.to_nat (hi - lo + 1))%nat) /\
    (forall pk, In pk ks -> good_key D sg h pk /\ exists x y, candidate D sg id lo hi x y /\ pt_val (pk_data pk) = recovered (params_val D) (Some (x, y)) (bi_val h) (bi_val (sig_r sg)) (bi_val (sig_s sg))) /\
    (forall x y, candidate D sg id lo hi x y -> good_point D sg h (Some (x, y)) ->
       exists pk, In pk ks /\ pt_val (pk_data pk) = recovered (params_val D) (Some (x, y)) (bi_val h) (bi_val (sig_r sg)) (bi_val (sig_s sg))).
Proof.
  intros HS CF Hb EQ D n. destruct (recover_inv sg hash id o ks HS EQ) as [Hne NB]. split; [exact Hne|].
  assert (OUT : forall res : outcome (result recovery_error (list public_key)), recover_with_options sg hash id o =
      (if ro_strict o && negb (8 * Z.of_nat (length hash) =? nbits n) then Ret (Err RHashBitLength) else if hash_int n hash =? 0 then Ret (Err RZeroHash) else res) ->
      (ro_strict o = true -> strict_ok n hash) /\ hash_int n hash <> 0 /\ res = Ret (Ok ks)).
  { intros res E. rewrite EQ in E. destruct (ro_strict o) eqn:SO; cbn [andb] in E.
    - destruct (Z.eqb_spec (8 * Z.of_nat (length hash)) (nbits n)) as [L|N]; cbn [negb] in E; [|discriminate].
      destruct (Z.eqb_spec (hash_int n hash) 0); [discriminate|]. split; [|split; [assumption|congruence]]. intros _. split; [|assumption]. rewrite <- L, Z.mul_comm. apply Z.mod_mul. lia.
    - destruct (Z.eqb_spec (hash_int n hash) 0); [discriminate|]. split; [discriminate|split; [assumption|congruence]]. }
  destruct (recover_cases D (proj1 HS) sg hash o HS eq_refl Hb Hne NB CF id) as [[_ E]|(_ & h & ks' & Vh & Hh & E & K)]; cbv beta in E; apply OUT in E; destruct E as (E1 & E2 & E3); [discriminate|].
  injection E3 as <-. split; [exact E1|]. split; [exact E2|]. exists h. auto.
Qed.
Lemma recover_sound sg hash id o ks pk : code_sig sg -> 0 <= d_cofactor (sig_params sg) < 2 ^ 32 -> bytes hash ->
  recover_with_options sg hash id o = Ret (Ok ks) -> In pk ks -> code_pk pk /\ pk_params pk = sig_params sg /\ accepted hash sg pk (mkVO false (ro_strict o)).
Proof.
  intros HS CF Hb EQ Hpk. destruct (recover_done sg hash id o ks HS CF Hb EQ) as (Hne & ST & Z0 & h & Vh & Hh & K).
  destruct (j_bounds id (sig_params sg)) as [lo hi]. destruct K as (_ & K & _). destruct (K pk Hpk) as ((G1 & G2 & G3) & _).
  split; [exact G1|]. split; [exact G2|]. apply verify_true; try assumption; [now rewrite G2|]. rewrite G2. split; [exact Hne|]. split; [discriminate|]. split; [exact ST|].
  split; [exact Z0|]. rewrite <- Vh. exact G3.
Qed.

(** The abscissas the search goes through. *)
Lemma cand_j D (HD : code_params D) (CF : 0 <= d_cofactor D) (CV : covers D) x y :
  on_curve (curve_val (d_curve D)) (Some (x, y)) -> 0 <= x / order D <= d_cofactor D /\ x = x mod order D + x / order D * order D.
Proof.
  intros (Hx & _). change (ep (curve_val (d_curve D))) with (bi_val (c_p (d_curve D))) in Hx. unfold covers in CV.
  assert (N0 : 0 < order D) by (pose proof (proj1 (proj2 (proj2 (proj1 (proj2 HD))))) as K; cbn in K; unfold order; lia).
  assert (N1 : order D <> 0) by lia. pose proof (Z.div_mod x (order D) N1). pose proof (Z.mod_pos_bound x (order D) N0).
  split; [|lia]. split; [apply Z.div_pos; lia|]. assert (x / order D < d_cofactor D + 1); [|lia]. apply Z.div_lt_upper_bound; nia.
Qed.

Lemma recover_all sg hash o ks pk : code_sig sg -> 0 <= d_cofactor (sig_params sg) < 2 ^ 32 -> covers (sig_params sg) -> bytes hash ->
  recover_with_options sg hash None o = Ret (Ok ks) -> code_pk pk -> pk_params pk = sig_params sg ->
  accepted hash sg pk (mkVO false (ro_strict o)) -> exists pk', In pk' ks /\ pt_val (pk_data pk') = pt_val (pk_data pk).
Proof.
  intros HS RC CV Hb EQ HP EP A. assert (HD := proj1 HS). destruct (recover_done sg hash None o ks HS RC Hb EQ) as (_ & _ & _ & h & Vh & Hh & _ & _ & K).
  apply verify_true in A; try assumption; [|now symmetry]. rewrite EP in A. destruct A as (_ & _ & ST & Z0 & V).
  destruct HS as (_ & Wr & Ws & Hr & Hs). destruct HP as (_ & WP & VP). rewrite EP in VP.
  destruct (valid_code (sig_params sg) HD (pk_data pk) WP VP) as (CP & d & Hd & Ed). rewrite Ed in V.
  destruct (accepted_recovered (params_val (sig_params sg)) (proj1 (proj2 HD)) d _ _ _ Hd Hr Hs V) as (k & x & y & Hk & Ek & Ex & Er).
  assert (OC : on_curve (curve_val (d_curve (sig_params sg))) (Some (x, y))).
  { rewrite <- Ek. apply emul_closed; [apply HD|]. exact (proj2 (base_code _ HD)). }
  destruct (cand_j (sig_params sg) HD (proj1 RC) CV x y OC) as [J1 J2].
  destruct (K x y) as (pk' & I & P).
  - exists (x / order (sig_params sg)). split; [exact J1|]. split; [|split; [exact OC|exact I]]. rewrite J2 at 1. f_equal. exact Ex.
  - rewrite Ek in Er. rewrite <- Vh in Er, V. exists (bi_val (px (pk_data pk))), (bi_val (py (pk_data pk))). rewrite Er. split; [|split; [exact VP|exact V]].
    destruct (valid_point_of _ _ (params_curve _ HD) WP VP) as [_ NN]. change (emul (e_curve (params_val (sig_params sg))) d (e_base (params_val (sig_params sg)))) with (emul (curve_val (d_curve (sig_params sg))) d (pt_val (d_base (sig_params sg)))). rewrite <- Ed.
    destruct (pt_val (pk_data pk)) as [[a b]|] eqn:EV; [|congruence]. destruct (pt_some _ _ _ WP EV) as [-> ->]. reflexivity.
  - exists pk'. split; [exact I|]. rewrite P. rewrite Ek, <- Vh in Er. rewrite Er. now symmetry.
Qed.

Lemma recid_parity id x y n : recid_u8 id = 2 * Z.b2z (n <=? x) + Z.b2z (Z.odd y) -> id_parity (Some id) y /\ (n <= x <-> id = HighXEvenY \/ id = HighXOddY).
Proof.
  intros E. destruct (Z.leb_spec n x) as [L|L], (Z.odd y) eqn:O, id; cbn [recid_u8 Z.b2z id_parity] in *; try lia; (split; [assumption|]); split; intros K; try lia; auto; try (destruct K; discriminate).
Qed.

Section Signer.
Context (be : bool) (nm : hash_name) (sk : private_key) (pk : public_key) (HK : code_sk sk) (HM : matching sk pk).
Local Notation D := (sk_params sk).
Local Notation n := (order D).
Context (SZ : nbits n < 2 ^ 60) (hash : list Z) (Hb : bytes hash) (o : signing_options).
Context (rng : nat -> outcome (result get_os_random_bytes_error (list Z))) (HR : rng_ok rng).
Context (fuel : nat) (st : h_state (hasher_of be nm)) (Ho : obj nm be st) (sg : signature) (id : recovery_id).
Context (EQ : sign_with_hasher (hasher_of be nm) fuel hash sk o rng st = Ret (Ok (sg, id))).
Context (ro : recovery_options) (Z0 : hash_int n hash <> 0) (ST : ro_strict ro = true -> strict_ok n hash).
Context (CF : 0 <= d_cofactor D < 2 ^ 32) (CV : covers D).
Context (NP : ~ recovery_panics (params_val D) (Some id) (hash_int n hash) (bi_val (sig_r sg)) (bi_val (sig_s sg))).

Lemma recover_signer_same sg' : code_sig sg' -> sig_params sg' = D -> bi_val (sig_r sg') = bi_val (sig_r sg) -> bi_val (sig_s sg') = bi_val (sig_s sg) ->
  exists ks, recover_with_options sg' hash (Some id) ro = Ret (Ok ks) /\
  (exists pk', In pk' ks /\ pt_val (pk_data pk') = pt_val (pk_data pk)) /\
  (id = LowXEvenY \/ id = LowXOddY \/ d_cofactor D = 1 -> exists pk', ks = [pk'] /\ pk_params pk' = D /\ pt_val (pk_data pk') = pt_val (pk_data pk)).
Proof.
  intros HS EP Vr Vs. destruct (signed be nm sk HK SZ hash Hb o rng HR fuel st Ho sg id EQ) as (Hne & _ & _ & _ & _ & _ & V & i & k & _ & Hk & SO).
  rewrite <- Vr, <- Vs in V, SO.
  assert (HD := proj1 HK). destruct HK as (_ & Wd & Hd). assert (OKD := proj1 (proj2 HD)).
  assert (HP := matching_pk sk pk HK HM). destruct HM as (M1 & M2 & M3).
  destruct (recover_cases D HD sg' hash ro HS EP Hb Hne (fun k => or_introl (proj1 (ST k))) CF (Some id)) as [[P _]|(_ & h & ks & Vh & Hh & E & K)].
  { exfalso. rewrite Vr, Vs in P. now apply NP. } cbv beta in E.
  exists ks. split.
  { rewrite E. destruct (ro_strict ro) eqn:SR; cbn [andb].
    - destruct (ST eq_refl) as [_ ->]. rewrite Z.eqb_refl. cbn [negb]. apply Z.eqb_neq in Z0. now rewrite Z0.
    - apply Z.eqb_neq in Z0. now rewrite Z0. }
  destruct (signature_point (params_val D) OKD _ _ _ _ _ _ _ Hd Hk SO) as (Rr & Rs & _ & k' & x & y & Hk' & Ek & Ex & Ei & Es).
  destruct (recid_parity id x y n Ei) as [PA HI].
  assert (OC : on_curve (curve_val (d_curve D)) (Some (x, y))).
  { rewrite <- Ek. apply emul_closed; [apply HD|]. exact (proj2 (base_code _ HD)). }
  destruct (cand_j D HD (proj1 CF) CV x y OC) as [J1 J2].
  pose proof (recovered_signer (params_val D) OKD _ _ _ _ _ Hd Rr Rs Hk' Es) as ER. rewrite Ek in ER. rewrite <- Vh in ER, V.
  change (emul (e_curve (params_val D)) (bi_val (sk_data sk)) (e_base (params_val D))) with (emul (curve_val (d_curve D)) (bi_val (sk_data sk)) (pt_val (d_base D))) in ER.
  rewrite <- M3 in ER, V. destruct HP as (_ & _ & VP). rewrite M1 in VP.
  assert (GP : good_point D sg' h (Some (x, y))).
  { exists (bi_val (px (pk_data pk))), (bi_val (py (pk_data pk))). rewrite ER. split; [|split; [exact VP|exact V]].
    destruct (valid_point_of _ _ (params_curve _ HD) M2 VP) as [_ NN].
    destruct (pt_val (pk_data pk)) as [[a b]|] eqn:EV; [|congruence]. destruct (pt_some _ _ _ M2 EV) as [-> ->]. reflexivity. }
  assert (IN : exists pk', In pk' ks /\ pt_val (pk_data pk') = pt_val (pk_data pk)).
  { destruct (j_bounds (Some id) D) as [lo hi] eqn:EJ. destruct K as (_ & _ & K). destruct (K x y) as (pk' & I & P); [|exact GP|].
    - exists (x / n). split; [|split; [rewrite J2 at 1; f_equal; exact Ex|split; [exact OC|exact PA]]].
      assert (N0 : 0 < n) by (clear - Hd; lia). assert (N1 : n <> 0) by lia. pose proof (Z.div_mod x n N1). pose proof (Z.mod_pos_bound x n N0). destruct OC as ((X0 & _) & _).
      destruct id; cbn [j_bounds] in EJ; injection EJ as <- <-.
      + assert (x < n) by (destruct (Z.lt_ge_cases x n) as [|L]; [assumption|apply HI in L; destruct L; discriminate]). rewrite Z.div_small by lia. lia.
      + assert (x < n) by (destruct (Z.lt_ge_cases x n) as [|L]; [assumption|apply HI in L; destruct L; discriminate]). rewrite Z.div_small by lia. lia.
      + split; [|apply J1]. assert (n <= x) by (apply HI; auto). apply Z.div_le_lower_bound; lia.
      + split; [|apply J1]. assert (n <= x) by (apply HI; auto). apply Z.div_le_lower_bound; lia.
    - exists pk'. split; [exact I|]. now rewrite P. }
  split; [exact IN|]. intros ONE. destruct IN as (pk' & I & P).
  assert (L1 : (length ks <= 1)%nat).
  { destruct (j_bounds (Some id) D) as [lo hi] eqn:EJ. destruct K as (L & _). specialize (L ltac:(discriminate)).
    enough (hi - lo + 1 <= 1) by lia. destruct id; cbn [j_bounds] in EJ; injection EJ as <- <-; try lia; destruct ONE as [?|[?|?]]; try discriminate; lia. }
  exists pk'. destruct ks as [|a ks]; [destruct I|]. destruct ks as [|b ks]; [|cbn in L1; lia]. destruct I as [<-|[]]. split; [reflexivity|]. split; [|exact P].
  destruct (j_bounds (Some id) D) as [lo hi]. destruct K as (_ & K & _). destruct (K a (or_introl eq_refl)) as ((_ & G2 & _) & _). exact G2.
Qed.
Lemma recover_signer : exists ks, recover_with_options sg hash (Some id) ro = Ret (Ok ks) /\
  (exists pk', In pk' ks /\ pt_val (pk_data pk') = pt_val (pk_data pk)) /\
  (id = LowXEvenY \/ id = LowXOddY \/ d_cofactor D = 1 -> exists pk', ks = [pk'] /\ pk_params pk' = D /\ pt_val (pk_data pk') = pt_val (pk_data pk)).
Proof.
  destruct (signed be nm sk HK SZ hash Hb o rng HR fuel st Ho sg id EQ) as (_ & _ & _ & HS & EP & _). apply recover_signer_same; auto.
Qed.

Lemma recover_signer_low : id = LowXEvenY \/ id = LowXOddY -> ~ recovery_panics (params_val D) (Some id) (hash_int n hash) (bi_val (sig_r sg)) (bi_val (sig_s sg)).
Proof.
  clear NP CV CF Z0 ST. clear ro. intros LOW (j & x' & J & EX & K).
  destruct (signed be nm sk HK SZ hash Hb o rng HR fuel st Ho sg id EQ) as (_ & _ & _ & _ & _ & _ & _ & i & k & _ & Hk & SO).
  assert (HD := proj1 HK). destruct HK as (_ & _ & Hd). assert (OKD := proj1 (proj2 HD)).
  destruct (signature_point (params_val D) OKD _ _ _ _ _ _ _ Hd Hk SO) as (_ & _ & _ & k' & x & y & Hk' & Ek & Ex & Ei & _).
  destruct (recid_parity id x y n Ei) as [PA HI]. assert (J0 : j = 0) by (destruct LOW as [-> | ->]; exact J). rewrite J0 in EX. cbn [e_order params_val] in EX.
  assert (OKC : curve_ok (curve_val (d_curve D))) by apply HD. assert (HG := proj2 (base_code _ HD)).
  assert (OC : on_curve (curve_val (d_curve D)) (Some (x, y))) by (rewrite <- Ek; apply emul_closed; assumption).
  assert (XN : x < n) by (destruct (Z.lt_ge_cases x n) as [|L]; [assumption|]; apply HI in L; destruct LOW as [-> | ->]; destruct L; discriminate).
  assert (EXX : x' = x). { cbn [params_val e_order] in Ex. rewrite Z.mod_small in Ex; [lia|]. split; [apply OC|exact XN]. } rewrite EXX in *. clear EXX EX J.
  assert (NO : forall m, 0 <= m -> ~ two_torsion (emul (curve_val (d_curve D)) m (pt_val (d_base D)))) by exact (kG_no2 (params_val D) OKD).
  destruct K as [K|(y' & O' & PY & T)].
  - apply (NO k' ltac:(lia)). change (emul (curve_val (d_curve D)) k' (pt_val (d_base D)) = Some (x, y)) in Ek. rewrite Ek. exists x. f_equal. f_equal.
    destruct OC as (_ & Hy & O1). destruct K as (_ & _ & O2). cbn [params_val e_curve] in O2. rewrite <- O2 in O1. change (0 * 0) with 0 in O1.
    destruct OKC as (Hp & P3 & _). rewrite Z.mod_0_l in O1 by lia. apply Z.mod_divide in O1; [|lia]. apply prime_mult in O1; [|exact Hp].
    destruct (Z.eq_dec y 0) as [|N0]; [assumption|]. destruct O1 as [O1|O1]; apply Z.divide_pos_le in O1; lia.
  - assert (EY : y' = y).
    { eapply (parity_point (params_val D) OKD); [exact O'|exact OC|]. destruct LOW as [-> | ->]; cbn [id_parity] in *; congruence. }
    rewrite EY, <- Ek in T. unfold recovery_trap in T. cbv zeta in T. cbn [params_val e_curve e_order e_base e_cofactor] in T.
    destruct (signature_point (params_val D) OKD _ _ _ _ _ _ _ Hd Hk SO) as (_ & Rs & _). cbn [params_val e_order] in Rs.
    assert (EM : forall a b, 0 <= a -> 0 <= b -> emul (curve_val (d_curve D)) a (emul (curve_val (d_curve D)) b (pt_val (d_base D))) = emul (curve_val (d_curve D)) (a * b) (pt_val (d_base D))).
    { intros a b Ha Hb'. symmetry. apply emul_mul; assumption. }
    assert (N0 : 0 < n) by (clear - Hd; lia). pose proof (Z.mod_pos_bound (- hash_int n hash) n N0) as MB.
    assert (ZI : 0 <= zinv n (bi_val (sig_r sg))) by apply Z.mod_pos_bound, N0.
    assert (NT : forall m q, 0 <= m -> ~ doubles_two (curve_val (d_curve D)) q (emul (curve_val (d_curve D)) m (pt_val (d_base D)))).
    { intros m q Hm (u & Hu & _ & T'). revert T'. rewrite EM by (assumption || (apply Z.pow_nonneg; lia)). apply NO. apply Z.mul_nonneg_nonneg; [apply Z.pow_nonneg; lia|exact Hm]. }
    unfold order in *. rewrite EM in T by lia. rewrite <- emul_add in T by (assumption || lia || nia). rewrite EM in T by (assumption || nia).
    destruct T as [T|[T|[_ T]]]; revert T; apply NT; nia.
Qed.
End Signer.

Lemma recover_signer_all (be : bool) (nm : hash_name) sk pk : code_sk sk -> matching sk pk -> nbits (order (sk_params sk)) < 2 ^ 60 ->
  forall hash, bytes hash -> forall o rng, rng_ok rng -> forall fuel (st : h_state (hasher_of be nm)), obj nm be st -> forall sg id,
  sign_with_hasher (hasher_of be nm) fuel hash sk o rng st = Ret (Ok (sg, id)) ->
  forall ro, hash_int (order (sk_params sk)) hash <> 0 -> (ro_strict ro = true -> strict_ok (order (sk_params sk)) hash) ->
  0 <= d_cofactor (sk_params sk) < 2 ^ 32 -> covers (sk_params sk) ->
  let panics := recovery_panics (params_val (sk_params sk)) (Some id) (hash_int (order (sk_params sk)) hash) (bi_val (sig_r sg)) (bi_val (sig_s sg)) in
  (id = LowXEvenY \/ id = LowXOddY \/ recoverable (sk_params sk) -> ~ panics) /\
  (panics -> recover_with_options sg hash (Some id) ro = Panic) /\
  (~ panics -> exists ks, recover_with_options sg hash (Some id) ro = Ret (Ok ks) /\
    (exists pk', In pk' ks /\ pt_val (pk_data pk') = pt_val (pk_data pk)) /\
    (id = LowXEvenY \/ id = LowXOddY \/ d_cofactor (sk_params sk) = 1 -> exists pk', ks = [pk'] /\ pk_params pk' = sk_params sk /\ pt_val (pk_data pk') = pt_val (pk_data pk))).
Proof.
  intros HK HM SZ hash Hb o rng HR fuel st Ho sg id EQ ro Z0 ST CF CV panics. split; [|split].
  - intros [L|[L|L]]; [eapply recover_signer_low; eauto|eapply recover_signer_low; eauto|]. apply no2_no_panic; [apply HK|]. apply nt_of; [apply HK|exact L].
  - intros P. destruct (signed be nm sk HK SZ hash Hb o rng HR fuel st Ho sg id EQ) as (Hne & _ & _ & HS & EP & _). unfold panics in P. rewrite <- EP in *.
    apply recover_panic_iff; try assumption. split; [exact Hne|]. right. split; [exact ST|]. split; [exact Z0|exact P].
  - intros P. eapply recover_signer; eauto.
Qed.

Lemma rc_np D id e r s : code_params D -> recoverable D -> ~ recovery_panics (params_val D) id e r s.
Proof. intros HD RC. apply no2_no_panic; [exact HD|]. now apply nt_of. Qed.

(** * Termination of signing *)
Lemma bound_all (P : nat -> nat -> Prop) i : (forall j, (j <= i)%nat -> exists c, forall f, (c <= f)%nat -> P j f) -> exists c, forall j f, (j <= i)%nat -> (c <= f)%nat -> P j f.
Proof.
  induction i as [|i IH]; intros H.
  - destruct (H O (le_n _)) as (c & K). exists c. intros j f Hj Hf. replace j with O by lia. auto.
  - destruct IH as (c & K). { intros j Hj. apply H. lia. } destruct (H (S i) (le_n _)) as (c' & K'). exists (Nat.max c c'). intros j f Hj Hf.
    destruct (Nat.eq_dec j (S i)) as [->|N]; [apply K'; lia|apply K; lia].
Qed.
Lemma pow_big c : exists F, forall fuel, (F <= fuel)%nat -> (c < 2 ^ fuel)%nat.
Proof.
  exists c. intros fuel H. apply Nat.lt_le_trans with (2 ^ c)%nat; [apply Nat.pow_gt_lin_r; lia|apply Nat.pow_le_mono_r; lia].
Qed.

Section Term.
Context (be : bool) (nm : hash_name) (sk : private_key) (HK : code_sk sk).
Local Notation D := (sk_params sk).
Local Notation n := (order D).
Local Notation d := (bi_val (sk_data sk)).
Context (SZ : nbits n < 2 ^ 60) (hash : list Z) (Hb : bytes hash) (Hne : hash <> []) (o : signing_options).
Context (rng : nat -> outcome (result get_os_random_bytes_error (list Z))) (HR : rng_ok rng).
Context (st : h_state (hasher_of be nm)) (Ho : obj nm be st) (ST : so_strict o = true -> strict_usable cfg n).
Local Notation e := (hash_int n hash).
Local Notation out fuel := (sign_with_hasher (hasher_of be nm) fuel hash sk o rng st).
Let HD : code_params D. Proof. apply HK. Qed.

Lemma attempt_unique i k k' : nonce_of_attempt nm n d hash o rng i k -> nonce_of_attempt nm n d hash o rng i k' -> k = k'.
Proof.
  intros (ex & E1 & K1) (ex' & E2 & K2). assert (EE : ex = ex'). { unfold extra_data in *. destruct (so_extra o); congruence. } subst ex'.
  eapply is_nonce_unique; eassumption.
Qed.
Lemma attempt_not_stuck i k : nonce_of_attempt nm n d hash o rng i k -> exists c, forall fuel, (c < 2 ^ fuel)%nat -> ~ sstuck D nm sk hash o rng fuel i.
Proof.
  intros (ex & E1 & (c & K1 & K2 & _)). exists c. intros fuel L (ex' & E2 & N). 
  assert (EE : ex = ex') by (unfold extra_data in *; destruct (so_extra o); congruence). subst ex'. apply (N c L). unfold RFC6979_candidate. rewrite K1. exact K2.
Qed.
Lemma norand_not_stuck i fuel : no_randomness o rng i -> ~ sstuck D nm sk hash o rng fuel i.
Proof. intros (E1 & e0 & E2) (ex & K & _). unfold extra_data in K. rewrite E1 in K. congruence. Qed.
Lemma norand_not_fails i : no_randomness o rng i -> ~ sfails D nm sk hash o rng i.
Proof. intros (E1 & e0 & E2) (k & (ex & K & _) & _). unfold extra_data in K. rewrite E1 in K. congruence. Qed.

Lemma sign_terminates i :
  (forall j, (j <= i)%nat -> no_randomness o rng j \/ exists k, nonce_of_attempt nm n d hash o rng j k) ->
  (no_randomness o rng i \/ exists k, nonce_of_attempt nm n d hash o rng i k /\ ecdsa_sign (params_val D) d e k <> None) ->
  exists F, forall fuel, (F <= fuel)%nat -> exists r, out fuel = Ret r.
Proof.
  intros HA HI.
  destruct (bound_all (fun j f => ~ sstuck D nm sk hash o rng f j) i) as (c & NS).
  { intros j Hj. destruct (HA j Hj) as [K|(k & K)]; [exists O; intros f _; now apply norand_not_stuck|].
    destruct (attempt_not_stuck j k K) as (c & N). destruct (pow_big c) as (F & HF). exists F. intros f Hf. apply N, HF, Hf. }
  destruct (pow_big i) as (F & HF). exists (Nat.max c F). intros fuel Hf.
  pose proof (sign_spec D HD be nm SZ sk HK eq_refl hash Hb Hne o rng HR fuel st Ho ST) as K. cbv zeta in K.
  destruct (so_strict o && _); [eauto|]. destruct (negb (so_zero o) && _); [eauto|].
  assert (NF : ~ sfails D nm sk hash o rng i).
  { destruct HI as [K1|(k & K1 & K2)]; [now apply norand_not_fails|]. intros (k' & K3 & K4). rewrite <- (attempt_unique i _ _ K1 K3) in K4. contradiction. }
  destruct K as [(r & j & -> & _)|(_ & K)]; [eauto|]. exfalso. destruct K as [K|(j & K1 & K2)].
  - apply NF, K, HF. lia.
  - destruct (Nat.le_gt_cases j i) as [L|L]; [apply (NS j fuel L ltac:(lia) K1)|apply NF, K2, L].
Qed.

(** Without additional data every attempt is the same. *)
Lemma sign_loops k : so_extra o = false -> RFC6979 nm n d hash [] k -> ecdsa_sign (params_val D) d e k = None ->
  (so_strict o = true -> 8 * Z.of_nat (length hash) = nbits n) -> (so_zero o = false -> e <> 0) -> forall fuel, out fuel = OutOfFuel.
Proof.
  intros X K N S1 S2 fuel. pose proof (sign_spec D HD be nm SZ sk HK eq_refl hash Hb Hne o rng HR fuel st Ho ST) as SP. cbv zeta in SP.
  assert (E1 : so_strict o && negb (8 * Z.of_nat (length hash) =? nbits n) = false).
  { destruct (so_strict o); [|reflexivity]. rewrite S1, Z.eqb_refl by reflexivity. reflexivity. }
  assert (E2 : negb (so_zero o) && (e =? 0) = false).
  { destruct (so_zero o); [reflexivity|]. cbn [negb andb]. apply Z.eqb_neq. auto. }
  rewrite E1, E2 in SP. destruct SP as [(r & i & -> & R & _)|(-> & _)]; [|reflexivity]. exfalso.
  assert (AK : nonce_of_attempt nm n d hash o rng i k) by (exists []; split; [unfold extra_data; now rewrite X|exact K]).
  destruct r as [f|err]; cbn [sresult] in R.
  - destruct R as (k' & A' & (_ & _ & _ & SO)). change (nonce_of_attempt nm n d hash o rng i k') in A'. rewrite <- (attempt_unique i _ _ AK A') in SO.
    destruct SO as (x & y & s0 & _ & ES & _). congruence.
  - destruct R as (R & _). congruence.
Qed.
(** With or without: signing never panics. *)
Lemma sign_no_panic fuel : out fuel <> Panic.
Proof.
  pose proof (sign_spec D HD be nm SZ sk HK eq_refl hash Hb Hne o rng HR fuel st Ho ST) as SP. cbv zeta in SP.
  destruct (so_strict o && _); [rewrite SP; discriminate|]. destruct (negb (so_zero o) && _); [rewrite SP; discriminate|].
  destruct SP as [(r & i & -> & _)|(-> & _)]; discriminate.
Qed.
End Term.
End Proofs.

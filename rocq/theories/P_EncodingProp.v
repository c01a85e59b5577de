(** The properties of the text encodings, with examples. *)

From Coq Require Import Lia.
From Verif Require Import Base M_Codec M_BigInt M_BigText M_Modular M_Curve M_Ecdsa M_Encoding
  S_BigInt S_Codec S_Curve S_EcModel S_Ecdsa S_Recover S_Encoding
  P_BigInt1 P_BigInt3 P_BigInt4 P_BigApi P_Codec P_NumTheory P_Modular P_Curve P_EcModel P_Order P_EcLaws P_EcEx P_Ecdsa1 P_Ecdsa2 P_Encoding P_Encoding2.
Open Scope Z_scope.

Section Proofs.
Context {cfg : digit_cfg}.

Lemma sec1_loose L x y t : sec1 L x y true t -> loose_compressed L x y t.
Proof. intros H. inversion H; subst. now apply loose_plain with L. Qed.

Lemma sec1_roundtrip pk c : code_pk pk -> encodable pk ->
  let L := nbytes (order (pk_params pk)) in let P := pk_data pk in
  exists t pk', to_sec1_hex pk c = Ret t /\ sec1 L (bi_val (px P)) (bi_val (py P)) c t /\ lower_case t /\
    length t = (if c then 2 + 2 * L else 2 + 4 * L)%nat /\
    from_sec1_hex t (pk_params pk) = Ret (Ok pk') /\ same_key pk' pk.
Proof.
  intros (HD & WP & V) [Ex Ey] L P. destruct (encode_in (pk_params pk) HD P c WP Ex Ey) as (t & ET & ST & LT).
  destruct (decode_valid (pk_params pk) HD t _ _ (lower_bytes t LT) V) as (P' & EP & WP' & X & Y).
  - apply Z.lt_le_trans with 1; [lia|apply Ey].
  - fold P. destruct c; [right; apply sec1_loose, ST|left; exact ST].
  - exists t, (mkPk P' (pk_params pk)). split; [exact ET|]. split; [exact ST|]. split; [exact LT|]. split.
    + unfold L. destruct ST as [xs ys (H1 & _) (H2 & _)|xs (H1 & _)]; cbn [length]; rewrite ?app_length; lia.
    + unfold from_sec1_hex. rewrite EP. cbn [rbind]. split; [reflexivity|]. split; [reflexivity|]. auto.
Qed.

Lemma sec1_decode_all D data : code_params D -> bytes data ->
  let L := nbytes (order D) in
  (sec1_panics (params_val D) data -> from_sec1_hex data D = Panic) /\
  (~ sec1_panics (params_val D) data -> exists r, from_sec1_hex data D = Ret r /\
    match r with
    | Ok pk => code_pk pk /\ pk_params pk = D /\ exists x y, bi_val (px (pk_data pk)) = x /\ bi_val (py (pk_data pk)) = y /\ (sec1 L x y false data \/ loose_compressed L x y data)
    | Err _ => forall x y, valid_public (params_val D) x y -> ~ (sec1 L x y false data \/ loose_compressed L x y data)
    end).
Proof.
  intros HD Hb L. unfold from_sec1_hex. destruct (decode_all D HD data Hb) as [[K ->]|[K (r & -> & H)]]; (split; [intros K'|intros K']).
  - reflexivity.
  - exfalso. exact (K' K).
  - exfalso. exact (K K').
  - destruct r as [P|e]; cbn [rbind]; (eexists; split; [reflexivity|]); cbn.
    + destruct H as (WP & V & H). split; [split; [exact HD|]; split; assumption|]. split; [reflexivity|]. eauto.
    + intros x y V K2. apply (H x y). split; assumption.
Qed.
Lemma sec1_decode D data : code_params D -> no_order_two D -> bytes data ->
  let L := nbytes (order D) in
  exists r, from_sec1_hex data D = Ret r /\
    match r with
    | Ok pk => code_pk pk /\ pk_params pk = D /\ exists x y, bi_val (px (pk_data pk)) = x /\ bi_val (py (pk_data pk)) = y /\ (sec1 L x y false data \/ loose_compressed L x y data)
    | Err _ => forall x y, valid_public (params_val D) x y -> ~ (sec1 L x y false data \/ loose_compressed L x y data)
    end.
Proof. intros HD NT Hb L. apply (sec1_decode_all D data HD Hb). exact (no_two_decodes D HD data NT). Qed.
Lemma sec1_panic_iff D data : code_params D -> bytes data -> (from_sec1_hex data D = Panic <-> sec1_panics (params_val D) data).
Proof.
  intros HD Hb. unfold from_sec1_hex. destruct (decode_all D HD data Hb) as [[K ->]|[K (r & -> & H)]]; [tauto|]. split; [|tauto]. destruct r; discriminate.
Qed.
Lemma sec1_no_panic D data : code_params D -> no_order_two D -> bytes data -> from_sec1_hex data D <> Panic.
Proof. intros HD NT Hb K. apply sec1_panic_iff in K; [|exact HD|exact Hb]. exact (no_two_decodes D HD data NT K). Qed.
Lemma sec1_accepted D data pk : code_params D -> bytes data -> from_sec1_hex data D = Ret (Ok pk) ->
  let L := nbytes (order D) in let x := bi_val (px (pk_data pk)) in let y := bi_val (py (pk_data pk)) in sec1 L x y false data \/ loose_compressed L x y data.
Proof.
  intros HD Hb E L x y. unfold from_sec1_hex in E. destruct (decode_all D HD data Hb) as [[K EQ]|[K (r & EQ & H)]]; rewrite EQ in E; [discriminate|].
  destruct r as [P|e]; cbn [rbind] in E; [|discriminate]. injection E as <-. apply H.
Qed.

Lemma loose_exact L x y t : loose_compressed L x y t -> length t = (2 + 2 * L)%nat -> sec1 L x y true t.
Proof.
  intros H HL. destruct H as [k xs K (L1 & H)|k xs K (L1 & H)|k xs K (L1 & H)]; cbn [length] in HL.
  - assert (k = L) by lia. subst k. constructor. split; assumption.
  - exfalso. lia.
  - exfalso. lia.
Qed.
Lemma sec1_not_false L x y t : sec1 L x y false t -> length t = (2 + 4 * L)%nat.
Proof. intros H. inversion H as [xs ys (H1 & _) (H2 & _)|]; subst. cbn [length]. rewrite app_length. lia. Qed.

Lemma sec1_exact_length D data pk : code_params D -> bytes data ->
  let L := nbytes (order D) in length data = (2 + 2 * L)%nat -> from_sec1_hex data D = Ret (Ok pk) ->
  sec1 L (bi_val (px (pk_data pk))) (bi_val (py (pk_data pk))) true data.
Proof.
  intros HD Hb L HL E. destruct (sec1_accepted D data pk HD Hb E) as [H|H].
  - apply sec1_not_false in H. pose proof (L_pos D). unfold L in *. lia.
  - apply loose_exact; assumption.
Qed.
Lemma sec1_one_form D t t' pk pk' : code_params D -> bytes t -> bytes t' ->
  let L := nbytes (order D) in length t = (2 + 2 * L)%nat -> length t' = (2 + 2 * L)%nat ->
  from_sec1_hex t D = Ret (Ok pk) -> from_sec1_hex t' D = Ret (Ok pk') -> same_key pk pk' -> to_lower t = to_lower t'.
Proof.
  intros HD B B' L HL HL' E E' (_ & KX & KY).
  pose proof (sec1_exact_length D t pk HD B HL E) as H. pose proof (sec1_exact_length D t' pk' HD B' HL' E') as H'. rewrite KX, KY in H.
  inversion H as [|xs H1]; subst. inversion H' as [|xs' H1']; subst. unfold to_lower in *. cbn [map]. f_equal. f_equal. eapply hex_number_case; eauto.
Qed.
Lemma sec1_many_forms pk : code_pk pk -> encodable pk -> forall k, exists t pk',
  to_sec1_hex pk true = Ret (firstn 2 t ++ skipn (2 + 2 * k) t) /\ length t = (2 + 2 * (nbytes (order (pk_params pk)) + k))%nat /\
  from_sec1_hex t (pk_params pk) = Ret (Ok pk') /\ same_key pk' pk.
Proof.
  intros (HD & WP & V) [Ex Ey] k. destruct (encode_in (pk_params pk) HD (pk_data pk) true WP Ex Ey) as (t & ET & ST & LT).
  inversion ST as [|xs (H1 & vs & H2 & H3) E0 E1]; subst t. inversion LT as [|? ? _ LT2]; subst. inversion LT2 as [|? ? LC LT3]; subst.
  set (c := if Z.odd (bi_val (py (pk_data pk))) then 51 else 50) in *. set (t := 48 :: c :: repeat 48 (2 * k) ++ xs).
  assert (HX : hex_number (nbytes (order (pk_params pk)) + k) (repeat 48 (2 * k) ++ xs) (bi_val (px (pk_data pk)))).
  { split; [rewrite app_length, repeat_length; lia|]. exists (repeat 0 (2 * k) ++ vs). split.
    - apply Forall2_app; [|exact H2]. clear. induction (2 * k)%nat; constructor; [split; [reflexivity|lia]|assumption].
    - clear - H3. rewrite <- H3. induction (2 * k)%nat as [|m IH]; [reflexivity|]. cbn [repeat app]. rewrite positional_cons, IH. lia. }
  destruct (decode_valid (pk_params pk) HD t (bi_val (px (pk_data pk))) (bi_val (py (pk_data pk)))) as (P' & EP & WP' & X & Y); [|exact V| | |].
  - apply lower_bytes. constructor; [lia|]. constructor; [exact LC|]. apply lower_app; [|exact LT3]. clear. induction (2 * k)%nat; constructor; [lia|assumption].
  - lia.
  - right. unfold t, c. apply loose_plain with (nbytes (order (pk_params pk)) + k)%nat; [lia|exact HX].
  - exists t, (mkPk P' (pk_params pk)). split; [|split; [|split]].
    + unfold to_sec1_hex. rewrite ET. f_equal. unfold t. cbn [firstn app Nat.add skipn]. f_equal. f_equal. rewrite skipn_app, repeat_length, Nat.sub_diag.
      rewrite skipn_all2 by (rewrite repeat_length; lia). reflexivity.
    + unfold t. cbn [length]. rewrite (proj1 HX). lia.
    + unfold from_sec1_hex. rewrite EP. reflexivity.
    + split; [reflexivity|]. auto.
Qed.

Lemma sec1_encode_iff pk c : code_pk pk ->
  (encodable pk -> exists t, to_sec1_hex pk c = Ret t) /\ (~ encodable pk -> to_sec1_hex pk c = Panic).
Proof.
  intros (HD & WP & V). split.
  - intros [Ex Ey]. destruct (encode_in (pk_params pk) HD (pk_data pk) c WP Ex Ey) as (t & ET & _). eauto.
  - intros H. now apply encode_out.
Qed.

Lemma p1363_roundtrip sg : code_sig sg ->
  let L := nbytes (order (sig_params sg)) in
  exists t sg', to_p1363_hex sg = Ret t /\ p1363 L (bi_val (sig_r sg)) (bi_val (sig_s sg)) t /\ lower_case t /\ length t = (4 * L)%nat /\
    from_p1363_hex t (sig_params sg) = Ret (Ok sg') /\ same_signature sg' sg.
Proof.
  intros (HD & Wr & Ws & Hr & Hs) L. destruct (p1363_encode (sig_params sg) HD sg eq_refl Wr Ws Hr Hs) as (t & ET & PT & LT).
  destruct (p1363_decode (sig_params sg) HD t (lower_bytes t LT)) as (res & ED & H).
  destruct res as [sg'|e]; [|exfalso; eapply H; eauto].
  exists t, sg'. split; [exact ET|]. split; [exact PT|]. split; [exact LT|]. split.
  - destruct PT as (rs & ss & (H1 & _) & (H2 & _) & ->). rewrite app_length. unfold L. lia.
  - split; [exact ED|]. destruct H as (_ & E & (rs & ss & R1 & S1 & E1)). destruct PT as (rs' & ss' & R2 & S2 & E2). rewrite E1 in E2.
    assert (rs = rs' /\ ss = ss') as [<- <-].
    { apply app_inj_1 || idtac. assert (LL : length rs = length rs') by (rewrite (proj1 R1), (proj1 R2); reflexivity).
      split; [apply (f_equal (firstn (length rs))) in E2; rewrite firstn_app, firstn_all, Nat.sub_diag, LL, firstn_app, firstn_all, Nat.sub_diag in E2; cbn in E2; now rewrite !app_nil_r in E2|].
      apply (f_equal (skipn (length rs))) in E2. rewrite skipn_app, skipn_all, Nat.sub_diag, LL, skipn_app, skipn_all, Nat.sub_diag in E2. exact E2. }
    split; [exact E|]. split; eapply hex_number_fun; eauto.
Qed.
Lemma p1363_accepts D data : code_params D -> bytes data ->
  exists res, from_p1363_hex data D = Ret res /\
    match res with
    | Ok sg => code_sig sg /\ sig_params sg = D /\ p1363 (nbytes (order D)) (bi_val (sig_r sg)) (bi_val (sig_s sg)) data
    | Err _ => forall r s, p1363 (nbytes (order D)) r s data -> ~ (1 <= r <= order D - 1 /\ 1 <= s <= order D - 1)
    end.
Proof.
  intros HD Hb. destruct (p1363_decode D HD data Hb) as (res & E & H). exists res. split; [exact E|]. destruct res; [exact H|]. intros r s K [K1 K2]. apply (H r s K). lia.
Qed.
End Proofs.

(** * Examples *)
(** On TOY2 the abscissa 3 has the ordinate 0. *)
Lemma example_decode_panics : forall cfg : digit_cfg, exists D, code_params D /\ from_sec1_hex [48; 50; 48; 51] D = Panic.
Proof.
  intros cfg. destruct (toy2_code cfg) as (D & ED & HD & _).
  assert (K : match small_params 1 4 17 4 2 7 2 with Ret D => from_sec1_hex [48; 50; 48; 51] D = Panic | _ => False end).
  { clear. destruct cfg; (vm_compute; reflexivity). }
  rewrite ED in K. exists D. split; [exact HD|exact K].
Qed.
Lemma example_decode_two : forall cfg : digit_cfg, exists D pk, code_params D /\ ~ no_order_two D /\ from_sec1_hex [48; 50; 48; 52] D = Ret (Ok pk) /\
  from_sec1_hex [48; 52; 48; 51; 48; 48] D = Panic /\ from_sec1_hex [48; 50; 45; 48; 101] D = Panic.
Proof.
  intros cfg. destruct (toy2_code cfg) as (D & ED & HD & VD).
  assert (K : match small_params 1 4 17 4 2 7 2 with Ret D => match from_sec1_hex [48; 50; 48; 52] D with Ret (Ok _) => True | _ => False end /\
      from_sec1_hex [48; 52; 48; 51; 48; 48] D = Panic /\ from_sec1_hex [48; 50; 45; 48; 101] D = Panic | _ => False end).
  { clear. destruct cfg; (vm_compute; repeat split; reflexivity). }
  rewrite ED in K. destruct K as (K & K2). destruct (from_sec1_hex [48; 50; 48; 52] D) as [[pk|]| |] eqn:E1; try contradiction. exists D, pk. split; [exact HD|]. split; [|split; [exact E1|exact K2]].
  assert (CF : d_cofactor D = 2) by (change (d_cofactor D) with (e_cofactor (params_val D)); now rewrite VD).
  assert (EC : curve_val (d_curve D) = e_curve TOY2) by (change (curve_val (d_curve D)) with (e_curve (params_val D)); now rewrite VD).
  intros [N|N]; [congruence|]. rewrite EC in N. apply (N (Some (3, 0))); [|now exists 3]. cbn. lia.
Qed.
(** The point with abscissa n of secp256k1. *)
Definition secp_y : Z := 0x98f66641cb0ae1776b463ebdee3d77fe2658f021db48e2c8ac7ab4c92f83621e.
Lemma secp_point : valid_public SECP256K1 (e_order SECP256K1) secp_y.
Proof.
  split; [split; [discriminate|reflexivity]|]. split; [split; [discriminate|reflexivity]|]. split; [vm_compute; reflexivity|]. split; [intros [K _]; discriminate|]. intros K. exfalso. now apply K.
Qed.
Lemma big_of cfg v : 0 <= v < 2 ^ 256 -> exists b : bigint, @wf cfg b /\ @bi_val cfg b = v.
Proof.
  intros Hv. destruct (@bi_from_be_bytes_spec cfg (to_be 32 v) Positive) as (b & _ & W & V); [|apply to_be_bytes_range|].
  - intros K. apply (f_equal (@length Z)) in K. rewrite to_be_length in K. discriminate.
  - exists b. split; [exact W|]. rewrite V. cbn [sgz]. apply be_val_to_be. change (256 ^ Z.of_nat 32) with (2 ^ 256). exact Hv.
Qed.
Lemma example_encode_panics : forall cfg : digit_cfg, exists D pk, secp256k1 = Ret D /\ public_key_new (pk_data pk) D = Ret (Some pk) /\ code_pk pk /\
  forall c, to_sec1_hex pk c = Panic.
Proof.
  intros cfg. destruct (secp_code cfg) as (D & E & HD & VD & _). assert (EO : order D = e_order SECP256K1) by (change (order D) with (e_order (params_val D)); now rewrite VD).
  destruct (big_of cfg (e_order SECP256K1)) as (x & Wx & Vx); [split; [discriminate|reflexivity]|].
  destruct (big_of cfg secp_y) as (y & Wy & Vy); [split; [discriminate|reflexivity]|].
  assert (V : valid_public (params_val D) (bi_val x) (bi_val y)) by (rewrite VD, Vx, Vy; exact secp_point).
  assert (CP : code_pk (mkPk (mkPoint x y) D)) by (split; [exact HD|]; split; [split; assumption|exact V]).
  exists D, (mkPk (mkPoint x y) D). split; [exact E|]. split.
  - unfold public_key_new. cbn [pk_data]. rewrite validate_valid; [reflexivity|exact HD|split; assumption|exact V].
  - split; [exact CP|]. intros c. apply sec1_encode_iff; [exact CP|]. intros [[_ K] _]. cbn [pk_data pk_params px] in K. rewrite Vx, EO in K. lia.
Qed.
(** The base point of secp256k1 is encodable; so is (5, 1) on a curve of 19 points, whose texts are short. *)
Lemma example_secp_base : forall cfg : digit_cfg, exists D pk, secp256k1 = Ret D /\ pk_params pk = D /\ code_pk pk /\ encodable pk /\ no_order_two D /\ nbytes (order D) = 32%nat.
Proof.
  intros cfg. destruct (secp_code cfg) as (D & E & HD & VD & _). assert (EO : order D = e_order SECP256K1) by (change (order D) with (e_order (params_val D)); now rewrite VD).
  exists D, (mkPk (d_base D) D). split; [exact E|]. split; [reflexivity|].
  assert (PB : pt_val (d_base D) = e_base SECP256K1) by (change (pt_val (d_base D)) with (e_base (params_val D)); now rewrite VD).
  destruct (pt_some (d_base D) _ _ (proj1 (base_code D HD)) PB) as [X Y].
  split.
  { split; [exact HD|]. split; [apply HD|]. cbn [pk_params pk_data]. apply code_valid; [exact HD|apply base_code, HD| |].
    - apply HD.
    - apply HD. }
  split. { unfold encodable. cbn [pk_params pk_data]. rewrite X, Y, EO. repeat split; discriminate || reflexivity. }
  split. { left. change (d_cofactor D) with (e_cofactor (params_val D)). now rewrite VD. }
  rewrite EO. vm_compute. reflexivity.
Qed.
Lemma example_small_texts : forall cfg : digit_cfg, exists D pk, code_params D /\ no_order_two D /\ code_pk pk /\ encodable pk /\ pk_params pk = D /\
  to_sec1_hex pk true = Ret [48; 51; 48; 53] /\ to_sec1_hex pk false = Ret [48; 52; 48; 53; 48; 49] /\
  from_sec1_hex [48; 51; 43; 48; 53] D = Ret (Ok pk).
Proof.
  intros cfg. destruct (toy_code cfg) as (D & ED & HD & VD).
  assert (PB : pt_val (d_base D) = Some (5, 1)) by (change (pt_val (d_base D)) with (e_base (params_val D)); now rewrite VD).
  destruct (pt_some (d_base D) _ _ (proj1 (base_code D HD)) PB) as [X Y].
  assert (EO : order D = 19) by (change (order D) with (e_order (params_val D)); now rewrite VD).
  assert (CP : code_pk (mkPk (d_base D) D)).
  { split; [exact HD|]. split; [apply HD|]. cbn [pk_params pk_data]. apply code_valid; [exact HD|apply base_code, HD|apply HD|apply HD]. }
  assert (K : match (D <- small_params 2 2 17 5 1 19 1 ;; from_sec1_hex [48; 51; 43; 48; 53] D) with Ret (Ok pk) =>
      let P := pk_data pk in wfb (px P) && wfb (py P) = true /\ bi_val (px P) = 5 /\ bi_val (py P) = 1 /\
      to_sec1_hex pk true = Ret [48; 51; 48; 53] /\ to_sec1_hex pk false = Ret [48; 52; 48; 53; 48; 49] | _ => False end).
  { clear. destruct cfg; (vm_compute; repeat split; reflexivity). }
  rewrite ED in K. cbn [obind] in K. unfold from_sec1_hex in K. destruct (decode_point [48; 51; 43; 48; 53] D) as [[P|]| |] eqn:E1; cbn [rbind] in K; try contradiction. cbn [pk_data] in K.
  assert (E1' : from_sec1_hex [48; 51; 43; 48; 53] D = Ret (Ok (mkPk P D))) by (unfold from_sec1_hex; now rewrite E1).
  destruct K as (WW & VX & VY & E2 & E3). apply andb_true_iff in WW. destruct WW as [WX WY]. apply wfb_ok in WX, WY.
  exists D, (mkPk P D). split; [exact HD|]. split; [left; change (d_cofactor D) with (e_cofactor (params_val D)); now rewrite VD|]. split.
  - split; [exact HD|]. split; [split; assumption|]. destruct CP as (_ & _ & V). cbn [pk_params pk_data] in *. rewrite X, Y in V. now rewrite VX, VY.
  - split; [unfold encodable; cbn [pk_params pk_data]; rewrite VX, VY, EO; lia|]. split; [reflexivity|]. auto.
Qed.

(** The functions on secp256k1, the curve of the library, with the default options. *)

From Coq Require Import Lia.
From Verif Require Import Base M_BigInt M_BigText M_Curve M_Hmac M_Random M_Ecdsa M_Rfc6979 M_Encoding.
From Verif Require Import S_BigInt S_Curve S_EcModel S_Ecdsa S_Sign S_Hash S_Encoding.
From Verif Require Import P_BigInt1 P_BigInt3 P_Hash P_Ecdsa2 P_EcdsaProp P_EcdsaProp2 P_EncodingProp P_Eoa.
From Verif Require P_Curve P_EcModel P_Ecdsa1.
Open Scope Z_scope.

Section WithCfg.
Context {cfg : digit_cfg} (D : params) (ED : secp256k1 = Ret D).
Local Notation p := (ep (e_curve SECP256K1)).
Local Notation n := (e_order SECP256K1).

Lemma secp_order : order D = n.
Proof. destruct (secp_fields D ED) as (_ & VD & _). change (order D) with (e_order (params_val D)). now rewrite VD. Qed.
Lemma secp_bits : nbits (order D) = 256.
Proof. rewrite secp_order. vm_compute. reflexivity. Qed.
Lemma secp_hash hash : length hash = 32%nat -> hash_int (order D) hash = be_val hash.
Proof. intros H. unfold hash_int. rewrite secp_bits, H. change (Z.max 0 (8 * Z.of_nat 32 - 256)) with 0. change (2 ^ 0) with 1. apply Z.div_1_r. Qed.

Lemma secp_public_key P : wf_point P ->
  exists b : bool, public_key_new P D = Ret (if b then Some (mkPk P D) else None) /\
    (b = true <-> 0 <= bi_val (px P) < p /\ 0 <= bi_val (py P) < p /\
       (bi_val (py P) * bi_val (py P)) mod p = (bi_val (px P) * bi_val (px P) * bi_val (px P) + 7) mod p).
Proof.
  intros WP. destruct (secp_fields D ED) as (HD & VD & _ & _ & _ & _ & CF).
  destruct (public_key_new1 D P (proj1 (proj1 HD)) WP CF) as (b & E & H). exists b. split; [exact E|]. rewrite H, VD. unfold valid_public.
  change (ea (e_curve SECP256K1)) with 0. change (eb (e_curve SECP256K1)) with 7. change (e_cofactor SECP256K1) with 1.
  set (x := bi_val (px P)). set (y := bi_val (py P)). clearbody x y. rewrite Z.mul_0_l, Z.add_0_r. split; [tauto|]. intros (K1 & K2 & K3).
  split; [exact K1|]. split; [exact K2|]. split; [exact K3|]. split; [|congruence]. intros [-> ->]. vm_compute in K3. discriminate.
Qed.

Lemma secp_private_key data : wf data ->
  exists b : bool, private_key_new data D = Ret (if b then Some (mkSk data D) else None) /\ (b = true <-> 1 <= bi_val data <= n - 1) /\
    (b = true -> exists pk x y, public_key_of (mkSk data D) = Ret pk /\ pk_params pk = D /\ code_pk pk /\
       emul (e_curve SECP256K1) (bi_val data) (e_base SECP256K1) = Some (x, y) /\ bi_val (px (pk_data pk)) = x /\ bi_val (py (pk_data pk)) = y).
Proof.
  intros W. destruct (secp_fields D ED) as (HD & VD & _). assert (Wn : wf (d_order D)) by apply HD.
  destruct (private_key_new_full D data W Wn) as (b & E & H). rewrite secp_order in H. exists b. split; [exact E|]. split; [exact H|]. intros Hb. apply H in Hb.
  assert (HK : code_sk (mkSk data D)). { split; [exact HD|]. split; [exact W|]. cbn [sk_data sk_params]. rewrite secp_order. lia. }
  destruct (public_key_of_full _ HK) as (pk & EP & (M1 & M2 & M3) & CP). cbn [sk_params sk_data] in M1, M3.
  change (curve_val (d_curve D)) with (e_curve (params_val D)) in M3. change (pt_val (d_base D)) with (e_base (params_val D)) in M3. rewrite VD in M3.
  destruct CP as (C1 & C2 & C3). assert (V := C3). rewrite M1 in V. 
  destruct (P_EcModel.valid_point_of _ _ (params_curve _ HD) C2 V) as [_ NN].
  destruct (pt_val (pk_data pk)) as [[x y]|] eqn:EV; [|congruence]. destruct (pt_some _ _ _ C2 EV) as [X Y].
  exists pk, x, y. split; [exact EP|]. split; [exact M1|]. split; [split; [exact C1|split; assumption]|]. split; [now symmetry|]. auto.
Qed.

Lemma same_key_of pk pk' : code_pk pk -> code_pk pk' -> pk_params pk = D -> pk_params pk' = D -> pt_val (pk_data pk) = pt_val (pk_data pk') -> same_key pk pk'.
Proof.
  intros (_ & W & V) (_ & W' & V') E E' K. destruct (secp_fields D ED) as (HD & _). rewrite E in V.
  destruct (P_EcModel.valid_point_of _ _ (params_curve _ HD) W V) as [_ NN].
  destruct (pt_val (pk_data pk)) as [[x y]|] eqn:EV; [|congruence]. symmetry in K. destruct (pt_some _ _ _ W EV) as [X Y]. destruct (pt_some _ _ _ W' K) as [X' Y'].
  split; [congruence|]. split; congruence.
Qed.

(** Signing. *)
Section Sign.
Context (be : bool) (fuel : nat) (sk : private_key) (HK : code_sk sk) (EP : sk_params sk = D).
Context (rng : nat -> outcome (result get_os_random_bytes_error (list Z))) (HR : rng_ok rng) (hash : list Z) (Hb : bytes hash).
Let out := sign_default be fuel hash sk rng.

Lemma secp_size : nbits (order (sk_params sk)) < 2 ^ 60.
Proof. rewrite EP, secp_bits. reflexivity. Qed.
Lemma secp_sign_gates :
  out <> Panic /\
  (out = Ret (Err SEmptyHash) <-> hash = []) /\
  (out = Ret (Err SHashBitLength) <-> hash <> [] /\ length hash <> 32%nat) /\
  (out = Ret (Err SZeroHash) <-> length hash = 32%nat /\ be_val hash = 0).
Proof.
  assert (S8 : so_strict signing_default = true -> strict_usable cfg (order (sk_params sk))) by (intros _; left; rewrite EP, secp_bits; reflexivity).
  pose proof (sign_gates be Sha256 sk fuel hash signing_default rng _ HK secp_size Hb HR (new_obj be Sha256) S8) as G. cbv zeta in G.
  change (sign_with_hasher (hasher_of be Sha256) fuel hash sk signing_default rng (h_new (hasher_of be Sha256))) with out in G.
  destruct G as (G1 & G2 & G3). rewrite EP, secp_bits in G2, G3. split.
  { intros EQ. destruct (list_eq_dec Z.eq_dec hash []) as [E0|Hne]; [apply G1 in E0; congruence|].
    exact (sign_no_panic be Sha256 sk HK secp_size hash Hb Hne signing_default rng HR _ (new_obj be Sha256) S8 fuel EQ). }
  split; [exact G1|]. split.
  - rewrite G2. cbn [signing_default so_strict]. split; [intros (K1 & _ & K2); split; [exact K1|lia]|intros (K1 & K2); split; [exact K1|]; split; [reflexivity|lia]].
  - rewrite G3. cbn [signing_default so_strict so_zero]. split.
    + intros (K1 & K2 & _ & K3). specialize (K2 eq_refl). assert (L : length hash = 32%nat) by lia. rewrite secp_hash in K3 by exact L. auto.
    + intros (L & K). rewrite secp_hash by exact L. split; [intros ->; discriminate|]. split; [intros _; lia|]. auto.
Qed.

Lemma secp_signed pk sg id : public_key_of sk = Ret pk -> out = Ret (Ok (sg, id)) ->
  length hash = 32%nat /\ sig_params sg = D /\ code_sig sg /\
  1 <= bi_val (sig_r sg) <= n - 1 /\ 1 <= bi_val (sig_s sg) <= n / 2 /\
  verify hash sg pk = Ret (Ok true) /\
  (exists pk', recover sg hash (Some id) = Ret (Ok [pk']) /\ same_key pk' pk) /\
  (exists ks pk', recover sg hash None = Ret (Ok ks) /\ In pk' ks /\ same_key pk' pk).
Proof.
  intros EQ EO. destruct (secp_fields D ED) as (HD & VD & SZ & RC & CV & ST & CF).
  destruct (public_key_of_full sk HK) as (pk0 & E0 & HM & CP). rewrite EQ in E0. injection E0 as <-.
  destruct (signed be Sha256 sk HK secp_size hash Hb signing_default rng HR fuel _ (new_obj be Sha256) sg id EO) as (Hne & LN & NZ & HS & ESP & _).
  specialize (NZ eq_refl). rewrite EP in *.
  assert (L : length hash = 32%nat).
  { destruct secp_sign_gates as (_ & _ & G & _). destruct (Nat.eq_dec (length hash) 32) as [L|L]; [exact L|]. exfalso. pose proof (proj2 G (conj Hne L)) as K. unfold out in EO, K. rewrite EO in K. discriminate. }
  assert (PD : pk_params pk = D) by (destruct HM as (M1 & _); congruence).
  destruct (sign_ranges be Sha256 sk fuel hash signing_default rng _ sg id HK secp_size Hb HR (new_obj be Sha256) EO) as (_ & R1 & R2 & R3).
  specialize (R3 eq_refl). rewrite EP, secp_order in R1, R2, R3.
  assert (V : verify hash sg pk = Ret (Ok true)) by exact (sign_verify_default be fuel hash sk pk rng sg id HK EQ secp_size Hb HR EO).
  split; [exact L|]. split; [exact ESP|]. split; [exact HS|]. split; [exact R1|]. split; [lia|]. split; [exact V|]. split.
  - destruct (recover_signer be Sha256 sk pk HK HM secp_size hash Hb signing_default rng HR fuel _ (new_obj be Sha256) sg id EO recovery_default) as (ks & EK & _ & K);
      rewrite ?EP; auto; [apply RC|apply rc_np; auto; apply HS|].
    destruct K as (pk' & -> & PP & PV); [rewrite EP; auto|]. rewrite EP in PP. exists pk'. split; [exact EK|]. apply same_key_of; auto.
    rewrite <- ESP in RC. exact (proj1 (recover_sound sg hash (Some id) recovery_default [pk'] pk' HS (proj1 RC) Hb EK (or_introl eq_refl))).
  - assert (RC' : recoverable (sig_params sg)) by now rewrite ESP. assert (CV' : covers (sig_params sg)) by now rewrite ESP.
    assert (S8 : ro_strict recovery_default = true -> strict_usable cfg (order (sig_params sg))) by (intros _; left; rewrite ESP, secp_bits; reflexivity).
    destruct (recover_gates sg hash None recovery_default HS (proj1 RC') Hb S8) as (G1 & G2 & G3 & G4 & G5 & _). destruct (G4 RC') as (r & G4'). clear G4. rename G4' into G4.
    change (recover_with_options sg hash None recovery_default) with (recover sg hash None) in *. rewrite ESP, secp_bits in G2, G3.
    destruct r as [ks|err].
    + assert (V' : accepted hash sg pk (mkVO false (ro_strict recovery_default))) by exact V.
      destruct (recover_all sg hash recovery_default ks pk HS (proj1 RC') CV' Hb G4 CP ltac:(congruence) V') as (pk' & I & PV).
      exists ks, pk'. split; [exact G4|]. split; [exact I|]. destruct (recover_sound sg hash None recovery_default ks pk' HS (proj1 RC') Hb G4 I) as (CP' & PP & _).
      apply same_key_of; auto. congruence.
    + exfalso. rewrite G4 in *. destruct err; [apply Hne; now apply G1| | |now apply G5].
      * destruct G3 as [G3 _]. destruct (G3 eq_refl) as (_ & _ & K). rewrite ?ESP in K. contradiction.
      * destruct G2 as [G2 _]. destruct (G2 eq_refl) as (_ & _ & K). lia.
Qed.
End Sign.

(** Verifying. *)
Lemma secp_verify pk sg hash : code_pk pk -> pk_params pk = D -> code_sig sg -> sig_params sg = D -> bytes hash ->
  let out := verify hash sg pk in
  (out = Ret (Err VEmptyHash) <-> hash = []) /\
  (out = Ret (Err VHashBitLength) <-> hash <> [] /\ length hash <> 32%nat) /\
  (out = Ret (Err VZeroHash) <-> length hash = 32%nat /\ be_val hash = 0) /\
  (length hash = 32%nat -> be_val hash <> 0 -> exists b : bool, out = Ret (Ok b) /\
     (b = true <-> ecdsa_valid SECP256K1 (pt_val (pk_data pk)) (be_val hash) (bi_val (sig_r sg)) (bi_val (sig_s sg)))).
Proof.
  intros HP EP HS ES Hb out. destruct (secp_fields D ED) as (HD & VD & SZ & RC & CV & ST & CF).
  assert (S8 : vo_strict verifying_default = true -> strict_usable cfg (order (pk_params pk))) by (intros _; left; rewrite EP, secp_bits; reflexivity).
  assert (ESP : sig_params sg = pk_params pk) by congruence.
  destruct (verify_gates pk sg hash verifying_default HP HS ESP Hb S8) as (G1 & G2 & G3 & G4 & (r & G5)).
  pose proof (verify_true pk sg hash verifying_default HP HS ESP Hb) as G6. cbv zeta in G6. unfold accepted in G6.
  change (verify_with_options hash sg pk verifying_default) with out in *. rewrite EP, ?secp_bits in *. cbn [verifying_default vo_low_s vo_strict] in *.
  split; [exact G1|]. split; [|split].
  - rewrite G3. split; [intros (K1 & _ & _ & K2); split; [exact K1|lia]|intros (K1 & K2)]. split; [exact K1|]. split; [discriminate|]. split; [reflexivity|lia].
  - rewrite G4. split.
    + intros (K1 & _ & K2 & K3). specialize (K2 eq_refl). assert (L : length hash = 32%nat) by lia. rewrite secp_hash in K3 by exact L. auto.
    + intros (L & K). rewrite secp_hash by exact L. split; [intros ->; discriminate|]. split; [discriminate|]. split; [intros _; lia|exact K].
  - intros L NZ. rewrite secp_hash in * by exact L. rewrite VD in G6.
    assert (Hne : hash <> []) by (intros ->; discriminate).
    destruct r as [b|err].
    + exists b. split; [exact G5|]. rewrite G5 in G6. split.
      * intros ->. now apply G6.
      * intros K. assert (X : @Ret (result verifying_error bool) (Ok b) = Ret (Ok true)). { apply G6. split; [exact Hne|]. split; [discriminate|]. split; [|auto]. intros _. rewrite <- EP, EP. apply ST. exact L. }
        injection X as ->. reflexivity.
    + exfalso. rewrite G5 in *. destruct err.
      * apply Hne. now apply G1.
      * now apply NZ, G4.
      * destruct G2 as [G2 _]. now destruct (G2 eq_refl) as (_ & K & _).
      * destruct G3 as [G3 _]. destruct (G3 eq_refl) as (_ & _ & _ & K). lia.
Qed.

(** Recovering. *)
Lemma secp_recover sg hash id : code_sig sg -> sig_params sg = D -> bytes hash ->
  let out := recover sg hash id in
  (out = Ret (Err REmptyHash) <-> hash = []) /\
  (out = Ret (Err RHashBitLength) <-> hash <> [] /\ length hash <> 32%nat) /\
  (out = Ret (Err RZeroHash) <-> length hash = 32%nat /\ be_val hash = 0) /\
  (length hash = 32%nat -> be_val hash <> 0 -> exists ks, out = Ret (Ok ks) /\
     (forall pk, In pk ks -> code_pk pk /\ pk_params pk = D /\ verify hash sg pk = Ret (Ok true)) /\
     (id = None -> forall pk, code_pk pk -> pk_params pk = D -> verify hash sg pk = Ret (Ok true) -> exists pk', In pk' ks /\ same_key pk' pk)).
Proof.
  intros HS ES Hb out. destruct (secp_fields D ED) as (HD & VD & SZ & RC & CV & ST & CF).
  assert (RC' : recoverable (sig_params sg)) by now rewrite ES. assert (CV' : covers (sig_params sg)) by now rewrite ES.
  assert (S8 : ro_strict recovery_default = true -> strict_usable cfg (order (sig_params sg))) by (intros _; left; rewrite ES, secp_bits; reflexivity).
  destruct (recover_gates sg hash id recovery_default HS (proj1 RC') Hb S8) as (G1 & G2 & G3 & G4 & G5 & _). destruct (G4 RC') as (r & G4'). clear G4. rename G4' into G4.
  change (recover_with_options sg hash id recovery_default) with out in *. rewrite ES, ?secp_bits in *. cbn [recovery_default ro_strict] in *.
  split; [exact G1|]. split; [|split].
  - rewrite G2. split; [intros (K1 & _ & K2); split; [exact K1|lia]|intros (K1 & K2)]. split; [exact K1|]. split; [reflexivity|lia].
  - rewrite G3. split.
    + intros (K1 & K2 & K3). specialize (K2 eq_refl). assert (L : length hash = 32%nat) by lia. rewrite secp_hash in K3 by exact L. auto.
    + intros (L & K). rewrite secp_hash by exact L. split; [intros ->; discriminate|]. split; [intros _; lia|exact K].
  - intros L NZ. rewrite secp_hash in * by exact L. assert (Hne : hash <> []) by (intros ->; discriminate).
    destruct r as [ks|err].
    + exists ks. split; [exact G4|]. split.
      * intros pk I. destruct (recover_sound sg hash id recovery_default ks pk HS ltac:(rewrite ES; apply RC) Hb G4 I) as (CP & PP & A). rewrite ES in PP. auto.
      * intros -> pk CP PP A. rewrite <- ES in PP.
        destruct (recover_all sg hash recovery_default ks pk HS ltac:(rewrite ES; apply RC) ltac:(now rewrite ES) Hb G4 CP PP A) as (pk' & I & PV). exists pk'. split; [exact I|].
        destruct (recover_sound sg hash None recovery_default ks pk' HS ltac:(rewrite ES; apply RC) Hb G4 I) as (CP' & PP' & _). apply same_key_of; auto; congruence.
    + exfalso. rewrite G4 in *. destruct err.
      * apply Hne. now apply G1.
      * now apply NZ, G3.
      * destruct G2 as [G2 _]. destruct (G2 eq_refl) as (_ & _ & K). lia.
      * now apply G5.
Qed.

(** Texts. *)
Lemma secp_bytes : nbytes (order D) = 32%nat.
Proof. unfold nbytes. rewrite secp_bits. reflexivity. Qed.
Lemma secp_nt : no_order_two D.
Proof. left. apply (secp_fields D ED). Qed.
Lemma secp_decode data : bytes data ->
  exists r, from_sec1_hex data D = Ret r /\
    match r with
    | Ok pk => code_pk pk /\ pk_params pk = D /\ let x := bi_val (px (pk_data pk)) in let y := bi_val (py (pk_data pk)) in sec1 32 x y false data \/ loose_compressed 32 x y data
    | Err _ => forall x y, 0 <= x < p -> 0 <= y < p -> (y * y) mod p = (x * x * x + 7) mod p -> ~ (sec1 32 x y false data \/ loose_compressed 32 x y data)
    end.
Proof.
  intros Hb. destruct (secp_fields D ED) as (HD & VD & _).
  destruct (sec1_decode D data HD secp_nt Hb) as (r & E & H). rewrite secp_bytes in H. exists r. split; [exact E|]. destruct r as [pk|e].
  - destruct H as (H1 & H2 & x & y & <- & <- & H3). auto.
  - intros x y Hx Hy HE. apply H. rewrite VD. unfold valid_public. change (ea (e_curve SECP256K1)) with 0. change (eb (e_curve SECP256K1)) with 7. change (e_cofactor SECP256K1) with 1.
    rewrite Z.mul_0_l, Z.add_0_r. split; [exact Hx|]. split; [exact Hy|]. split; [exact HE|]. split; [|congruence]. intros [-> ->]. vm_compute in HE. discriminate.
Qed.

Lemma same_pt (P P' : point) : bi_val (px P) = bi_val (px P') -> bi_val (py P) = bi_val (py P') -> pt_val P = pt_val P'.
Proof. unfold pt_val. now intros -> ->. Qed.
Lemma verify_same hash sg sg' pk pk' : code_pk pk -> code_pk pk' -> code_sig sg -> code_sig sg' -> pk_params pk = D -> sig_params sg = D -> bytes hash ->
  same_key pk' pk -> same_signature sg' sg -> verify hash sg pk = Ret (Ok true) -> verify hash sg' pk' = Ret (Ok true).
Proof.
  intros HP HP' HS HS' EP ES Hb (K1 & K2 & K3) (S1 & S2 & S3) V.
  assert (V0 : accepted hash sg pk verifying_default) by exact V. apply verify_true in V0; [|assumption|assumption|congruence|assumption].
  change (accepted hash sg' pk' verifying_default). apply verify_true; [assumption|assumption|congruence|assumption|].
  rewrite K1, S2, S3, (same_pt (pk_data pk') (pk_data pk) K2 K3). exact V0.
Qed.
Lemma secp_wire be fuel sk pk rng hash sg id c : code_sk sk -> sk_params sk = D -> rng_ok rng -> bytes hash -> public_key_of sk = Ret pk -> encodable pk ->
  sign_default be fuel hash sk rng = Ret (Ok (sg, id)) ->
  exists tk ts pk' sg', to_sec1_hex pk c = Ret tk /\ to_p1363_hex sg = Ret ts /\ length tk = (if c then 66 else 130)%nat /\ length ts = 128%nat /\
    from_sec1_hex tk D = Ret (Ok pk') /\ from_p1363_hex ts D = Ret (Ok sg') /\ verify hash sg' pk' = Ret (Ok true).
Proof.
  intros HK EP HR Hb EQ EN EO. destruct (secp_fields D ED) as (HD & VD & _).
  destruct (public_key_of_full sk HK) as (pk0 & E0 & HM & CP). rewrite EQ in E0. injection E0 as <-.
  assert (PD : pk_params pk = D) by (destruct HM as (M1 & _); congruence).
  destruct (secp_signed be fuel sk HK EP rng HR hash Hb pk sg id EQ EO) as (_ & ES & CS & _ & _ & V & _).
  destruct (sec1_roundtrip pk c CP EN) as (tk & pk' & K1 & _ & LT & K2 & K3 & K4). destruct (p1363_roundtrip sg CS) as (ts & sg' & T1 & _ & LT' & T2 & T3 & T4).
  rewrite PD in K2, K3. rewrite ES in T2, T3. rewrite secp_bytes in K2, T2.
  exists tk, ts, pk', sg'. split; [exact K1|]. split; [exact T1|]. split; [exact K2|]. split; [exact T2|]. split; [exact K3|]. split; [exact T3|].
  destruct (sec1_decode D tk HD secp_nt (P_Encoding.lower_bytes tk LT)) as (r & E & H). rewrite K3 in E. injection E as <-.
  destruct (p1363_accepts D ts HD (P_Encoding.lower_bytes ts LT')) as (r & E & H'). rewrite T3 in E. injection E as <-.
  apply (verify_same hash sg sg' pk pk'); auto; try apply H; apply H'.
Qed.
End WithCfg.

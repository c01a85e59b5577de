(** Two signatures on secp256k1, computed: the private key 1 signs the SHA-256 hash of "Satoshi Nakamoto", once
    deterministically (a vector found in many implementations), once with additional random data. *)

From Coq Require Import Lia.
From Verif Require Import Base M_BigInt M_Modular M_Curve M_Loop M_Hmac M_Random M_Ecdsa M_Rfc6979
  S_BigInt S_Curve S_EcModel S_Hash S_Ecdsa S_Rfc6979 S_Sign
  P_NumTheory P_Modular P_Curve P_EcModel P_EcEx P_Hash P_Ecdsa1 P_Ecdsa2 P_Rfc6979 P_Sign P_EcdsaProp P_EcdsaProp2 P_Secp P_Eoa P_SecpApi P_SecpKatChain P_SecpKatHmac.
Open Scope Z_scope.

Local Notation E := (e_curve SECP256K1).
Local Notation n := (e_order SECP256K1).
Definition hash0 : list Z := [160; 220; 101; 255; 202; 121; 152; 115; 203; 234; 10; 194; 116; 1; 91; 149; 38; 80; 93; 170; 174; 211; 133; 21; 84; 37; 247; 51; 119; 4; 136; 62].
Definition entropy0 : list Z := [0; 1; 2; 3; 4; 5; 6; 7; 8; 9; 10; 11; 12; 13; 14; 15; 16; 17; 18; 19; 20; 21; 22; 23; 24; 25; 26; 27; 28; 29; 30; 31].
Definition k_det : Z := 0x8f8a276c19f4149656b280621e358cce24f5f52542772691ee69063b74f15d15.
Definition x_det : Z := 0x934b1ea10a4b3c1757e2b0c017d0b6143ce3c9a7e6a4a49860d7a6ab210ee3d8.
Definition y_det : Z := 0xd2831840679da4a3dcd420fb04daa9ff5df5d05ee36a365dd6a9e3ea87f0bc0.
Definition s_det : Z := 0xdbbd3162d46e9f9bef7feb87c16dc13b4f6568a87f4e83f728e2443ba586675c.
Definition k_hed : Z := 0x3262ba5feaf7c959d799f4cb84bd85935de97b31d77309647a4232e07e2becdb.
Definition x_hed : Z := 0x75ab07749ee08aaec97b52ac3e73c3b76cf0e5eed03929d64afecf6405799cac.
Definition y_hed : Z := 0xefe459b2aceaece699ecc82379490f06a6a4bba07122ce57a453a798fac862b0.
Definition s_hed : Z := 0x53f78c086acf03f16dd417f94b453ddbaa9cb47b5afd524e8ad1352e9116c05d.

(** The points. *)
Lemma chain_det_ok : chainh redp E (GX, GY) (GX, GY) 1 chain_det = Some ((x_det, y_det), k_det).
Proof. vm_cast_no_check (eq_refl (Some ((x_det, y_det), k_det))). Qed.
Lemma chain_hed_ok : chainh redp E (GX, GY) (GX, GY) 1 chain_hedged = Some ((x_hed, y_hed), k_hed).
Proof. vm_cast_no_check (eq_refl (Some ((x_hed, y_hed), k_hed))). Qed.
Lemma of_chain l P k : chainh redp E (GX, GY) (GX, GY) 1 l = Some (P, k) -> emul E k (e_base SECP256K1) = Some P.
Proof.
  intros H. symmetry. change (e_base SECP256K1) with (Some (GX, GY)).
  refine (chainh_ok redp E (GX, GY) l redp_ok secp_curve_ok secp_base _ (GX, GY) 1 P k _ _ H); [reflexivity|lia|symmetry; apply emul_1].
Qed.

(** The nonces. *)
Lemma hash0_bytes : bytes hash0. Proof. repeat constructor; unfold byte; lia. Qed.
Lemma nonce_abs hm ex K1 V1 K2 V2 T k : hm (repeat 0 32) (repeat 1 32 ++ [0] ++ seed0 ++ ex) = K1 -> hm K1 (repeat 1 32) = V1 ->
  hm K1 (V1 ++ [1] ++ seed0 ++ ex) = K2 -> hm K2 V1 = V2 -> hm K2 V2 = T -> length T = 32%nat -> be_val T = k -> 1 <= k <= n - 1 ->
  IS_NONCE hm 32 n 1 hash0 ex k.
Proof.
  intros E1 E2 E3 E4 E5 L E6 H. exists 0%nat. split; [|split; [exact H|intros j Hj; lia]].
  unfold NONCE, STATE. cbn [Nat.iter]. unfold SETUP.
  assert (SD : INT2OCTETS n 1 ++ BITS2OCTETS n hash0 ++ ex = seed0 ++ ex).
  { rewrite app_assoc. f_equal. }
  rewrite SD, E1, E2, E3, E4. unfold CANDIDATE. cbn [fst snd]. assert (NB : nblocks 32 n = 1%nat) by (vm_compute; reflexivity). rewrite NB. cbn [BLOCKS fst]. cbv zeta. cbn [fst].
  change (Nat.iter 0 (REJECT hm 32 n) (K2, V2)) with (K2, V2). cbn [fst snd]. rewrite E5, app_nil_r. unfold BITS2INT. rewrite L, E6. assert (Q : qlen n = 256) by (vm_compute; reflexivity). rewrite Q.
  change (2 ^ Z.max 0 (8 * Z.of_nat 32 - 256)) with 1. apply Z.div_1_r.
Qed.
Lemma nonce_det : RFC6979 Sha256 n 1 hash0 [] k_det.
Proof.
  unfold RFC6979. change (out_len Sha256) with 32%nat. generalize K1_det_ok V1_det_ok K2_det_ok V2_det_ok T_det_ok. generalize (HMAC (HASH Sha256) (block_len Sha256)). intros hm E1 E2 E3 E4 E5.
  apply (nonce_abs hm [] _ _ _ _ _ k_det E1 E2 E3 E4 E5); [reflexivity|vm_compute; reflexivity|split; vm_compute; discriminate].
Qed.
Lemma nonce_hed : RFC6979 Sha256 n 1 hash0 entropy0 k_hed.
Proof.
  unfold RFC6979. change (out_len Sha256) with 32%nat. generalize K1_hed_ok V1_hed_ok K2_hed_ok V2_hed_ok T_hed_ok. generalize (HMAC (HASH Sha256) (block_len Sha256)). intros hm E1 E2 E3 E4 E5.
  apply (nonce_abs hm entropy0 _ _ _ _ _ k_hed E1 E2 E3 E4 E5); [reflexivity|vm_compute; reflexivity|split; vm_compute; discriminate].
Qed.

(** The signatures. *)
Definition i_det : Z := 0x1a40580a26a595df10ff8c52e3cc302d0dbd587ed8a798b3e341c19765b90759.
Definition i_hed : Z := 0x7e54437ea3dbe80425e2dee1c4fab5d2eda737845c36e6ac4d006311e92548e3.
Lemma sign_from k x y i s0 : emul E k (e_base SECP256K1) = Some (x, y) -> (k * i) mod n = 1 -> 0 <= i < n ->
  x mod n <> 0 -> (i * (be_val hash0 + x mod n)) mod n = s0 -> s0 <> 0 -> ecdsa_sign SECP256K1 1 (be_val hash0) k = Some (x mod n, s0).
Proof.
  intros EM HI HR NR HS NS. unfold ecdsa_sign. rewrite EM. cbv zeta.
  assert (EZ : zinv n k = i). { rewrite <- (zinv_unique n prime_n k i HI). now apply Z.mod_small. }
  rewrite EZ, Z.mul_1_r, HS. apply Z.eqb_neq in NR. apply Z.eqb_neq in NS. now rewrite NR, NS.
Qed.
Lemma sign_det : ecdsa_sign SECP256K1 1 (be_val hash0) k_det = Some (x_det, s_det).
Proof.
  replace x_det with (x_det mod n) by (vm_compute; reflexivity).
  apply (sign_from k_det x_det y_det i_det s_det (of_chain _ _ _ chain_det_ok)); try (vm_compute; reflexivity); try (vm_compute; discriminate). split; vm_compute; [discriminate|reflexivity].
Qed.
Lemma sign_hed : ecdsa_sign SECP256K1 1 (be_val hash0) k_hed = Some (x_hed, s_hed).
Proof.
  replace x_hed with (x_hed mod n) by (vm_compute; reflexivity).
  apply (sign_from k_hed x_hed y_hed i_hed s_hed (of_chain _ _ _ chain_hed_ok)); try (vm_compute; reflexivity); try (vm_compute; discriminate). split; vm_compute; [discriminate|reflexivity].
Qed.

Lemma kat (cfg : digit_cfg) be (low extra zero : bool) ex rng k x y s0 :
  RFC6979 Sha256 n 1 hash0 ex k -> emul E k (e_base SECP256K1) = Some (x, y) -> ecdsa_sign SECP256K1 1 (be_val hash0) k = Some (x, s0) ->
  (extra = false /\ ex = [] \/ extra = true /\ forall i, rng i = Ret (Ok ex)) -> rng_ok rng ->
  exists D dd fuel sg id, secp256k1 = Ret D /\ from_int 1 = Ret dd /\ code_sk (mkSk dd D) /\
    (forall fuel', (fuel <= fuel')%nat -> exists sg id, sign_with_options be fuel' hash0 (mkSk dd D) (mkSO low true extra zero) rng = Ret (Ok (sg, id)) /\
       signature_of SECP256K1 low 1 (be_val hash0) k (bi_val (sig_r sg)) (bi_val (sig_s sg)) (recid_u8 id)) /\
    sign_with_options be fuel hash0 (mkSk dd D) (mkSO low true extra zero) rng = Ret (Ok (sg, id)).
Proof.
  intros NK EM ES HX HR. destruct (P_EcdsaSecp.secp_sign_ok cfg) as (D & ED & HD & SZ & _).
  destruct (P_BigInt3.from_i128_spec 1) as (dd & E1 & W & V). { change (2 ^ 127) with 170141183460469231731687303715884105728. lia. }
  assert (EO : order D = n) by exact (secp_order D ED). assert (VD : params_val D = SECP256K1) by apply (secp_fields D ED).
  set (sk := mkSk dd D). set (o := mkSO low true extra zero).
  assert (HK : code_sk sk). { split; [exact HD|]. split; [exact W|]. cbn [sk sk_data sk_params]. rewrite V, EO. split; [lia|reflexivity]. }
  assert (HI : hash_int (order D) hash0 = be_val hash0) by (apply (secp_hash D ED); reflexivity).
  assert (Hb := hash0_bytes). assert (Hne : hash0 <> []) by discriminate.
  assert (ST : so_strict o = true -> strict_usable cfg (order (sk_params sk))) by (intros _; left; cbn [sk sk_params]; rewrite (secp_bits D ED); reflexivity).
  assert (EXT : forall i ex', extra_data o rng i ex' -> ex' = ex).
  { intros i ex'. unfold extra_data. cbn [o so_extra]. destruct HX as [[-> ->]|[-> K]]; [auto|]. rewrite K. congruence. }
  assert (AT : forall j, nonce_of_attempt Sha256 (order (sk_params sk)) (bi_val (sk_data sk)) hash0 o rng j k).
  { intros j. exists ex. cbn [sk sk_params sk_data]. rewrite EO, V. split; [|exact NK]. unfold extra_data. cbn [o so_extra]. destruct HX as [[-> ->]|[-> K]]; [reflexivity|apply K]. }
  destruct (sign_terminates be Sha256 sk HK SZ hash0 Hb Hne o rng HR (h_new (hasher_of be Sha256)) (new_obj be Sha256) ST 0%nat) as (F & HF).
  { intros j _. right. exists k. apply AT. }
  { right. exists k. split; [apply AT|]. cbn [sk sk_params sk_data]. rewrite HI, VD, V, ES. discriminate. }
  assert (ALL : forall fuel, (F <= fuel)%nat -> exists sg id, sign_with_options be fuel hash0 sk o rng = Ret (Ok (sg, id)) /\
     signature_of SECP256K1 low 1 (be_val hash0) k (bi_val (sig_r sg)) (bi_val (sig_s sg)) (recid_u8 id)).
  { intros fuel Hf. destruct (HF fuel Hf) as (r & EQ). destruct r as [[sg id]|err].
    - exists sg, id. split; [exact EQ|]. destruct (sign_made_from be Sha256 sk fuel hash0 o rng _ sg id HK SZ Hb HR (new_obj be Sha256) EQ) as (i & k' & (ex' & X & N) & S).
      apply EXT in X. subst ex'. cbn [sk sk_params sk_data] in *. rewrite HI, VD, V in S. rewrite EO, V in N. now rewrite (nonce_unique _ _ _ _ _ _ _ NK N).
    - exfalso. pose proof (sign_spec (sk_params sk) (proj1 HK) be Sha256 SZ sk HK eq_refl hash0 Hb Hne o rng HR fuel _ (new_obj be Sha256) ST) as K. cbv zeta in K.
      rewrite EQ in K. cbn [o so_strict so_zero sk sk_params] in K. rewrite HI, (secp_bits D ED) in K. change (8 * Z.of_nat (length hash0) =? 256) with true in K. cbn [negb andb] in K.
      assert (ZF : negb zero && (be_val hash0 =? 0) = false) by (destruct zero; vm_compute; reflexivity). rewrite ZF in K.
      destruct K as [(r & i & E' & R & _)|(E' & _)]; [|discriminate]. injection E' as <-. destruct R as (R & e0 & R2). cbn [o so_extra] in R. destruct HX as [[-> _]|[-> K]]; [discriminate|].
      rewrite K in *. intuition congruence. }
  destruct (ALL F (le_n _)) as (sg & id & EQ & _). exists D, dd, F, sg, id. split; [exact ED|]. split; [exact E1|]. split; [exact HK|]. split; [exact ALL|exact EQ].
Qed.

Lemma kat_values (low : bool) k x y s0 r s id :
  emul E k (e_base SECP256K1) = Some (x, y) -> ecdsa_sign SECP256K1 1 (be_val hash0) k = Some (x, s0) ->
  signature_of SECP256K1 low 1 (be_val hash0) k r s id ->
  r = x /\ s = (if low && (n / 2 <? s0) then n - s0 else s0) /\ id = 2 * Z.b2z (n <=? x) + Z.b2z (xorb (Z.odd y) (low && (n / 2 <? s0))).
Proof.
  intros EM ES (x' & y' & s' & EM' & ES' & S & I). rewrite EM in EM'. injection EM' as <- <-. rewrite ES in ES'. injection ES' as <- <-. auto.
Qed.
Lemma kat_det : forall (cfg : digit_cfg) be zero rng, rng_ok rng -> exists D dd F, secp256k1 = Ret D /\ from_int 1 = Ret dd /\ code_sk (mkSk dd D) /\
  forall fuel, (F <= fuel)%nat -> exists sg id, sign_with_options be fuel hash0 (mkSk dd D) (mkSO true true false zero) rng = Ret (Ok (sg, id)) /\
    bi_val (sig_r sg) = 0x934b1ea10a4b3c1757e2b0c017d0b6143ce3c9a7e6a4a49860d7a6ab210ee3d8 /\
    bi_val (sig_s sg) = 0x2442ce9d2b916064108014783e923ec36b49743e2ffa1c4496f01a512aafd9e5 /\ recid_u8 id = 1.
Proof.
  intros cfg be zero rng HR. destruct (kat cfg be true false zero [] rng _ _ _ _ nonce_det (of_chain _ _ _ chain_det_ok) sign_det (or_introl (conj eq_refl eq_refl)) HR) as (D & dd & F & _ & _ & E1 & E2 & HK & H & _).
  exists D, dd, F. split; [exact E1|]. split; [exact E2|]. split; [exact HK|]. intros fuel Hf. destruct (H fuel Hf) as (sg & id & EQ & S). exists sg, id. split; [exact EQ|].
  destruct (kat_values _ _ _ _ _ _ _ _ (of_chain _ _ _ chain_det_ok) sign_det S) as (-> & -> & ->). split; [reflexivity|]. split; vm_compute; reflexivity.
Qed.
Lemma entropy0_ok : rng_ok (fun _ => Ret (Ok entropy0)).
Proof. intros i. left. exists entropy0. split; [reflexivity|]. split; [repeat constructor; unfold byte; lia|reflexivity]. Qed.
Lemma kat_default : forall (cfg : digit_cfg) be, exists D dd F, secp256k1 = Ret D /\ from_int 1 = Ret dd /\ code_sk (mkSk dd D) /\
  forall fuel, (F <= fuel)%nat -> exists sg id, sign_default be fuel hash0 (mkSk dd D) (fun _ => Ret (Ok entropy0)) = Ret (Ok (sg, id)) /\
    bi_val (sig_r sg) = 0x75ab07749ee08aaec97b52ac3e73c3b76cf0e5eed03929d64afecf6405799cac /\
    bi_val (sig_s sg) = 0x53f78c086acf03f16dd417f94b453ddbaa9cb47b5afd524e8ad1352e9116c05d /\ recid_u8 id = 0.
Proof.
  intros cfg be. destruct (kat cfg be true true false entropy0 _ _ _ _ _ nonce_hed (of_chain _ _ _ chain_hed_ok) sign_hed (or_intror (conj eq_refl (fun _ => eq_refl))) entropy0_ok) as (D & dd & F & _ & _ & E1 & E2 & HK & H & _).
  exists D, dd, F. split; [exact E1|]. split; [exact E2|]. split; [exact HK|]. intros fuel Hf. destruct (H fuel Hf) as (sg & id & EQ & S). exists sg, id. split; [exact EQ|].
  destruct (kat_values _ _ _ _ _ _ _ _ (of_chain _ _ _ chain_hed_ok) sign_hed S) as (-> & -> & ->). split; [reflexivity|]. split; vm_compute; reflexivity.
Qed.
Lemma kat_wire : forall (cfg : digit_cfg) be, exists D dd pk fuel sg id, secp256k1 = Ret D /\ from_int 1 = Ret dd /\ code_sk (mkSk dd D) /\
  rng_ok (fun _ => Ret (Ok entropy0)) /\ bytes hash0 /\ public_key_of (mkSk dd D) = Ret pk /\ S_Encoding.encodable pk /\
  sign_default be fuel hash0 (mkSk dd D) (fun _ => Ret (Ok entropy0)) = Ret (Ok (sg, id)).
Proof.
  intros cfg be. destruct (kat_default cfg be) as (D & dd & F & ED & E1 & HK & H). destruct (H F (le_n _)) as (sg & id & EQ & _).
  destruct (P_BigInt3.from_i128_spec 1) as (dd' & E1' & W & V). { change (2 ^ 127) with 170141183460469231731687303715884105728. lia. }
  unfold from_int in E1. rewrite E1 in E1'. injection E1' as <-.
  destruct (secp_private_key D ED dd W) as (b & _ & B & K). rewrite V in B. destruct (K ltac:(apply B; split; [lia|vm_compute; discriminate])) as (pk & x & y & EP & PD & CP & EM & X & Y).
  exists D, dd, pk, F, sg, id. split; [exact ED|]. split; [unfold from_int; rewrite E1; reflexivity|]. split; [exact HK|]. split; [exact entropy0_ok|]. split; [exact hash0_bytes|].
  split; [exact EP|]. split; [|exact EQ]. rewrite V, emul_1 in EM. injection EM as <- <-. unfold S_Encoding.encodable. rewrite X, Y, PD, (secp_order D ED). repeat split; reflexivity || (vm_compute; discriminate).
Qed.

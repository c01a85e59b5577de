(** The signature of RFC 6979, A.2.5, with SHA-256 and the message "sample": tests/crypto/ecdsa_p256_signing_verifying.rs:17-47. *)

From Coq Require Import Lia String.
From Verif Require Import Base M_BigInt M_BigText M_Modular M_Curve M_Loop M_Hmac M_Random M_Ecdsa M_Rfc6979 M_P256
  S_BigInt S_Curve S_EcModel S_Hash S_Ecdsa S_Rfc6979 S_Sign S_P256
  P_NumTheory P_Modular P_Curve P_EcModel P_EcEx P_Hash P_Ecdsa1 P_Ecdsa2 P_Rfc6979 P_Sign P_EcdsaProp P_EcdsaProp2 P_P256 P_Cert P_P256Api P_P256KatChain.
From Verif Require Import P_SecpKatHmac.
Open Scope Z_scope.
Local Open Scope list_scope.

Local Notation E := (e_curve P256).
Local Notation n := (e_order P256).
Definition message0 : list Z := [115; 97; 109; 112; 108; 101].
Definition hash0 : list Z := [175; 43; 219; 225; 170; 155; 110; 193; 226; 173; 225; 214; 148; 244; 31; 199; 26; 131; 29; 2; 104; 233; 137; 21; 98; 17; 61; 138; 98; 173; 209; 191].
Definition d0 : Z := 0xc9afa9d845ba75166b5c215767b1d6934e50c3db36e89b127b8a622b120f6721.
Definition seed0 : list Z := [201; 175; 169; 216; 69; 186; 117; 22; 107; 92; 33; 87; 103; 177; 214; 147; 78; 80; 195; 219; 54; 232; 155; 18; 123; 138; 98; 43; 18; 15; 103; 33; 175; 43; 219; 225; 170; 155; 110; 193; 226; 173; 225; 214; 148; 244; 31; 199; 26; 131; 29; 2; 104; 233; 137; 21; 98; 17; 61; 138; 98; 173; 209; 191].
Definition entropy0 : list Z := [0; 1; 2; 3; 4; 5; 6; 7; 8; 9; 10; 11; 12; 13; 14; 15; 16; 17; 18; 19; 20; 21; 22; 23; 24; 25; 26; 27; 28; 29; 30; 31].
Definition K1_det : list Z := [18; 45; 177; 222; 152; 218; 228; 223; 163; 63; 45; 168; 233; 132; 148; 200; 11; 255; 128; 123; 71; 159; 215; 146; 97; 179; 126; 37; 242; 103; 238; 88].
Lemma K1_det_ok : HMAC (HASH Sha256) (block_len Sha256) (repeat 0%Z 32) (repeat 1%Z 32 ++ [0] ++ seed0) = K1_det.
Proof. hm [125; 230; 0; 215; 33; 227; 144; 105; 112; 79; 21; 150; 126; 237; 140; 79; 30; 0; 233; 186; 253; 177; 107; 176; 159; 35; 154; 203; 177; 114; 169; 7]. Qed.
Definition V1_det : list Z := [201; 148; 120; 3; 167; 71; 252; 96; 194; 53; 53; 253; 204; 19; 181; 202; 86; 107; 72; 34; 28; 166; 125; 73; 100; 210; 45; 170; 72; 39; 88; 68].
Lemma V1_det_ok : HMAC (HASH Sha256) (block_len Sha256) K1_det (repeat 1%Z 32) = V1_det.
Proof. hm [88; 16; 220; 226; 184; 65; 116; 76; 208; 1; 60; 178; 211; 216; 27; 220; 151; 159; 225; 50; 22; 231; 99; 163; 96; 8; 16; 198; 57; 219; 248; 69]. Qed.
Definition K2_det : list Z := [182; 212; 249; 142; 186; 231; 10; 161; 90; 34; 56; 173; 228; 226; 10; 179; 35; 252; 30; 119; 125; 34; 240; 197; 130; 216; 239; 46; 107; 167; 53; 105].
Lemma K2_det_ok : HMAC (HASH Sha256) (block_len Sha256) K1_det (V1_det ++ [1] ++ seed0) = K2_det.
Proof. hm [43; 67; 202; 155; 90; 142; 168; 8; 18; 251; 105; 237; 111; 46; 85; 127; 104; 211; 127; 224; 43; 64; 199; 25; 19; 107; 218; 227; 92; 85; 110; 155]. Qed.
Definition V2_det : list Z := [186; 229; 127; 226; 86; 222; 45; 232; 6; 177; 6; 53; 73; 114; 55; 231; 186; 233; 103; 84; 88; 37; 102; 56; 76; 71; 198; 195; 65; 100; 148; 209].
Lemma V2_det_ok : HMAC (HASH Sha256) (block_len Sha256) K2_det (V1_det) = V2_det.
Proof. hm [184; 206; 113; 35; 205; 184; 19; 154; 104; 15; 34; 43; 43; 131; 243; 74; 55; 231; 233; 175; 227; 20; 244; 122; 220; 1; 223; 228; 146; 77; 213; 5]. Qed.
Definition T_det : list Z := [166; 227; 197; 125; 208; 26; 190; 144; 8; 101; 56; 57; 131; 85; 221; 76; 59; 23; 170; 135; 51; 130; 176; 242; 77; 97; 41; 73; 61; 138; 173; 96].
Lemma T_det_ok : HMAC (HASH Sha256) (block_len Sha256) K2_det (V2_det) = T_det.
Proof. hm [220; 7; 25; 109; 50; 98; 156; 228; 4; 109; 141; 115; 212; 90; 239; 255; 19; 109; 209; 10; 88; 242; 183; 100; 111; 68; 181; 82; 25; 151; 55; 12]. Qed.
Definition K1_hed : list Z := [101; 247; 189; 75; 246; 253; 15; 209; 198; 82; 30; 185; 111; 81; 132; 94; 190; 1; 35; 218; 104; 21; 142; 141; 255; 20; 219; 77; 98; 239; 108; 122].
Lemma K1_hed_ok : HMAC (HASH Sha256) (block_len Sha256) (repeat 0%Z 32) (repeat 1%Z 32 ++ [0] ++ seed0 ++ entropy0) = K1_hed.
Proof. hm [29; 1; 166; 211; 76; 47; 115; 35; 26; 142; 180; 215; 243; 61; 194; 59; 173; 67; 35; 102; 151; 225; 32; 37; 20; 49; 137; 8; 149; 14; 224; 181]. Qed.
Definition V1_hed : list Z := [146; 132; 79; 148; 182; 13; 45; 41; 124; 187; 188; 156; 7; 135; 112; 244; 2; 140; 12; 153; 153; 47; 47; 13; 163; 106; 221; 123; 96; 154; 110; 60].
Lemma V1_hed_ok : HMAC (HASH Sha256) (block_len Sha256) K1_hed (repeat 1%Z 32) = V1_hed.
Proof. hm [146; 196; 42; 248; 0; 61; 247; 142; 147; 86; 6; 45; 160; 192; 231; 170; 246; 95; 101; 133; 6; 128; 40; 184; 166; 115; 86; 102; 164; 125; 165; 20]. Qed.
Definition K2_hed : list Z := [228; 255; 106; 236; 92; 99; 80; 153; 102; 145; 103; 219; 229; 114; 72; 209; 188; 185; 209; 19; 115; 195; 133; 243; 186; 9; 118; 158; 85; 102; 205; 12].
Lemma K2_hed_ok : HMAC (HASH Sha256) (block_len Sha256) K1_hed (V1_hed ++ [1] ++ seed0 ++ entropy0) = K2_hed.
Proof. hm [59; 251; 196; 91; 43; 243; 38; 10; 98; 253; 175; 166; 2; 31; 216; 113; 252; 147; 204; 105; 129; 207; 227; 90; 199; 68; 212; 100; 51; 33; 143; 11]. Qed.
Definition V2_hed : list Z := [114; 50; 74; 182; 251; 181; 100; 18; 251; 48; 178; 53; 170; 198; 228; 39; 80; 190; 115; 130; 197; 73; 9; 163; 74; 179; 186; 146; 192; 98; 252; 205].
Lemma V2_hed_ok : HMAC (HASH Sha256) (block_len Sha256) K2_hed (V1_hed) = V2_hed.
Proof. hm [40; 18; 214; 23; 149; 125; 32; 78; 103; 104; 60; 57; 53; 234; 140; 53; 65; 136; 44; 167; 245; 120; 155; 219; 129; 20; 146; 197; 74; 84; 36; 160]. Qed.
Definition T_hed : list Z := [231; 235; 81; 159; 223; 223; 35; 115; 41; 154; 193; 50; 44; 255; 123; 38; 231; 141; 80; 65; 226; 71; 64; 178; 226; 236; 209; 141; 1; 181; 110; 191].
Lemma T_hed_ok : HMAC (HASH Sha256) (block_len Sha256) K2_hed (V2_hed) = T_hed.
Proof. hm [238; 145; 28; 87; 129; 21; 65; 105; 120; 167; 114; 170; 131; 116; 111; 15; 20; 169; 225; 39; 54; 252; 55; 47; 251; 121; 250; 131; 112; 149; 217; 38]. Qed.

Definition k_det : Z := 0xa6e3c57dd01abe90086538398355dd4c3b17aa873382b0f24d6129493d8aad60.
Definition x_det : Z := 0xefd48b2aacb6a8fd1140dd9cd45e81d69d2c877b56aaf991c34d0ea84eaf3716.
Definition y_det : Z := 0x34a7e72c423213443152c82df94fe0f6851bf894fd91c64b19555346093ff492.
Definition i_det : Z := 0xaaf7a4c4d10293a89370e2cc3e88ca623e38b5814d37eb5e96ffdea769cfe547.
Definition s_det : Z := 0xf7cb1c942d657c41d436c7a1b6e29f65f3e900dbb9aff4064dc4ab2f843acda8.
Definition k_hed : Z := 0xe7eb519fdfdf2373299ac1322cff7b26e78d5041e24740b2e2ecd18d01b56ebf.
Definition x_hed : Z := 0x25404cfdb1228f680881e195dae0665f43f988c40cbc4e23927810d7c4635d74.
Definition y_hed : Z := 0x8d0c5f20b779339d647a3943caeae3807052abe2a570c14b19f926397a118148.
Definition i_hed : Z := 0xffa70182a54f3c12693b15a8924b80584adf916f28c9ec0a558d56bcd518f04e.
Definition s_hed : Z := 0x8f076e7b9ea4bde92fb16b5cf25d0d3656db01a6e19c885b53cb8754f1b819c3.
Definition ux : Z := 0x60fed4ba255a9d31c961eb74c6356d68c049b8923b61fa6ce669622e60f29fb6.
Definition uy : Z := 0x7903fe1008b8bc99a41ae9e95628bc64f2f1b20c2d7e9f5177a3c294d4462299.

(** The points. *)
Lemma chain_det_ok : chainh redp E (GX, GY) (GX, GY) 1 chain_det = Some ((x_det, y_det), k_det).
Proof. vm_cast_no_check (eq_refl (Some ((x_det, y_det), k_det))). Qed.
Lemma chain_hed_ok : chainh redp E (GX, GY) (GX, GY) 1 chain_hed = Some ((x_hed, y_hed), k_hed).
Proof. vm_cast_no_check (eq_refl (Some ((x_hed, y_hed), k_hed))). Qed.
Lemma chain_pk_ok : chainh redp E (GX, GY) (GX, GY) 1 chain_pk = Some ((ux, uy), d0).
Proof. vm_cast_no_check (eq_refl (Some ((ux, uy), d0))). Qed.
Lemma of_chain l Q k : chainh redp E (GX, GY) (GX, GY) 1 l = Some (Q, k) -> emul E k (e_base P256) = Some Q.
Proof.
  intros H. symmetry. change (e_base P256) with (Some (GX, GY)).
  refine (chainh_ok redp E (GX, GY) l redp_ok p256_curve_ok p256_base _ (GX, GY) 1 Q k _ _ H); [reflexivity|lia|symmetry; apply emul_1].
Qed.

(** The hash and the nonce. *)
Lemma hash0_bytes : bytes hash0. Proof. apply bytesb_ok. reflexivity. Qed.
Lemma hash0_ok : HASH Sha256 message0 = hash0.
Proof. apply dig_ok; [reflexivity|vm_compute; lia| |discriminate]. vm_cast_no_check (eq_refl hash0). Qed.
Lemma nonce_abs hm ex K1 V1 K2 V2 T k : hm (repeat 0 32) (repeat 1 32 ++ [0] ++ seed0 ++ ex) = K1 -> hm K1 (repeat 1 32) = V1 ->
  hm K1 (V1 ++ [1] ++ seed0 ++ ex) = K2 -> hm K2 V1 = V2 -> hm K2 V2 = T -> length T = 32%nat -> be_val T = k -> 1 <= k <= n - 1 ->
  IS_NONCE hm 32 n d0 hash0 ex k.
Proof.
  intros E1 E2 E3 E4 E5 L E6 H. exists 0%nat. split; [|split; [exact H|intros j Hj; lia]].
  unfold NONCE, STATE. cbn [Nat.iter]. unfold SETUP.
  assert (SD : INT2OCTETS n d0 ++ BITS2OCTETS n hash0 ++ ex = seed0 ++ ex) by (rewrite app_assoc; f_equal; vm_compute; reflexivity).
  rewrite SD, E1, E2, E3, E4. unfold CANDIDATE. cbn [fst snd]. assert (NB : nblocks 32 n = 1%nat) by (vm_compute; reflexivity). rewrite NB. cbn [BLOCKS fst]. cbv zeta. cbn [fst].
  change (Nat.iter 0 (REJECT hm 32 n) (K2, V2)) with (K2, V2). cbn [fst snd]. rewrite E5, app_nil_r. unfold BITS2INT. rewrite L, E6. assert (Q : qlen n = 256) by (vm_compute; reflexivity). rewrite Q.
  change (2 ^ Z.max 0 (8 * Z.of_nat 32 - 256)) with 1. apply Z.div_1_r.
Qed.
Lemma nonce_det : RFC6979 Sha256 n d0 hash0 [] k_det.
Proof.
  unfold RFC6979. change (out_len Sha256) with 32%nat. generalize K1_det_ok V1_det_ok K2_det_ok V2_det_ok T_det_ok. generalize (HMAC (HASH Sha256) (block_len Sha256)). intros hm E1 E2 E3 E4 E5.
  rewrite <- (app_nil_r seed0) in E1, E3.
  apply (nonce_abs hm [] _ _ _ _ _ k_det E1 E2 E3 E4 E5); [reflexivity|vm_compute; reflexivity|split; vm_compute; discriminate].
Qed.
Lemma nonce_hed : RFC6979 Sha256 n d0 hash0 entropy0 k_hed.
Proof.
  unfold RFC6979. change (out_len Sha256) with 32%nat. generalize K1_hed_ok V1_hed_ok K2_hed_ok V2_hed_ok T_hed_ok. generalize (HMAC (HASH Sha256) (block_len Sha256)). intros hm E1 E2 E3 E4 E5.
  apply (nonce_abs hm entropy0 _ _ _ _ _ k_hed E1 E2 E3 E4 E5); [reflexivity|vm_compute; reflexivity|split; vm_compute; discriminate].
Qed.
Lemma sign_det : ecdsa_sign P256 d0 (be_val hash0) k_det = Some (x_det, s_det).
Proof.
  unfold ecdsa_sign. rewrite (of_chain _ _ _ chain_det_ok). cbv zeta.
  assert (EZ : zinv n k_det = i_det). { rewrite <- (zinv_unique n prime_n k_det i_det) by (vm_compute; reflexivity). vm_compute. reflexivity. }
  rewrite EZ. vm_compute. reflexivity.
Qed.
Lemma sign_hed : ecdsa_sign P256 d0 (be_val hash0) k_hed = Some (x_hed, s_hed).
Proof.
  unfold ecdsa_sign. rewrite (of_chain _ _ _ chain_hed_ok). cbv zeta.
  assert (EZ : zinv n k_hed = i_hed). { rewrite <- (zinv_unique n prime_n k_hed i_hed) by (vm_compute; reflexivity). vm_compute. reflexivity. }
  rewrite EZ. vm_compute. reflexivity.
Qed.

Definition key_hex : string := "C9AFA9D845BA75166B5C215767B1D6934E50C3DB36E89B127B8A622B120F6721".
Lemma key_ok : forall cfg : digit_cfg, exists dd, hex_lit key_hex = Ret dd /\ wf dd /\ bi_val dd = d0.
Proof.
  intros cfg. assert (H : exists dd, hex_lit key_hex = Ret dd) by (destruct cfg; eexists; vm_compute; reflexivity).
  destruct H as (dd & H). exists dd. split; [exact H|]. unfold hex_lit in H.
  set (t := ascii_codes _) in H. assert (B : bytes t) by (apply bytesb_ok; reflexivity). destruct (bi_from_hex t) as [[r|]| |] eqn:EQ; cbn [obind unwrap_res] in H; try discriminate. injection H as <-.
  destruct (proj1 (P_BigApi.from_hex_full t B) d0) as (r' & E' & W & V).
  - replace d0 with (S_Codec.positional 16 (map (fun c => match S_Codec.alnum_value c with Some v => v | None => 0 end) t)) by (vm_compute; reflexivity).
    apply S_Codec.Den_plain; [discriminate|]. unfold t. vm_compute ascii_codes. repeat (constructor; [vm_compute; repeat split; reflexivity || discriminate|]). constructor.
  - reflexivity.
  - rewrite EQ in E'. injection E' as <-. auto.
Qed.

Lemma kat (cfg : digit_cfg) be (low extra zero : bool) ex rng k x y s0 :
  RFC6979 Sha256 n d0 hash0 ex k -> emul E k (e_base P256) = Some (x, y) -> ecdsa_sign P256 d0 (be_val hash0) k = Some (x, s0) ->
  (extra = false /\ ex = [] \/ extra = true /\ forall i, rng i = Ret (Ok ex)) -> rng_ok rng ->
  exists D dd fuel sg id, nist_p256 = Ret D /\ hex_lit key_hex = Ret dd /\ code_sk (mkSk dd D) /\
    (forall fuel', (fuel <= fuel')%nat -> exists sg id, sign_with_options be fuel' hash0 (mkSk dd D) (mkSO low true extra zero) rng = Ret (Ok (sg, id)) /\
       signature_of P256 low d0 (be_val hash0) k (bi_val (sig_r sg)) (bi_val (sig_s sg)) (recid_u8 id)) /\
    sign_with_options be fuel hash0 (mkSk dd D) (mkSO low true extra zero) rng = Ret (Ok (sg, id)).
Proof.
  intros NK EM ES HX HR. destruct (p256_code cfg) as (D & ED & HD & VD & _). destruct (p256_fields cfg D ED) as (_ & _ & SZ & _).
  destruct (key_ok cfg) as (dd & E1 & W & V).
  assert (EO : order D = n) by exact (p256_order D ED).
  set (sk := mkSk dd D). set (o := mkSO low true extra zero).
  assert (HK : code_sk sk). { split; [exact HD|]. split; [exact W|]. cbn [sk sk_data sk_params]. rewrite V, EO. split; [discriminate|reflexivity]. }
  assert (HI : hash_int (order D) hash0 = be_val hash0) by (apply (p256_hash D ED); reflexivity).
  assert (Hb := hash0_bytes). assert (Hne : hash0 <> []) by discriminate.
  assert (ST : so_strict o = true -> strict_usable cfg (order (sk_params sk))) by (intros _; left; cbn [sk sk_params]; rewrite (p256_bits D ED); reflexivity).
  assert (EXT : forall i ex', extra_data o rng i ex' -> ex' = ex).
  { intros i ex'. unfold extra_data. cbn [o so_extra]. destruct HX as [[-> ->]|[-> K]]; [auto|]. rewrite K. congruence. }
  assert (AT : forall j, nonce_of_attempt Sha256 (order (sk_params sk)) (bi_val (sk_data sk)) hash0 o rng j k).
  { intros j. exists ex. cbn [sk sk_params sk_data]. rewrite EO, V. split; [|exact NK]. unfold extra_data. cbn [o so_extra]. destruct HX as [[-> ->]|[-> K]]; [reflexivity|apply K]. }
  destruct (sign_terminates be Sha256 sk HK SZ hash0 Hb Hne o rng HR (h_new (hasher_of be Sha256)) (new_obj be Sha256) ST 0%nat) as (F & HF).
  { intros j _. right. exists k. apply AT. }
  { right. exists k. split; [apply AT|]. cbn [sk sk_params sk_data]. rewrite HI, VD, V, ES. discriminate. }
  assert (ALL : forall fuel, (F <= fuel)%nat -> exists sg id, sign_with_options be fuel hash0 sk o rng = Ret (Ok (sg, id)) /\
     signature_of P256 low d0 (be_val hash0) k (bi_val (sig_r sg)) (bi_val (sig_s sg)) (recid_u8 id)).
  { intros fuel Hf. destruct (HF fuel Hf) as (r & EQ). destruct r as [[sg id]|err].
    - exists sg, id. split; [exact EQ|]. destruct (sign_made_from be Sha256 sk fuel hash0 o rng _ sg id HK SZ Hb HR (new_obj be Sha256) EQ) as (i & k' & (ex' & X & N) & S).
      apply EXT in X. subst ex'. cbn [sk sk_params sk_data] in *. rewrite HI, VD, V in S. rewrite EO, V in N. now rewrite (nonce_unique _ _ _ _ _ _ _ NK N).
    - exfalso. pose proof (sign_spec (sk_params sk) (proj1 HK) be Sha256 SZ sk HK eq_refl hash0 Hb Hne o rng HR fuel _ (new_obj be Sha256) ST) as K. cbv zeta in K.
      rewrite EQ in K. cbn [o so_strict so_zero sk sk_params] in K. rewrite HI, (p256_bits D ED) in K. change (8 * Z.of_nat (length hash0) =? 256) with true in K. cbn [negb andb] in K.
      assert (ZF : negb zero && (be_val hash0 =? 0) = false) by (destruct zero; vm_compute; reflexivity). rewrite ZF in K.
      destruct K as [(r & i & E' & R & _)|(E' & _)]; [|discriminate]. injection E' as <-. destruct R as (R & e0 & R2). cbn [o so_extra] in R. destruct HX as [[-> _]|[-> K]]; [discriminate|].
      rewrite K in *. intuition congruence. }
  destruct (ALL F (le_n _)) as (sg & id & EQ & _). exists D, dd, F, sg, id. split; [exact ED|]. split; [exact E1|]. split; [exact HK|]. split; [exact ALL|exact EQ].
Qed.

Lemma kat_values (low : bool) k x y s0 r s id :
  emul E k (e_base P256) = Some (x, y) -> ecdsa_sign P256 d0 (be_val hash0) k = Some (x, s0) ->
  signature_of P256 low d0 (be_val hash0) k r s id ->
  r = x /\ s = (if low && (n / 2 <? s0) then n - s0 else s0) /\ id = 2 * Z.b2z (n <=? x) + Z.b2z (xorb (Z.odd y) (low && (n / 2 <? s0))).
Proof.
  intros EM ES (x' & y' & s' & EM' & ES' & S & I). rewrite EM in EM'. injection EM' as <- <-. rewrite ES in ES'. injection ES' as <- <-. auto.
Qed.
Lemma kat_det : forall (cfg : digit_cfg) be zero rng, rng_ok rng -> exists D dd F, nist_p256 = Ret D /\ hex_lit key_hex = Ret dd /\ code_sk (mkSk dd D) /\
  forall fuel, (F <= fuel)%nat -> exists sg id, sign_with_options be fuel hash0 (mkSk dd D) (mkSO false true false zero) rng = Ret (Ok (sg, id)) /\
    bi_val (sig_r sg) = 0xefd48b2aacb6a8fd1140dd9cd45e81d69d2c877b56aaf991c34d0ea84eaf3716 /\
    bi_val (sig_s sg) = 0xf7cb1c942d657c41d436c7a1b6e29f65f3e900dbb9aff4064dc4ab2f843acda8.
Proof.
  intros cfg be zero rng HR. destruct (kat cfg be false false zero [] rng _ _ _ _ nonce_det (of_chain _ _ _ chain_det_ok) sign_det (or_introl (conj eq_refl eq_refl)) HR) as (D & dd & F & _ & _ & E1 & E2 & HK & H & _).
  exists D, dd, F. split; [exact E1|]. split; [exact E2|]. split; [exact HK|]. intros fuel Hf. destruct (H fuel Hf) as (sg & id & EQ & S). exists sg, id. split; [exact EQ|].
  destruct (kat_values _ _ _ _ _ _ _ _ (of_chain _ _ _ chain_det_ok) sign_det S) as (-> & -> & _). split; [reflexivity|]. vm_compute. reflexivity.
Qed.
Lemma entropy0_ok : rng_ok (fun _ => Ret (Ok entropy0)).
Proof. intros i. left. exists entropy0. split; [reflexivity|]. split; [repeat constructor; unfold byte; lia|reflexivity]. Qed.
Lemma kat_default : forall (cfg : digit_cfg) be, exists D dd F, nist_p256 = Ret D /\ hex_lit key_hex = Ret dd /\ code_sk (mkSk dd D) /\
  forall fuel, (F <= fuel)%nat -> exists sg id, sign_default be fuel hash0 (mkSk dd D) (fun _ => Ret (Ok entropy0)) = Ret (Ok (sg, id)) /\
    bi_val (sig_r sg) = 0x25404cfdb1228f680881e195dae0665f43f988c40cbc4e23927810d7c4635d74 /\
    bi_val (sig_s sg) = 0x70f89183615b4217d04e94a30da2f2c9660bf906c57b16299fee436e0aab0b8e /\ recid_u8 id = 1.
Proof.
  intros cfg be. destruct (kat cfg be true true false entropy0 _ _ _ _ _ nonce_hed (of_chain _ _ _ chain_hed_ok) sign_hed (or_intror (conj eq_refl (fun _ => eq_refl))) entropy0_ok) as (D & dd & F & _ & _ & E1 & E2 & HK & H & _).
  exists D, dd, F. split; [exact E1|]. split; [exact E2|]. split; [exact HK|]. intros fuel Hf. destruct (H fuel Hf) as (sg & id & EQ & S). exists sg, id. split; [exact EQ|].
  destruct (kat_values _ _ _ _ _ _ _ _ (of_chain _ _ _ chain_hed_ok) sign_hed S) as (-> & -> & ->). split; [reflexivity|]. split; vm_compute; reflexivity.
Qed.
Lemma hash0_code : forall be, exists st, h_digest (hasher_of be Sha256) (h_new (hasher_of be Sha256)) message0 = Ret (hash0, st).
Proof.
  intros be. destruct (full Sha256 be (h_new (hasher_of be Sha256)) message0 (new_obj be Sha256) ltac:(apply bytesb_ok; reflexivity)) as (st & FF); [vm_compute; reflexivity|].
  exists st. rewrite hash0_ok in FF. exact FF.
Qed.
Lemma kat_wire : forall (cfg : digit_cfg) be, exists D dd pk fuel sg id, nist_p256 = Ret D /\ hex_lit key_hex = Ret dd /\ code_sk (mkSk dd D) /\
  rng_ok (fun _ => Ret (Ok entropy0)) /\ bytes hash0 /\ public_key_of (mkSk dd D) = Ret pk /\ S_Encoding.encodable pk /\
  bi_val (px (pk_data pk)) = 0x60fed4ba255a9d31c961eb74c6356d68c049b8923b61fa6ce669622e60f29fb6 /\
  bi_val (py (pk_data pk)) = 0x7903fe1008b8bc99a41ae9e95628bc64f2f1b20c2d7e9f5177a3c294d4462299 /\
  sign_default be fuel hash0 (mkSk dd D) (fun _ => Ret (Ok entropy0)) = Ret (Ok (sg, id)).
Proof.
  intros cfg be. destruct (kat_default cfg be) as (D & dd & F & ED & E1 & HK & H). destruct (H F (le_n _)) as (sg & id & EQ & _).
  destruct (key_ok cfg) as (dd' & E1' & W & V). rewrite E1 in E1'. injection E1' as <-.
  destruct (p256_private_key D ED dd W) as (b & _ & B & K). rewrite V in B. destruct (K ltac:(apply B; split; vm_compute; discriminate)) as (pk & x & y & EP & PD & CP & EM & X & Y).
  exists D, dd, pk, F, sg, id. split; [exact ED|]. split; [exact E1|]. split; [exact HK|]. split; [exact entropy0_ok|]. split; [exact hash0_bytes|].
  split; [exact EP|]. rewrite V, (of_chain _ _ _ chain_pk_ok) in EM. injection EM as <- <-. split; [|split; [exact X|split; [exact Y|exact EQ]]].
  unfold S_Encoding.encodable. rewrite X, Y, PD, (p256_order D ED). repeat split; reflexivity || (vm_compute; discriminate).
Qed.

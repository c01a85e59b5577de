(** The HMAC values of the two nonces of P_SecpKat.v, each one checked. *)

From Verif Require Import Base M_Sha2 M_Hmac S_Hash S_Sha2 P_Hash P_Bits P_EcdsaProp2 P_Rfc6979 P_Sha2Fast.
Open Scope Z_scope.

Definition dig (m : list Z) : list Z := match fsha256_digest m sha256_new with Ret (d, _) => d | _ => [] end.
Definition bytesb (m : list Z) : bool := forallb (fun b => (0 <=? b) && (b <? 256))%bool m.
Lemma bytesb_ok m : bytesb m = true -> bytes m.
Proof. intros H. apply Forall_forall. intros b Hb. unfold bytesb in H. rewrite forallb_forall in H. specialize (H b Hb). apply andb_true_iff in H. unfold byte. lia. Qed.
Lemma dig_ok m d : bytesb m = true -> (length m <= 1000)%nat -> dig m = d -> d <> [] -> HASH Sha256 m = d.
Proof.
  intros B L E N. apply bytesb_ok in B. destruct (full Sha256 false (h_new (hasher_of false Sha256)) m (new_obj false Sha256) B) as (st & F).
  { cbv [fits]. lia. }
  revert F. change (h_digest (hasher_of false Sha256) (h_new (hasher_of false Sha256)) m) with (sha256 sha256_new m). unfold sha256. unfold dig in E. rewrite fsha256_ok in E.
  generalize (HASH Sha256 m). intros x F. destruct (sha256_digest m sha256_new) as [[r w]| |]; cbn [obind] in F; try discriminate.
  destruct (Nat.eqb (length r) 32); cbn [oassert] in F; [|discriminate]. congruence.
Qed.
Lemma hm_ok K t a d : length K = 32%nat -> bytesb (xor_pad (K ++ repeat 0%Z 32) 0x36 ++ t) = true -> bytesb (xor_pad (K ++ repeat 0%Z 32) 0x5c ++ a) = true ->
  (length (xor_pad (K ++ repeat 0%Z 32) 0x36 ++ t) <= 1000)%nat -> (length (xor_pad (K ++ repeat 0%Z 32) 0x5c ++ a) <= 1000)%nat ->
  dig (xor_pad (K ++ repeat 0%Z 32) 0x36 ++ t) = a -> dig (xor_pad (K ++ repeat 0%Z 32) 0x5c ++ a) = d -> a <> [] -> d <> [] ->
  HMAC (HASH Sha256) (block_len Sha256) K t = d.
Proof.
  intros LK B1 B2 L1 L2 E1 E2 N1 N2. unfold HMAC. assert (KB : key_block (HASH Sha256) (block_len Sha256) K = K ++ repeat 0%Z 32).
  { unfold key_block. change (block_len Sha256) with 64%nat. rewrite LK. change (Nat.ltb 64 32) with false. cbv iota. now rewrite LK. }
  rewrite KB. rewrite (dig_ok _ a B1 L1 E1 N1). exact (dig_ok _ d B2 L2 E2 N2).
Qed.
Ltac hm a := apply (hm_ok _ _ a); [reflexivity|vm_compute; reflexivity|vm_compute; reflexivity|vm_compute; lia|vm_compute; lia|vm_cast_no_check (eq_refl a)| |discriminate|discriminate];
  match goal with |- _ = ?d => vm_cast_no_check (eq_refl d) end.

Definition seed0 : list Z := [0; 0; 0; 0; 0; 0; 0; 0; 0; 0; 0; 0; 0; 0; 0; 0; 0; 0; 0; 0; 0; 0; 0; 0; 0; 0; 0; 0; 0; 0; 0; 1; 160; 220; 101; 255; 202; 121; 152; 115; 203; 234; 10; 194; 116; 1; 91; 149; 38; 80; 93; 170; 174; 211; 133; 21; 84; 37; 247; 51; 119; 4; 136; 62].
Definition rand0 : list Z := [0; 1; 2; 3; 4; 5; 6; 7; 8; 9; 10; 11; 12; 13; 14; 15; 16; 17; 18; 19; 20; 21; 22; 23; 24; 25; 26; 27; 28; 29; 30; 31].
Definition K1_det : list Z := [11; 102; 48; 6; 227; 105; 214; 133; 22; 104; 181; 151; 96; 192; 207; 186; 165; 208; 158; 35; 230; 249; 22; 68; 59; 61; 228; 213; 88; 191; 145; 183].
Lemma K1_det_ok : HMAC (HASH Sha256) (block_len Sha256) (repeat 0%Z 32) (repeat 1%Z 32 ++ [0] ++ seed0) = K1_det.
Proof. hm [84; 228; 204; 106; 89; 78; 184; 108; 113; 109; 93; 95; 78; 159; 106; 87; 168; 106; 33; 78; 10; 55; 32; 120; 200; 138; 203; 107; 7; 26; 115; 99]. Qed.
Definition V1_det : list Z := [97; 108; 173; 16; 81; 174; 190; 8; 25; 125; 0; 45; 189; 185; 11; 220; 43; 182; 182; 91; 61; 118; 140; 81; 136; 99; 5; 106; 132; 12; 3; 240].
Lemma V1_det_ok : HMAC (HASH Sha256) (block_len Sha256) K1_det (repeat 1%Z 32) = V1_det.
Proof. hm [248; 147; 122; 20; 130; 195; 75; 253; 229; 134; 62; 34; 126; 77; 156; 6; 131; 48; 43; 117; 72; 186; 74; 180; 21; 183; 59; 136; 250; 227; 52; 163]. Qed.
Definition K2_det : list Z := [244; 87; 192; 22; 136; 2; 110; 224; 185; 35; 110; 92; 127; 241; 71; 128; 7; 173; 11; 105; 120; 85; 245; 146; 239; 169; 70; 142; 207; 12; 31; 134].
Lemma K2_det_ok : HMAC (HASH Sha256) (block_len Sha256) K1_det (V1_det ++ [1] ++ seed0) = K2_det.
Proof. hm [181; 127; 98; 243; 231; 237; 10; 52; 206; 110; 71; 24; 137; 59; 97; 212; 8; 82; 136; 156; 183; 248; 113; 85; 104; 153; 108; 10; 113; 139; 190; 170]. Qed.
Definition V2_det : list Z := [161; 150; 67; 122; 143; 38; 251; 201; 229; 25; 228; 253; 75; 93; 16; 214; 46; 106; 83; 6; 201; 140; 164; 49; 185; 97; 49; 244; 3; 191; 244; 174].
Lemma V2_det_ok : HMAC (HASH Sha256) (block_len Sha256) K2_det V1_det = V2_det.
Proof. hm [18; 83; 141; 57; 186; 124; 225; 162; 117; 59; 56; 64; 97; 127; 233; 34; 227; 67; 167; 199; 131; 145; 157; 201; 1; 227; 58; 13; 31; 239; 108; 215]. Qed.
Definition T_det : list Z := [143; 138; 39; 108; 25; 244; 20; 150; 86; 178; 128; 98; 30; 53; 140; 206; 36; 245; 245; 37; 66; 119; 38; 145; 238; 105; 6; 59; 116; 241; 93; 21].
Lemma T_det_ok : HMAC (HASH Sha256) (block_len Sha256) K2_det V2_det = T_det.
Proof. hm [234; 47; 250; 194; 240; 243; 12; 159; 120; 93; 157; 152; 253; 63; 175; 5; 1; 65; 95; 33; 144; 185; 136; 73; 67; 228; 193; 191; 120; 90; 50; 125]. Qed.
Definition K1_hed : list Z := [197; 197; 74; 255; 120; 151; 12; 61; 133; 228; 33; 206; 217; 31; 88; 158; 126; 209; 7; 101; 122; 104; 148; 210; 86; 239; 169; 161; 98; 252; 184; 186].
Lemma K1_hed_ok : HMAC (HASH Sha256) (block_len Sha256) (repeat 0%Z 32) (repeat 1%Z 32 ++ [0] ++ seed0 ++ rand0) = K1_hed.
Proof. hm [62; 150; 77; 7; 184; 72; 198; 211; 71; 254; 4; 110; 164; 125; 42; 108; 60; 3; 192; 243; 24; 220; 126; 29; 244; 151; 33; 160; 13; 68; 172; 64]. Qed.
Definition V1_hed : list Z := [57; 147; 197; 68; 32; 78; 214; 158; 192; 20; 40; 187; 88; 28; 223; 212; 188; 136; 59; 202; 129; 220; 193; 43; 246; 13; 133; 149; 48; 75; 227; 151].
Lemma V1_hed_ok : HMAC (HASH Sha256) (block_len Sha256) K1_hed (repeat 1%Z 32) = V1_hed.
Proof. hm [108; 101; 122; 66; 75; 92; 104; 31; 115; 52; 38; 230; 217; 204; 224; 66; 69; 213; 122; 231; 99; 113; 204; 140; 141; 224; 21; 77; 28; 120; 134; 134]. Qed.
Definition K2_hed : list Z := [243; 246; 196; 128; 23; 231; 48; 232; 90; 219; 172; 20; 67; 41; 96; 103; 182; 146; 73; 169; 157; 19; 207; 30; 79; 220; 179; 201; 151; 223; 144; 129].
Lemma K2_hed_ok : HMAC (HASH Sha256) (block_len Sha256) K1_hed (V1_hed ++ [1] ++ seed0 ++ rand0) = K2_hed.
Proof. hm [215; 109; 108; 97; 206; 149; 129; 87; 228; 248; 39; 106; 220; 109; 221; 171; 85; 169; 170; 205; 61; 122; 30; 89; 110; 95; 214; 136; 233; 152; 35; 62]. Qed.
Definition V2_hed : list Z := [100; 32; 52; 90; 51; 250; 35; 112; 235; 56; 128; 11; 236; 140; 67; 189; 40; 188; 87; 114; 63; 100; 139; 236; 195; 109; 136; 104; 92; 216; 84; 138].
Lemma V2_hed_ok : HMAC (HASH Sha256) (block_len Sha256) K2_hed V1_hed = V2_hed.
Proof. hm [69; 117; 143; 197; 235; 36; 141; 188; 193; 9; 15; 139; 126; 0; 97; 33; 194; 186; 252; 135; 232; 166; 144; 123; 40; 220; 107; 215; 162; 196; 107; 117]. Qed.
Definition T_hed : list Z := [50; 98; 186; 95; 234; 247; 201; 89; 215; 153; 244; 203; 132; 189; 133; 147; 93; 233; 123; 49; 215; 115; 9; 100; 122; 66; 50; 224; 126; 43; 236; 219].
Lemma T_hed_ok : HMAC (HASH Sha256) (block_len Sha256) K2_hed V2_hed = T_hed.
Proof. hm [26; 34; 226; 138; 166; 112; 43; 133; 243; 172; 172; 82; 46; 89; 90; 73; 161; 103; 202; 58; 243; 200; 34; 58; 176; 131; 69; 233; 24; 155; 74; 188]. Qed.

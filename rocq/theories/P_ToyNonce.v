(** Nonces of RFC 6979 with SHA-256 for two keys on a small curve, each HMAC checked. *)

From Coq Require Import Lia.
From Verif Require Import Base M_Hmac S_Hash S_Ecdsa S_Rfc6979 S_Sign P_Hash P_Rfc6979 P_SecpKatHmac.
Open Scope Z_scope.

(** The first candidate, of one block, is in range. *)
Lemma first_candidate hm n d hash seed K1 V1 K2 V2 T k :
  INT2OCTETS n d ++ BITS2OCTETS n hash ++ [] = seed -> nblocks 32 n = 1%nat -> qlen n = 8 ->
  hm (repeat 0 32) (repeat 1 32 ++ [0] ++ seed) = K1 -> hm K1 (repeat 1 32) = V1 ->
  hm K1 (V1 ++ [1] ++ seed) = K2 -> hm K2 V1 = V2 -> hm K2 V2 = T ->
  length T = 32%nat -> be_val T / 2 ^ 248 = k -> 1 <= k <= n - 1 -> IS_NONCE hm 32 n d hash [] k.
Proof.
  intros SD NB Q E1 E2 E3 E4 E5 L E6 H. exists 0%nat. split; [|split; [exact H|intros j Hj; lia]].
  unfold NONCE, STATE. cbn [Nat.iter]. unfold SETUP. rewrite SD, E1, E2, E3, E4. unfold CANDIDATE. rewrite NB. cbn [BLOCKS fst snd]. cbv zeta. cbn [fst snd].
  change (Nat.iter 0 (REJECT hm 32 n) (K2, V2)) with (K2, V2). cbn [fst snd]. rewrite E5, app_nil_r. unfold BITS2INT. rewrite L, Q. exact E6.
Qed.
(** The first candidate is not in range, the second is. *)
Lemma second_candidate hm n d hash seed K1 V1 K2 V2 T K3 V3 T2 k :
  INT2OCTETS n d ++ BITS2OCTETS n hash ++ [] = seed -> nblocks 32 n = 1%nat -> qlen n = 8 ->
  hm (repeat 0 32) (repeat 1 32 ++ [0] ++ seed) = K1 -> hm K1 (repeat 1 32) = V1 ->
  hm K1 (V1 ++ [1] ++ seed) = K2 -> hm K2 V1 = V2 -> hm K2 V2 = T -> hm K2 (T ++ [0]) = K3 -> hm K3 T = V3 -> hm K3 V3 = T2 ->
  length T = 32%nat -> length T2 = 32%nat -> ~ (1 <= be_val T / 2 ^ 248 <= n - 1) -> be_val T2 / 2 ^ 248 = k -> 1 <= k <= n - 1 -> IS_NONCE hm 32 n d hash [] k.
Proof.
  intros SD NB Q E1 E2 E3 E4 E5 E7 E8 E9 L L2 NR E6 H. exists 1%nat.
  assert (ES : SETUP hm 32 n d hash [] = (K2, V2)) by (unfold SETUP; now rewrite SD, E1, E2, E3, E4).
  assert (B1 : BLOCKS hm K2 V2 1 = (T, T)) by (cbn [BLOCKS]; rewrite E5; now rewrite app_nil_r).
  assert (B2 : BLOCKS hm K3 V3 1 = (T2, T2)) by (cbn [BLOCKS]; rewrite E9; now rewrite app_nil_r).
  assert (N0 : NONCE hm 32 n d hash [] 0 = be_val T / 2 ^ 248).
  { unfold NONCE. rewrite ES. change (STATE hm 32 n (K2, V2) 0) with (K2, V2). unfold CANDIDATE. rewrite NB. cbn [fst snd]. rewrite B1. cbn [fst]. unfold BITS2INT. rewrite L, Q. reflexivity. }
  split; [|split; [exact H|]].
  - unfold NONCE. rewrite ES. change (STATE hm 32 n (K2, V2) 1) with (REJECT hm 32 n (K2, V2)). unfold REJECT. rewrite NB. cbn [fst snd]. rewrite B1. cbn [snd]. rewrite E7, E8.
    unfold CANDIDATE. rewrite NB. cbn [fst snd]. rewrite B2. cbn [fst]. unfold BITS2INT. rewrite L2, Q. exact E6.
  - intros j Hj. replace j with 0%nat by lia. rewrite N0. exact NR.
Qed.

(** The order 137, the key 1, the hash [25]. *)
Definition K1_25 : list Z := [61; 32; 153; 229; 172; 165; 169; 39; 191; 192; 92; 173; 66; 240; 205; 164; 77; 200; 230; 21; 34; 216; 38; 217; 220; 197; 38; 32; 196; 226; 20; 200].
Lemma K1_25_ok : HMAC (HASH Sha256) (block_len Sha256) (repeat 0%Z 32) (repeat 1%Z 32 ++ [0] ++ [1; 25]) = K1_25.
Proof. hm [31; 220; 235; 172; 210; 77; 193; 47; 29; 194; 217; 186; 199; 254; 121; 96; 35; 121; 212; 28; 146; 27; 102; 181; 211; 71; 100; 8; 157; 144; 123; 91]. Qed.
Definition V1_25 : list Z := [213; 100; 157; 26; 25; 213; 143; 213; 169; 240; 102; 210; 92; 209; 147; 124; 45; 174; 209; 159; 218; 124; 243; 235; 90; 236; 134; 144; 226; 52; 154; 126].
Lemma V1_25_ok : HMAC (HASH Sha256) (block_len Sha256) K1_25 (repeat 1%Z 32) = V1_25.
Proof. hm [224; 96; 51; 83; 228; 62; 200; 117; 15; 23; 24; 102; 69; 35; 0; 147; 209; 92; 17; 80; 31; 227; 7; 137; 189; 187; 163; 180; 254; 183; 59; 248]. Qed.
Definition K2_25 : list Z := [198; 229; 169; 122; 249; 180; 24; 145; 102; 240; 106; 203; 114; 250; 127; 254; 55; 212; 112; 99; 160; 25; 197; 102; 161; 172; 91; 211; 208; 43; 47; 62].
Lemma K2_25_ok : HMAC (HASH Sha256) (block_len Sha256) K1_25 (V1_25 ++ [1] ++ [1; 25]) = K2_25.
Proof. hm [15; 252; 203; 82; 30; 41; 247; 104; 64; 111; 138; 155; 162; 99; 43; 166; 20; 71; 127; 182; 11; 254; 186; 235; 47; 17; 5; 223; 68; 238; 193; 12]. Qed.
Definition V2_25 : list Z := [204; 107; 109; 156; 79; 237; 217; 96; 53; 124; 8; 136; 155; 47; 197; 168; 87; 91; 61; 82; 90; 237; 36; 184; 103; 114; 160; 212; 128; 102; 157; 216].
Lemma V2_25_ok : HMAC (HASH Sha256) (block_len Sha256) K2_25 (V1_25) = V2_25.
Proof. hm [94; 204; 66; 172; 206; 10; 231; 68; 155; 86; 2; 26; 0; 176; 146; 37; 129; 71; 81; 167; 37; 161; 238; 6; 120; 120; 204; 121; 222; 239; 16; 138]. Qed.
Definition T1_25 : list Z := [147; 51; 171; 201; 4; 22; 124; 154; 71; 4; 163; 190; 173; 6; 167; 230; 182; 215; 35; 13; 92; 78; 77; 140; 117; 53; 170; 237; 113; 43; 43; 155].
Lemma T1_25_ok : HMAC (HASH Sha256) (block_len Sha256) K2_25 (V2_25) = T1_25.
Proof. hm [241; 33; 204; 224; 77; 231; 189; 121; 95; 250; 246; 196; 85; 174; 70; 160; 76; 184; 223; 18; 66; 32; 196; 240; 16; 83; 252; 148; 99; 179; 77; 213]. Qed.
Definition K3_25 : list Z := [119; 48; 47; 237; 189; 136; 205; 69; 146; 251; 80; 24; 220; 220; 232; 248; 166; 50; 146; 212; 3; 235; 114; 64; 82; 205; 113; 150; 129; 255; 67; 236].
Lemma K3_25_ok : HMAC (HASH Sha256) (block_len Sha256) K2_25 (T1_25 ++ [0]) = K3_25.
Proof. hm [115; 25; 187; 206; 143; 96; 100; 103; 144; 27; 149; 67; 187; 93; 61; 216; 21; 196; 74; 12; 34; 88; 43; 207; 219; 82; 131; 85; 22; 144; 186; 53]. Qed.
Definition V3_25 : list Z := [125; 155; 118; 232; 0; 0; 123; 184; 137; 139; 200; 117; 79; 81; 222; 156; 132; 222; 159; 60; 66; 3; 245; 130; 95; 154; 157; 54; 191; 74; 215; 67].
Lemma V3_25_ok : HMAC (HASH Sha256) (block_len Sha256) K3_25 (T1_25) = V3_25.
Proof. hm [30; 217; 216; 125; 140; 108; 159; 58; 33; 23; 56; 58; 180; 228; 144; 23; 98; 206; 52; 202; 211; 85; 230; 36; 62; 88; 69; 11; 116; 15; 230; 229]. Qed.
Definition T2_25 : list Z := [26; 126; 81; 255; 8; 147; 155; 219; 216; 107; 41; 145; 72; 150; 164; 80; 68; 27; 78; 166; 249; 136; 44; 206; 104; 101; 195; 15; 10; 71; 33; 39].
Lemma T2_25_ok : HMAC (HASH Sha256) (block_len Sha256) K3_25 (V3_25) = T2_25.
Proof. hm [207; 238; 180; 48; 162; 222; 17; 196; 135; 11; 176; 92; 255; 227; 24; 30; 12; 170; 117; 221; 233; 177; 13; 11; 22; 225; 195; 219; 169; 103; 101; 10]. Qed.
Lemma nonce_25 : RFC6979 Sha256 137 1 [25] [] 26.
Proof.
  unfold RFC6979. change (out_len Sha256) with 32%nat. generalize K1_25_ok V1_25_ok K2_25_ok V2_25_ok T1_25_ok K3_25_ok V3_25_ok T2_25_ok. generalize (HMAC (HASH Sha256) (block_len Sha256)). intros hm E1 E2 E3 E4 E5 E6 E7 E8.
  exact (second_candidate hm 137 1 [25] [1; 25] _ _ _ _ _ _ _ _ 26 ltac:(vm_compute; reflexivity) ltac:(vm_compute; reflexivity) ltac:(vm_compute; reflexivity) E1 E2 E3 E4 E5 E6 E7 E8 eq_refl eq_refl ltac:(vm_compute; intros [_ H]; apply H; reflexivity) ltac:(vm_compute; reflexivity) ltac:(lia)).
Qed.

(** The order 137, the key 5, the hash [137]. *)
Definition K1_137 : list Z := [178; 89; 38; 126; 198; 198; 244; 58; 185; 16; 242; 135; 90; 169; 11; 54; 115; 93; 65; 190; 184; 97; 22; 152; 219; 183; 121; 203; 191; 238; 80; 199].
Lemma K1_137_ok : HMAC (HASH Sha256) (block_len Sha256) (repeat 0%Z 32) (repeat 1%Z 32 ++ [0] ++ [5; 0]) = K1_137.
Proof. hm [45; 249; 24; 143; 136; 70; 49; 6; 41; 121; 28; 12; 4; 156; 79; 228; 12; 23; 24; 176; 68; 100; 118; 229; 76; 133; 43; 223; 76; 132; 144; 133]. Qed.
Definition V1_137 : list Z := [108; 0; 250; 106; 241; 34; 164; 224; 0; 11; 28; 53; 125; 185; 207; 90; 237; 208; 189; 135; 47; 20; 92; 192; 124; 166; 38; 119; 62; 62; 136; 161].
Lemma V1_137_ok : HMAC (HASH Sha256) (block_len Sha256) K1_137 (repeat 1%Z 32) = V1_137.
Proof. hm [53; 126; 133; 129; 99; 123; 101; 227; 99; 140; 162; 132; 205; 227; 213; 86; 199; 233; 45; 79; 175; 161; 107; 25; 60; 243; 83; 158; 93; 29; 102; 207]. Qed.
Definition K2_137 : list Z := [179; 87; 232; 183; 226; 67; 57; 207; 20; 136; 113; 14; 215; 173; 250; 5; 52; 67; 136; 77; 12; 94; 37; 112; 62; 89; 221; 135; 105; 72; 189; 220].
Lemma K2_137_ok : HMAC (HASH Sha256) (block_len Sha256) K1_137 (V1_137 ++ [1] ++ [5; 0]) = K2_137.
Proof. hm [27; 71; 4; 0; 201; 33; 121; 172; 44; 237; 198; 89; 63; 169; 178; 139; 13; 238; 220; 100; 24; 140; 133; 235; 196; 248; 226; 161; 80; 30; 200; 206]. Qed.
Definition V2_137 : list Z := [119; 43; 165; 0; 200; 224; 100; 114; 157; 214; 177; 0; 25; 72; 180; 117; 64; 62; 61; 60; 177; 46; 19; 179; 99; 84; 112; 216; 140; 165; 206; 231].
Lemma V2_137_ok : HMAC (HASH Sha256) (block_len Sha256) K2_137 (V1_137) = V2_137.
Proof. hm [219; 253; 92; 67; 134; 228; 250; 227; 143; 68; 198; 223; 224; 34; 226; 35; 70; 225; 129; 95; 248; 17; 161; 197; 50; 205; 209; 78; 255; 216; 120; 32]. Qed.
Definition T1_137 : list Z := [113; 51; 7; 31; 129; 67; 202; 43; 107; 66; 22; 231; 123; 79; 96; 139; 57; 0; 142; 204; 6; 61; 83; 146; 124; 31; 126; 128; 172; 159; 37; 185].
Lemma T1_137_ok : HMAC (HASH Sha256) (block_len Sha256) K2_137 (V2_137) = T1_137.
Proof. hm [206; 190; 244; 97; 229; 215; 139; 103; 86; 101; 66; 244; 37; 197; 112; 55; 58; 57; 118; 234; 121; 112; 217; 199; 103; 69; 56; 234; 159; 202; 201; 74]. Qed.
Lemma nonce_137 : RFC6979 Sha256 137 5 [137] [] 113.
Proof.
  unfold RFC6979. change (out_len Sha256) with 32%nat. generalize K1_137_ok V1_137_ok K2_137_ok V2_137_ok T1_137_ok. generalize (HMAC (HASH Sha256) (block_len Sha256)). intros hm E1 E2 E3 E4 E5.
  exact (first_candidate hm 137 5 [137] [5; 0] _ _ _ _ _ 113 ltac:(vm_compute; reflexivity) ltac:(vm_compute; reflexivity) ltac:(vm_compute; reflexivity) E1 E2 E3 E4 E5 eq_refl ltac:(vm_compute; reflexivity) ltac:(lia)).
Qed.

(** The HMAC values of the nonce of the signed transaction in EIP-155, each one checked. *)

From Verif Require Import Base M_Sha2 M_Hmac S_Hash P_SecpKatHmac.
Open Scope Z_scope.

Definition seed155 : list Z := [70; 70; 70; 70; 70; 70; 70; 70; 70; 70; 70; 70; 70; 70; 70; 70; 70; 70; 70; 70; 70; 70; 70; 70; 70; 70; 70; 70; 70; 70; 70; 70; 218; 245; 167; 121; 174; 151; 47; 151; 33; 151; 48; 61; 123; 87; 71; 70; 199; 239; 131; 234; 218; 192; 242; 121; 26; 210; 61; 185; 46; 76; 142; 83].
Definition K1_155 : list Z := [10; 226; 85; 34; 83; 50; 99; 186; 223; 48; 115; 196; 57; 48; 204; 199; 108; 126; 201; 129; 226; 170; 201; 33; 116; 244; 82; 75; 197; 131; 108; 11].
Lemma K1_155_ok : HMAC (HASH Sha256) (block_len Sha256) (repeat 0%Z 32) (repeat 1%Z 32 ++ [0] ++ seed155) = K1_155.
Proof. hm [224; 134; 155; 4; 204; 193; 123; 57; 39; 16; 140; 22; 46; 205; 19; 246; 18; 121; 200; 225; 180; 96; 77; 246; 241; 197; 55; 119; 99; 136; 218; 3]. Qed.
Definition V1_155 : list Z := [62; 137; 249; 132; 120; 221; 97; 109; 69; 32; 143; 17; 155; 169; 135; 23; 165; 100; 171; 159; 25; 134; 148; 238; 43; 11; 86; 187; 14; 80; 152; 179].
Lemma V1_155_ok : HMAC (HASH Sha256) (block_len Sha256) K1_155 (repeat 1%Z 32) = V1_155.
Proof. hm [181; 7; 26; 174; 129; 135; 197; 162; 229; 24; 35; 35; 242; 135; 206; 44; 92; 51; 236; 50; 217; 35; 136; 60; 182; 215; 70; 91; 98; 216; 110; 130]. Qed.
Definition K2_155 : list Z := [148; 151; 107; 1; 142; 56; 28; 28; 121; 221; 212; 145; 48; 124; 188; 212; 164; 1; 174; 24; 236; 129; 174; 134; 196; 140; 49; 21; 25; 150; 141; 175].
Lemma K2_155_ok : HMAC (HASH Sha256) (block_len Sha256) K1_155 (V1_155 ++ [1] ++ seed155) = K2_155.
Proof. hm [141; 35; 0; 175; 200; 155; 130; 212; 207; 131; 28; 36; 237; 235; 44; 193; 241; 190; 242; 22; 255; 147; 111; 80; 5; 189; 82; 117; 47; 124; 128; 39]. Qed.
Definition V2_155 : list Z := [249; 92; 4; 89; 175; 33; 71; 93; 3; 241; 88; 254; 176; 239; 11; 243; 122; 97; 222; 244; 154; 207; 89; 73; 139; 19; 96; 93; 209; 244; 104; 21].
Lemma V2_155_ok : HMAC (HASH Sha256) (block_len Sha256) K2_155 (V1_155) = V2_155.
Proof. hm [248; 61; 97; 59; 77; 99; 231; 10; 51; 189; 209; 143; 33; 237; 185; 227; 135; 59; 187; 50; 170; 214; 140; 176; 106; 154; 43; 233; 69; 216; 173; 228]. Qed.
Definition T_155 : list Z := [73; 68; 226; 112; 118; 191; 54; 246; 92; 198; 0; 80; 29; 119; 124; 189; 185; 58; 116; 11; 45; 30; 18; 41; 132; 20; 197; 186; 213; 205; 62; 86].
Lemma T_155_ok : HMAC (HASH Sha256) (block_len Sha256) K2_155 (V2_155) = T_155.
Proof. hm [216; 45; 66; 32; 28; 118; 30; 237; 221; 50; 35; 85; 138; 213; 133; 130; 31; 231; 234; 103; 79; 126; 225; 220; 221; 30; 138; 223; 188; 45; 164; 204]. Qed.

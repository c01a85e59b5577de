(** The signed transaction of EIP-155, computed: what the test of the repository computes on one machine, for every machine and source of randomness. *)

From Coq Require Import Lia.
From Verif Require Import Base M_BigInt M_Modular M_Curve M_Loop M_Hmac M_Random M_Ecdsa M_Rfc6979 M_Rlp M_EthTypes M_Tx M_Eoa M_TxSign
  S_Codec S_BigInt S_Curve S_EcModel S_Hash S_Ecdsa S_Rfc6979 S_Sign S_Rlp S_EthTypes S_Tx S_Eoa
  P_NumTheory P_Modular P_Curve P_EcModel P_EcEx P_Hash P_Ecdsa1 P_Ecdsa2 P_Rfc6979 P_Sign P_EcdsaProp P_EcdsaProp2 P_Secp P_Tx P_Eoa P_TxSign P_TxEx P_SecpApi P_SecpKat P_EthTypes2 P_Amounts P_Send
  P_Eip155Chain P_Eip155Hmac.
From Verif Require Import S_Send.
Open Scope Z_scope.

Local Notation E := (e_curve SECP256K1).
Local Notation n := (e_order SECP256K1).

(** P_SecpKat.kat for any private key and any hash of 32 bytes, deterministically. *)
Lemma kat_any (cfg : digit_cfg) be (low zero : bool) sk D d hash rng k x y s0 :
  secp256k1 = Ret D -> code_sk sk -> sk_params sk = D -> bi_val (sk_data sk) = d ->
  bytes hash -> length hash = 32%nat -> be_val hash <> 0 ->
  RFC6979 Sha256 n d hash [] k -> emul E k (e_base SECP256K1) = Some (x, y) -> ecdsa_sign SECP256K1 d (be_val hash) k = Some (x, s0) -> rng_ok rng ->
  exists F, forall fuel, (F <= fuel)%nat -> exists sg id, sign_with_options be fuel hash sk (mkSO low true false zero) rng = Ret (Ok (sg, id)) /\
    signature_of SECP256K1 low d (be_val hash) k (bi_val (sig_r sg)) (bi_val (sig_s sg)) (recid_u8 id).
Proof.
  intros ED HK EP V Hb HL HZ NK EM ES HR. set (o := mkSO low true false zero). destruct (secp_fields D ED) as (HD & VD & SZ & _).
  assert (EO : order D = n) by exact (secp_order D ED). rewrite <- EP in SZ.
  assert (HI : hash_int (order D) hash = be_val hash) by (apply (secp_hash D ED); exact HL). assert (Hne : hash <> []) by (intros ->; discriminate).
  assert (ST : so_strict o = true -> strict_usable cfg (order (sk_params sk))) by (intros _; left; rewrite EP, (secp_bits D ED); reflexivity).
  assert (AT : forall j, nonce_of_attempt Sha256 (order (sk_params sk)) (bi_val (sk_data sk)) hash o rng j k).
  { intros j. exists []. rewrite EP, EO, V. split; [reflexivity|exact NK]. }
  destruct (sign_terminates be Sha256 sk HK SZ hash Hb Hne o rng HR (h_new (hasher_of be Sha256)) (new_obj be Sha256) ST 0%nat) as (F & HF).
  { intros j _. right. exists k. apply AT. }
  { right. exists k. split; [apply AT|]. rewrite EP, HI, VD, V, ES. discriminate. }
  exists F. intros fuel Hf. destruct (HF fuel Hf) as (r & EQ). destruct r as [[sg id]|err].
  - exists sg, id. split; [exact EQ|]. destruct (sign_made_from be Sha256 sk fuel hash o rng _ sg id HK SZ Hb HR (new_obj be Sha256) EQ) as (i & k' & (ex' & X & N) & S).
    unfold extra_data in X. cbn [o so_extra] in X. subst ex'. rewrite EP, HI, VD, V in S. rewrite EP, EO, V in N. now rewrite (nonce_unique _ _ _ _ _ _ _ NK N).
  - exfalso. pose proof (sign_spec (sk_params sk) (proj1 HK) be Sha256 SZ sk HK eq_refl hash Hb Hne o rng HR fuel _ (new_obj be Sha256) ST) as K. cbv zeta in K.
    rewrite EQ in K. cbn [o so_strict so_zero] in K. rewrite EP, HI, (secp_bits D ED), HL in K. change (8 * Z.of_nat 32 =? 256) with true in K. cbn [negb andb] in K.
    apply Z.eqb_neq in HZ. rewrite HZ, andb_false_r in K.
    destruct K as [(r & i & E' & R & _)|(E' & _)]; [|discriminate]. injection E' as <-. destruct R as (R & _). discriminate R.
Qed.

Definition d155 : Z := 0x4646464646464646464646464646464646464646464646464646464646464646.
Definition hash155 : list Z := [0xda; 0xf5; 0xa7; 0x79; 0xae; 0x97; 0x2f; 0x97; 0x21; 0x97; 0x30; 0x3d; 0x7b; 0x57; 0x47; 0x46; 0xc7; 0xef; 0x83; 0xea; 0xda; 0xc0; 0xf2; 0x79; 0x1a; 0xd2; 0x3d; 0xb9; 0x2e; 0x4c; 0x8e; 0x53].
Definition k155 : Z := 0x4944e27076bf36f65cc600501d777cbdb93a740b2d1e12298414c5bad5cd3e56.
Definition x155 : Z := 0x28ef61340bd939bc2195fe537567866003e1a15d3c71ff63e1590620aa636276.
Definition y155 : Z := 0xa20627a96cb3e6a105f48244a9736cbf0e79f22d23f666f62ea37540423fb8bc.
Definition s155 : Z := 0x67cbe9d8997f761aecb703304b3800ccf555c9f3dc64214b297fb1966a3b6d83.
Definition i155 : Z := 0xcabc6a13b1c2cd66a7920ef365998e9aa0c25b88cfbe1ec31a839a38723dca1d.
Lemma chain155_ok : chainh redp E (GX, GY) (GX, GY) 1 chain155 = Some ((x155, y155), k155).
Proof. vm_cast_no_check (eq_refl (Some ((x155, y155), k155))). Qed.
Lemma hash155_bytes : bytes hash155. Proof. repeat constructor; unfold byte; lia. Qed.
Lemma nonce_abs155 hm K1 V1 K2 V2 T k : hm (repeat 0 32) (repeat 1 32 ++ [0] ++ seed155) = K1 -> hm K1 (repeat 1 32) = V1 ->
  hm K1 (V1 ++ [1] ++ seed155) = K2 -> hm K2 V1 = V2 -> hm K2 V2 = T -> length T = 32%nat -> be_val T = k -> 1 <= k <= n - 1 ->
  IS_NONCE hm 32 n d155 hash155 [] k.
Proof.
  intros E1 E2 E3 E4 E5 L E6 H. exists 0%nat. split; [|split; [exact H|intros j Hj; lia]].
  unfold NONCE, STATE. cbn [Nat.iter]. unfold SETUP.
  assert (SD : INT2OCTETS n d155 ++ BITS2OCTETS n hash155 ++ [] = seed155) by (vm_compute; reflexivity).
  rewrite SD, E1, E2, E3, E4. unfold CANDIDATE. cbn [fst snd]. assert (NB : nblocks 32 n = 1%nat) by (vm_compute; reflexivity). rewrite NB. cbn [BLOCKS fst]. cbv zeta. cbn [fst].
  change (Nat.iter 0 (REJECT hm 32 n) (K2, V2)) with (K2, V2). cbn [fst snd]. rewrite E5, app_nil_r. unfold BITS2INT. rewrite L, E6. assert (Q : qlen n = 256) by (vm_compute; reflexivity). rewrite Q.
  change (2 ^ Z.max 0 (8 * Z.of_nat 32 - 256)) with 1. apply Z.div_1_r.
Qed.
Lemma nonce155 : RFC6979 Sha256 n d155 hash155 [] k155.
Proof.
  unfold RFC6979. change (out_len Sha256) with 32%nat. generalize K1_155_ok V1_155_ok K2_155_ok V2_155_ok T_155_ok. generalize (HMAC (HASH Sha256) (block_len Sha256)). intros hm E1 E2 E3 E4 E5.
  apply (nonce_abs155 hm _ _ _ _ _ k155 E1 E2 E3 E4 E5); [reflexivity|vm_compute; reflexivity|split; vm_compute; discriminate].
Qed.
Lemma sign155 : ecdsa_sign SECP256K1 d155 (be_val hash155) k155 = Some (x155, s155).
Proof.
  assert (EM := of_chain _ _ _ chain155_ok). unfold ecdsa_sign. rewrite EM. cbv zeta.
  assert (EZ : zinv n k155 = i155). { rewrite <- (zinv_unique n prime_n k155 i155 ltac:(vm_compute; reflexivity)). apply Z.mod_small. split; vm_compute; [discriminate|reflexivity]. }
  rewrite EZ. vm_compute. reflexivity.
Qed.

(** What is signed. *)
Definition preimage155 : list Z := [0xec; 0x09; 0x85; 0x04; 0xa8; 0x17; 0xc8; 0x00; 0x82; 0x52; 0x08; 0x94] ++ repeat 0x35 20 ++
  [0x88; 0x0d; 0xe0; 0xb6; 0xb3; 0xa7; 0x64; 0x00; 0x00; 0x80; 0x01; 0x80; 0x80].
Lemma run155 : keccak256_digest false preimage155 = Ret hash155.
Proof. vm_compute. reflexivity. Qed.
Lemma preimage155_bytes : bytes preimage155.
Proof. unfold preimage155. cbn [repeat app]. repeat constructor; unfold byte; lia. Qed.
Definition wire155 : list Z := [0xf8; 0x6c; 0x09; 0x85; 0x04; 0xa8; 0x17; 0xc8; 0x00; 0x82; 0x52; 0x08; 0x94] ++ repeat 0x35 20 ++
  [0x88; 0x0d; 0xe0; 0xb6; 0xb3; 0xa7; 0x64; 0x00; 0x00; 0x80; 0x25; 0xa0] ++ to_be 32 x155 ++ [0xa0] ++ to_be 32 s155.

Definition price155 : list Z := [50; 48; 48; 48; 48; 48; 48; 48; 48; 48; 48].
Definition amount155 : list Z := 49 :: repeat 48 18.
Lemma read_amount (cfg : digit_cfg) s v vs : digits_of 10 s vs -> positional 10 vs = v -> s <> [] -> (forall t, s <> 48 :: 120 :: t) -> exists w, wei_try_from s = Ret (Ok w) /\ wf w /\ bi_val w = v.
Proof.
  intros DG P N X. assert (D16 : digits_of 16 s vs). { clear -DG. induction DG as [|c v0 s0 vs0 [A B] DG IH]; constructor; [split; [exact A|lia]|exact IH]. }
  assert (Hs : bytes s) by (eapply is_digit_byte; exact D16).
  apply (proj1 (text_exact s v Hs)). right. split; [exact X|]. rewrite <- P. constructor; [exact N|].
  clear -DG. induction DG as [|c v0 s0 vs0 [A B] DG IH]; constructor; [split; [exact A|lia]|exact IH].
Qed.
Lemma eip155_example (cfg : digit_cfg) be rng : rng_ok rng -> exists D sk c w1 w3 p F,
  secp256k1 = Ret D /\ eoa_private_key_new (repeat 0x46 32) = Ret (Some sk) /\ code_sk sk /\ sk_params sk = D /\
  chain_id_of EthereumMainnet = Ret c /\ nonce_try_from 9 = Ok 9 /\ wei_try_from price155 = Ret (Ok w1) /\ wei_try_from amount155 = Ret (Ok w3) /\
  address_try_from (48 :: 120 :: concat (repeat [51; 53] 20)) = Ok (repeat 0x35 20) /\
  fst (take_and_build K155 (builder_after [SetChainId c; SetNonce 9; SetGasPrice w1; SetGasLimit 21000; SetDestination (repeat 0x35 20); SetAmount w3])) = Ok (P155 p) /\
  forall fuel, (F <= fuel)%nat -> exists t, sign_payload be fuel rng (P155 p) sk (mkSO true true false false) = Ret (Ok (T155 t)) /\
    bi_val (t155_v t) = 37 /\ bi_val (t155_r t) = x155 /\ bi_val (t155_s t) = s155 /\ encode encode_transaction_eip_155 t = Ret wire155.
Proof.
  intros HR. assert (HB : bytes (repeat 70 32)) by (cbn [repeat]; repeat constructor; unfold byte; lia).
  assert (V1 : be_val (repeat 70 32) = d155) by (vm_compute; reflexivity).
  destruct (eoa_new_spec (repeat 70 32) HB eq_refl) as (D & ED & r & EK & HK). rewrite V1 in HK.
  destruct r as [sk|]; [|exfalso; apply HK; vm_compute; split; discriminate]. destruct HK as (HK & EP & VK).
  assert (Hc : returns (chain_id_of EthereumMainnet) 1) by (apply (P_BigInt3.from_u128_spec 1 Positive); lia). destruct Hc as (c & Ec & Wc & Vc).
  destruct (read_amount cfg price155 20000000000 (2 :: repeat 0 10)) as (w1 & E1 & W1 & VW1); [cbn; repeat constructor|reflexivity|discriminate|discriminate|].
  destruct (read_amount cfg amount155 1000000000000000000 (1 :: repeat 0 18)) as (w3 & E3 & W3 & VW3); [cbn; repeat constructor|reflexivity|discriminate|discriminate|].
  set (p := {| p155_chain_id := c; p155_nonce := 9; p155_gas_price := w1; p155_gas_limit := 21000; p155_destination := repeat 53 20; p155_amount := w3; p155_data := [] |}).
  assert (HP : payload_ok (P155 p)).
  { cbn [payload_ok]. unfold payload_ok_155, big_ok, nonce_ok, u64_ok, address_ok. cbn [p p155_chain_id p155_nonce p155_gas_price p155_gas_limit p155_destination p155_amount p155_data].
    rewrite Vc, VW1, VW3. assert (bytes (repeat 53 20)) by (cbn [repeat]; repeat constructor; unfold byte; lia).
    repeat match goal with |- _ /\ _ => split; [solve [assumption|lia|split; [assumption|lia]|split; [assumption|reflexivity]]|] end. constructor. }
  assert (EM : PREIMAGE (P155 p) = Some preimage155).
  { cbn [PREIMAGE]. unfold signed_item_155, items_155, big, num. cbn [p p155_chain_id p155_nonce p155_gas_price p155_gas_limit p155_destination p155_amount p155_data]. rewrite Vc, VW1, VW3. vm_compute. reflexivity. }
  assert (KH : KECCAK256 preimage155 = hash155) by exact (run_keccak _ _ preimage155_bytes run155).
  destruct (kat_any cfg be true false sk D d155 hash155 rng k155 x155 y155 s155 ED HK EP VK hash155_bytes eq_refl ltac:(vm_compute; discriminate) nonce155 (of_chain _ _ _ chain155_ok) sign155 HR) as (F & HF).
  exists D, sk, c, w1, w3, p, F. split; [exact ED|]. split; [exact EK|]. split; [exact HK|]. split; [exact EP|]. split; [exact Ec|]. split; [reflexivity|]. split; [exact E1|]. split; [exact E3|].
  split; [vm_compute; reflexivity|]. split; [reflexivity|]. intros fuel Hf. destruct (HF fuel Hf) as (sg & id & EQ & x' & y' & s' & EM' & ES' & S' & I').
  rewrite (of_chain _ _ _ chain155_ok) in EM'. injection EM' as <- <-. rewrite sign155 in ES'. injection ES' as VR <-.
  destruct (secp_fields D ED) as (_ & _ & SZ & _). rewrite <- EP in SZ.
  pose proof (sign_payload_spec be fuel rng HR sk HK SZ (mkSO true true false false) (P155 p) preimage155 HP EM) as SP. cbv zeta in SP. rewrite KH, EQ in SP.
  destruct SP as (t & ET & T1 & T2 & T3 & T4 & T5). destruct t as [t|t|t|t]; try discriminate T1. cbn [tx_payload tx_r tx_s has_parity tx_ok] in *. injection T1 as T1.
  assert (QS : bi_val (sig_s sg) = s155) by (rewrite S'; vm_compute; reflexivity). assert (QI : recid_u8 id mod 2 = 0) by (rewrite I'; vm_compute; reflexivity).
  rewrite QI, T1 in T4. cbn [p p155_chain_id] in T4. rewrite Vc in T4.
  exists t. split; [exact ET|]. split; [exact T4|]. split; [now rewrite T2|]. split; [now rewrite T3|].
  assert (RW : RLP (tx_item_155 t) = Some wire155).
  { unfold tx_item_155, items_155, big, num. rewrite T1. cbn [p p155_chain_id p155_nonce p155_gas_price p155_gas_limit p155_destination p155_amount p155_data]. rewrite VW1, VW3, T4, T2, T3, QS, <- VR. vm_compute. reflexivity. }
  exact (proj1 (tx_155_v false t wire155 T5 RW ltac:(vm_compute; reflexivity))).
Qed.
Lemma case155 : denotes 10 (49 :: repeat 48 18) 1000000000000000000 /\ denotes 10 [50; 48; 48; 48; 48; 48; 48; 48; 48; 48; 48] 20000000000 /\
  digits_of 16 (concat (repeat [51; 53] 20)) (nibbles (repeat 0x35 20)) /\ bytes (repeat 0x35 20) /\ Forall access_entry_ok [(repeat 1 20, [repeat 2 32; repeat 3 32])] /\
  (exists b, RLP (Lst (legacy_fields 9 20000000000 21000 (repeat 0x35 20) 1000000000000000000 [])) = Some b) /\
  (exists b, RLP (Lst (eip_1559_fields 1 9 1 20000000000 21000 (repeat 0x35 20) 1000000000000000000 [] [(repeat 1 20, [repeat 2 32; repeat 3 32])])) = Some b).
Proof.
  split; [|split; [|split; [|split; [|split; [|split]]]]].
  - apply (Den_plain 10 (49 :: repeat 48 18) (1 :: repeat 0 18)); [discriminate|]. cbn [repeat]. repeat constructor; try lia.
  - apply (Den_plain 10 [50; 48; 48; 48; 48; 48; 48; 48; 48; 48; 48] (2 :: repeat 0 10)); [discriminate|]. cbn [repeat]. repeat constructor; try lia.
  - cbn [repeat concat app nibbles]. cbn. repeat constructor; lia.
  - cbn [repeat]. repeat constructor; unfold byte; lia.
  - repeat constructor; cbn [fst snd repeat]; try reflexivity; repeat constructor; unfold byte; lia.
  - eexists. vm_compute. reflexivity.
  - eexists. vm_compute. reflexivity.
Qed.

(** A signed transaction, on a small curve; the account of the private key 1. *)

From Coq Require Import Lia.
From Verif Require Import Base M_Codec M_BigInt M_BigText M_Curve M_Hmac M_Random M_Ecdsa M_Rfc6979 M_Rlp M_EthTypes M_Tx M_Eoa M_TxSign.
From Verif Require Import S_BigInt S_Curve S_EcModel S_Ecdsa S_Rfc6979 S_Sign S_Hash S_Rlp S_EthTypes S_Tx S_Eoa.
From Verif Require P_Curve.
From Verif Require Import P_BigInt1 P_BigInt3 P_BigProp P_Hash P_Ecdsa2 P_Ecdsa3 P_Rfc6979 P_Sign P_EcdsaProp P_EcdsaProp2 P_EcdsaEx P_EcFast P_Eoa P_TxSign.
Open Scope Z_scope.

Definition one_digit (n : Z) : bigint := mkBig [n] 1 Positive.
Definition payload70 : payload :=
  PLegacy {| pl_nonce := 70; pl_gas_price := one_digit 66; pl_gas_limit := 21000; pl_destination := repeat 7 20; pl_amount := one_digit 1; pl_data := [] |}.
Definition preimage70 : list Z := Eval vm_compute in match PREIMAGE (cfg:=U64) payload70 with Some m => m | None => [] end.
Definition rest70 : list Z := Eval vm_compute in match keccak256_digest false preimage70 with Ret d => tl d | _ => [] end.

Lemma one_digit_ok (cfg : digit_cfg) n : 0 <= n < 256 -> big_ok (one_digit n).
Proof.
  intros H. split; [|cbn; lia]. apply wf_b_ok. unfold wf_b. cbn. destruct cfg; cbn; rewrite !andb_true_r; (apply andb_true_iff; split; [apply Z.leb_le|apply Z.ltb_lt]); unfold digit_base; cbn; lia.
Qed.
Lemma payload70_ok (cfg : digit_cfg) : payload_ok payload70.
Proof.
  cbn [payload_ok payload70]. unfold payload_ok_legacy. cbn [pl_nonce pl_gas_price pl_gas_limit pl_destination pl_amount pl_data].
  split; [red; lia|]. split; [apply one_digit_ok; lia|]. split; [red; lia|]. split. { split; [repeat constructor; unfold byte; lia|reflexivity]. }
  split; [apply one_digit_ok; lia|constructor].
Qed.
Lemma preimage70_eq (cfg : digit_cfg) : PREIMAGE payload70 = Some preimage70.
Proof. destruct cfg; vm_compute; reflexivity. Qed.
Lemma preimage70_bytes : bytes preimage70.
Proof. unfold preimage70. repeat constructor; unfold byte; lia. Qed.
Lemma run_keccak m d : bytes m -> keccak256_digest false m = Ret d -> KECCAK256 m = d.
Proof. intros H E. destruct (keccak_digest false m H) as (E' & _). generalize dependent (KECCAK256 m). intros k E'. rewrite E in E'. now injection E'. Qed.
Lemma run70 : keccak256_digest false preimage70 = Ret (137 :: rest70).
Proof. vm_compute. reflexivity. Qed.
Lemma hash70 : KECCAK256 preimage70 = 137 :: rest70.
Proof. exact (run_keccak preimage70 (137 :: rest70) preimage70_bytes run70). Qed.

Lemma signs_hash {cfg : digit_cfg} be fuel rng sk o p m h sg id : rng_ok rng -> code_sk sk -> nbits (order (sk_params sk)) < 2 ^ 60 -> payload_ok p -> PREIMAGE p = Some m ->
  KECCAK256 m = h -> sign_with_options be fuel h sk o rng = Ret (Ok (sg, id)) -> exists t, sign_payload be fuel rng p sk o = Ret (Ok t).
Proof.
  intros HR HK SZ HP EM <- E. pose proof (sign_payload_spec be fuel rng HR sk HK SZ o p m HP EM) as SP. cbv zeta in SP. rewrite E in SP.
  destruct SP as (t & ET & _). now exists t.
Qed.

Lemma toy3_signs70 : forall (cfg : digit_cfg) be low rng, rng_ok rng -> exists sk pk p m fuel t,
  code_sk sk /\ public_key_of sk = Ret pk /\ nbits (order (sk_params sk)) < 2 ^ 60 /\ recoverable (sk_params sk) /\ covers (sk_params sk) /\ d_cofactor (sk_params sk) = 1 /\
  payload_ok p /\ PREIMAGE p = Some m /\ sign_payload be fuel rng p sk (mkSO low false false false) = Ret (Ok t).
Proof.
  intros cfg be low rng HR. destruct (toy3_sk cfg 5 ltac:(lia)) as (sk & HK & VP & VD).
  destruct (public_key_of_full sk HK) as (pk & EP & _). pose proof (toy3_order sk VP) as EO.
  assert (SZ : nbits (order (sk_params sk)) < 2 ^ 60) by (rewrite EO; vm_compute; reflexivity).
  assert (CF : d_cofactor (sk_params sk) = 1) by (change (d_cofactor (sk_params sk)) with (e_cofactor (params_val (sk_params sk))); now rewrite VP).
  assert (PP : bi_val (c_p (d_curve (sk_params sk))) = 131) by (change (bi_val (c_p (d_curve (sk_params sk)))) with (ep (e_curve (params_val (sk_params sk)))); now rewrite VP).
  set (hash := 137 :: rest70). set (o := mkSO low false false false).
  assert (HI : hash_int (order (sk_params sk)) hash = 137) by (rewrite EO; vm_compute; reflexivity).
  assert (NK : RFC6979 Sha256 (order (sk_params sk)) (bi_val (sk_data sk)) hash [] 113).
  { rewrite EO, VD. assert (E : BITS2OCTETS 137 hash = BITS2OCTETS 137 [137]) by (vm_compute; reflexivity).
    destruct toy3_nonce_137 as (i & H). exists i. unfold NONCE, SETUP in *. rewrite E. exact H. }
  assert (AT : nonce_of_attempt Sha256 (order (sk_params sk)) (bi_val (sk_data sk)) hash o rng 0 113) by (exists []; split; [reflexivity|exact NK]).
  assert (Hb : bytes hash) by (unfold hash, rest70; repeat constructor; unfold byte; lia). assert (Hne : hash <> []) by discriminate.
  assert (ST : so_strict o = true -> strict_usable cfg (order (sk_params sk))) by discriminate.
  destruct (sign_terminates be Sha256 sk HK SZ hash Hb Hne o rng HR (h_new (hasher_of be Sha256)) (new_obj be Sha256) ST 0%nat) as (F & HF).
  { intros j Hj. right. exists 113. replace j with 0%nat by lia. exact AT. }
  { right. exists 113. split; [exact AT|]. rewrite HI, VP, VD, <- fsign_ok by reflexivity. vm_compute; discriminate. }
  destruct (HF F (le_n _)) as (r & EQ).
  assert (X : exists sg id, sign_with_options be F hash sk o rng = Ret (Ok (sg, id))).
  { destruct r as [[sg id]|err]; [exists sg, id; exact EQ|]. exfalso.
    pose proof (sign_spec (sk_params sk) (proj1 HK) be Sha256 SZ sk HK eq_refl hash Hb Hne o rng HR F _ (new_obj be Sha256) ST) as K. cbv zeta in K.
    rewrite EQ in K. unfold o in K. cbn [so_strict so_zero] in K. rewrite HI in K. cbn [negb andb] in K. change (137 =? 0) with false in K. cbn [andb] in K.
    destruct K as [(r & i & E & R & _)|(E & _)]; [|discriminate]. injection E as <-. destruct R as (R & _). discriminate. }
  destruct X as (sg & id & X).
  exists sk, pk, payload70, preimage70, F.
  destruct (signs_hash be F rng sk o payload70 preimage70 hash sg id HR HK SZ (payload70_ok cfg) (preimage70_eq cfg) hash70 X) as (t & ET). exists t.
  split; [exact HK|]. split; [exact EP|]. split; [exact SZ|]. split. { split; [rewrite CF; vm_compute; split; discriminate || reflexivity|now left]. }
  split. { unfold covers. rewrite PP, CF, EO. lia. }
  split; [exact CF|]. split; [apply payload70_ok|]. split; [apply preimage70_eq|exact ET].
Qed.

(** The account of the private key 1. *)
Definition G_bytes : list Z := Eval vm_compute in
  match e_base SECP256K1 with Some (x, y) => to_be 32 x ++ to_be 32 y | None => [] end.
Lemma run_G : keccak256_digest false G_bytes = Ret [192; 166; 196; 36; 172; 113; 87; 174; 64; 131; 152; 223;
  0x7e; 0x5f; 0x45; 0x52; 0x09; 0x1a; 0x69; 0x12; 0x5d; 0x5d; 0xfc; 0xb7; 0xb8; 0xc2; 0x65; 0x90; 0x29; 0x39; 0x5b; 0xdf].
Proof. vm_compute. reflexivity. Qed.
Lemma G_bytes_ok : bytes G_bytes.
Proof. unfold G_bytes. repeat constructor; unfold byte; lia. Qed.
Lemma address_G x y : e_base SECP256K1 = Some (x, y) ->
  ADDRESS x y = [0x7e; 0x5f; 0x45; 0x52; 0x09; 0x1a; 0x69; 0x12; 0x5d; 0x5d; 0xfc; 0xb7; 0xb8; 0xc2; 0x65; 0x90; 0x29; 0x39; 0x5b; 0xdf].
Proof.
  intros E. unfold ADDRESS. assert (EB : to_be 32 x ++ to_be 32 y = G_bytes). { cbn [SECP256K1 e_base] in E. injection E as <- <-. vm_compute. reflexivity. }
  rewrite EB. rewrite (run_keccak _ _ G_bytes_ok run_G). reflexivity.
Qed.

Lemma address_of_one : forall (cfg : digit_cfg) be, exists sk pk, eoa_private_key_new (repeat 0 31 ++ [1]) = Ret (Some sk) /\ eoa_public_key sk = Ret pk /\
  eoa_address be pk = Ret [0x7e; 0x5f; 0x45; 0x52; 0x09; 0x1a; 0x69; 0x12; 0x5d; 0x5d; 0xfc; 0xb7; 0xb8; 0xc2; 0x65; 0x90; 0x29; 0x39; 0x5b; 0xdf].
Proof.
  intros cfg be. assert (HB : bytes (repeat 0 31 ++ [1])) by (cbn [repeat app]; repeat constructor; unfold byte; lia).
  assert (V1 : be_val (repeat 0 31 ++ [1]) = 1) by (vm_compute; reflexivity).
  destruct (eoa_new_spec (repeat 0 31 ++ [1]) HB eq_refl) as (D & E & r & EK & HK). rewrite V1 in HK.
  destruct r as [sk|]; [|exfalso; apply HK; vm_compute; split; discriminate]. destruct HK as (HK & EP & VD).
  destruct (public_key_of_full sk HK) as (pk & EQ & (M1 & M2 & M3) & CP). exists sk, pk. split; [exact EK|]. split; [exact EQ|].
  destruct (secp_fields D E) as (HD & VP & _). rewrite VD, EP, P_Curve.emul_1 in M3. change (pt_val (d_base D)) with (e_base (params_val D)) in M3. rewrite VP in M3.
  assert (PD : pk_params pk = D) by congruence. destruct (address_spec be D pk E PD CP) as (-> & _). f_equal. apply address_G.
  destruct (e_base SECP256K1) as [[x y]|] eqn:EB; [|discriminate]. destruct (pt_some _ _ _ M2 M3) as [-> ->]. reflexivity.
Qed.

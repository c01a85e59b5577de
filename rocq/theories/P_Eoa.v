(** Addresses of public keys. *)

From Coq Require Import Lia.
From Verif Require Import Base M_BigInt M_BigText M_Curve M_Hmac M_Ecdsa M_EthTypes M_Eoa M_Rlp M_Tx M_TxSign.
From Verif Require Import S_BigInt S_Curve S_EcModel S_Ecdsa S_Hash S_Eoa S_Encoding S_Sign.
From Verif Require Import P_BigInt1 P_BigInt3 P_BigInt4 P_Hash P_Encoding P_Encoding2 P_Secp P_EcEx P_EcdsaSecp P_Ecdsa2 P_EcdsaProp.
Open Scope Z_scope.

Lemma keccak_digest be m : bytes m -> keccak256_digest be m = Ret (KECCAK256 m) /\ bytes (KECCAK256 m) /\ length (KECCAK256 m) = 32%nat.
Proof.
  intros H. unfold keccak256_digest. destruct (hasher_spec Keccak256 be _ m (new_obj be Keccak256) H I) as (st' & E & _ & HB & HL). rewrite E. cbn [obind].
  split; [reflexivity|]. split; [exact HB|exact HL].
Qed.

Lemma slice_12 (d : list Z) : length d = 32%nat -> slice_from d 12 = Ret (skipn 12 d).
Proof. intros HL. unfold slice_from, slice. rewrite HL. cbn [Nat.leb andb]. rewrite firstn_all2; [reflexivity|]. rewrite skipn_length, HL. cbn. lia. Qed.

Lemma tail_spec be m (d : list Z) : keccak256_digest be m = Ret d -> length d = 32%nat -> bytes d ->
  (d <- keccak256_digest be m ;; d' <- slice_from d 12 ;; unwrap (address_from_bytes d')) = Ret (skipn 12 d) /\ bytes (skipn 12 d) /\ length (skipn 12 d) = 20%nat.
Proof.
  intros -> HL HB. cbn [obind]. rewrite (slice_12 d HL). cbn [obind]. assert (HA : length (skipn 12 d) = 20%nat) by (rewrite skipn_length, HL; reflexivity).
  split; [unfold address_from_bytes, array_try_from; rewrite HA; reflexivity|]. split; [now apply Forall_skipn|exact HA].
Qed.

Section WithCfg.
Context {cfg : digit_cfg}.

Lemma secp_fields D : secp256k1 = Ret D -> code_params D /\ params_val D = SECP256K1 /\ nbits (order D) < 2 ^ 60 /\ recoverable D /\ covers D /\
  (forall hash, length hash = 32%nat -> strict_ok (order D) hash) /\ d_cofactor D = 1.
Proof.
  intros E. destruct (secp_sign_ok cfg) as (D' & E' & H1 & H2 & H3 & H4 & H5). rewrite E in E'. injection E' as <-.
  destruct (secp_code cfg) as (D' & E' & _ & V & _). rewrite E in E'. injection E' as <-.
  split; [exact H1|]. split; [exact V|]. split; [exact H2|]. split; [exact H3|]. split; [exact H4|]. split; [exact H5|].
  change (d_cofactor D) with (e_cofactor (params_val D)). now rewrite V.
Qed.

Lemma address_spec be D pk : secp256k1 = Ret D -> pk_params pk = D -> code_pk pk ->
  eoa_address be pk = Ret (ADDRESS (bi_val (px (pk_data pk))) (bi_val (py (pk_data pk)))) /\
  bytes (ADDRESS (bi_val (px (pk_data pk))) (bi_val (py (pk_data pk)))) /\ length (ADDRESS (bi_val (px (pk_data pk))) (bi_val (py (pk_data pk)))) = 20%nat.
Proof.
  intros E EP (_ & (Wx & Wy) & VP). rewrite EP in VP. destruct (secp_fields D E) as (HD & VD & _). rewrite VD in VP. destruct VP as (Hx & Hy & _).
  set (x := bi_val (px (pk_data pk))) in *. set (y := bi_val (py (pk_data pk))) in *.
  assert (P256 : ep (e_curve SECP256K1) < 256 ^ Z.of_nat 32) by (vm_compute; reflexivity).
  assert (N32 : nbytes (order D) = 32%nat). { change (order D) with (e_order (params_val D)). rewrite VD. vm_compute. reflexivity. }
  unfold eoa_address, point_to_bytes. rewrite EP. rewrite (byte_len_n D HD), N32. cbn [obind].
  pose proof (pad_bytes (px (pk_data pk)) 32 Wx ltac:(fold x; lia)) as Ex. pose proof (pad_bytes (py (pk_data pk)) 32 Wy ltac:(fold y; lia)) as Ey.
  destruct (bi_to_be_bytes (px (pk_data pk))) as [bx| |]; cbn [obind] in *; try discriminate. rewrite Ex. cbn [obind].
  destruct (bi_to_be_bytes (py (pk_data pk))) as [by_| |]; cbn [obind] in *; try discriminate. rewrite Ey. cbn [obind]. fold x y.
  assert (Hm : bytes (to_be 32 x ++ to_be 32 y)) by (apply Forall_app; split; apply to_be_bytes_range).
  destruct (keccak_digest be _ Hm) as (E1 & HB & HL). exact (tail_spec be _ _ E1 HL HB).
Qed.

(** The private key of an account: 32 bytes that are a number in [1, n - 1]. *)
Lemma eoa_new_spec data : bytes data -> length data = 32%nat -> exists D, secp256k1 = Ret D /\
  exists r, eoa_private_key_new data = Ret r /\
  match r with
  | Some sk => code_sk sk /\ sk_params sk = D /\ bi_val (sk_data sk) = be_val data
  | None => ~ 1 <= be_val data <= e_order SECP256K1 - 1
  end.
Proof.
  intros HB HL. destruct (secp_code cfg) as (D & E & HD & VD & _). exists D. split; [exact E|].
  unfold eoa_private_key_new. destruct (bi_from_be_bytes_spec data Positive ltac:(intros ->; discriminate) HB) as (d & -> & Wd & Vd). cbn [obind]. rewrite E. cbn [obind].
  destruct (private_key_new_full D d Wd (proj2 (proj2 (proj1 HD)))) as (b & -> & Hb).
  assert (EO : order D = e_order SECP256K1) by (change (order D) with (e_order (params_val D)); now rewrite VD).
  eexists. split; [reflexivity|]. destruct b; rewrite ?EO in *.
  - split; [|split; [reflexivity|exact Vd]]. split; [exact HD|]. split; [exact Wd|]. cbn [sk_data sk_params]. rewrite EO. apply proj1 in Hb. specialize (Hb eq_refl). lia.
  - cbn in Vd. intros K. apply proj2 in Hb. enough (false = true) by discriminate. apply Hb. rewrite Vd. exact K.
Qed.

Lemma address_of_key be D pk x y : secp256k1 = Ret D -> pk_params pk = D -> code_pk pk -> bi_val (px (pk_data pk)) = x -> bi_val (py (pk_data pk)) = y ->
  eoa_address be pk = Ret (ADDRESS x y) /\ bytes (ADDRESS x y) /\ length (ADDRESS x y) = 20%nat.
Proof. intros E EP HP <- <-. exact (address_spec be D pk E EP HP). Qed.

Lemma account_spec data : bytes data -> length data = 32%nat ->
  (1 <= be_val data <= e_order SECP256K1 - 1 -> exists D sk pk, secp256k1 = Ret D /\ eoa_private_key_new data = Ret (Some sk) /\
     code_sk sk /\ sk_params sk = D /\ bi_val (sk_data sk) = be_val data /\ eoa_public_key sk = Ret pk /\ matching sk pk /\ code_pk pk) /\
  (~ 1 <= be_val data <= e_order SECP256K1 - 1 -> eoa_private_key_new data = Ret None).
Proof.
  intros HB HL. destruct (eoa_new_spec data HB HL) as (D & E & r & EK & HK).
  assert (R : forall sk, r = Some sk -> 1 <= be_val data <= e_order SECP256K1 - 1).
  { intros sk ->. destruct HK as ((_ & _ & K) & EP & V). rewrite V, EP in K. destruct (secp_fields D E) as (_ & VD & _).
    change (order D) with (e_order (params_val D)) in K. rewrite VD in K. clear -K. generalize dependent (e_order SECP256K1). lia. }
  split; intros H.
  - destruct r as [sk|]; [|contradiction]. destruct HK as (HK & EP & V). destruct (public_key_of_full sk HK) as (pk & EQ & HM & CP).
    exists D, sk, pk. auto 10.
  - destruct r as [sk|]; [|exact EK]. exfalso. apply H. exact (R sk eq_refl).
Qed.
End WithCfg.

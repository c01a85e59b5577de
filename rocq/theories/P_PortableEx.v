(** The key 1 on two machines, and with a random source that fails. *)

From Coq Require Import Lia.
From Verif Require Import Base M_BigInt M_Curve M_Hmac M_Random M_Ecdsa M_Rfc6979 S_BigInt S_Curve S_EcModel S_Hash S_Ecdsa S_Rfc6979 S_Sign
  P_Hash P_Eoa P_SecpApi P_SecpKat P_SignRand.
From Verif Require P_Portable.
Open Scope Z_scope.

Lemma int1 (cfg : digit_cfg) dd : from_int 1 = Ret dd -> bi_val dd = 1.
Proof.
  intros E. destruct (P_BigInt3.from_i128_spec 1) as (dd' & E' & W & V). { change (2 ^ 127) with 170141183460469231731687303715884105728. lia. }
  unfold from_int in E. rewrite E in E'. injection E' as <-. exact V.
Qed.
Lemma failing : forall (cfg : digit_cfg) be fuel e, exists D dd, secp256k1 = Ret D /\ from_int 1 = Ret dd /\ code_sk (mkSk dd D) /\
  sign_default be fuel hash0 (mkSk dd D) (fun _ => Ret (Err e)) = Ret (Err (SFailedToGenerateNonce (FailedToGenerateRandomBytes e))).
Proof.
  intros cfg be fuel e. destruct (kat_default cfg be) as (D & dd & F & ED & E1 & HK & _). exists D, dd. split; [exact ED|]. split; [exact E1|]. split; [exact HK|].
  assert (EO : order D = e_order SECP256K1) by exact (secp_order D ED).
  unfold sign_default, sign_with_options. apply sign_unavailable; try assumption.
  - cbn [sk_params]. rewrite (secp_bits D ED). reflexivity.
  - exact hash0_bytes.
  - discriminate.
  - intros i. right. eauto.
  - exact (conj eq_refl eq_refl).
  - intros _. unfold strict_ok. cbn [sk_params]. rewrite (secp_bits D ED). split; reflexivity.
  - intros _. cbn [sk_params]. rewrite (secp_hash D ED) by reflexivity. vm_compute. discriminate.
  - reflexivity.
  - reflexivity.
Qed.
Lemma two_machines : forall (cfg cfg' : digit_cfg) be, exists D D' dd dd' fuel sg id, @secp256k1 cfg = Ret D /\ @secp256k1 cfg' = Ret D' /\
  @code_sk cfg (mkSk dd D) /\ @code_sk cfg' (mkSk dd' D') /\ nbits (@order cfg D) < 2 ^ 60 /\ @params_val cfg D = @params_val cfg' D' /\ @bi_val cfg dd = @bi_val cfg' dd' /\
  strict_alike cfg cfg' (@order cfg D) /\ bytes hash0 /\ rng_ok (fun _ => Ret (Ok entropy0)) /\
  @sign_default cfg be fuel hash0 (mkSk dd D) (fun _ => Ret (Ok entropy0)) = Ret (Ok (sg, id)).
Proof.
  intros cfg cfg' be. destruct (kat_default cfg be) as (D & dd & F & ED & E1 & HK & H), (kat_default cfg' be) as (D' & dd' & F' & ED' & E1' & HK' & _).
  destruct (H F (le_n _)) as (sg & id & EQ & _). exists D, D', dd, dd', F, sg, id. split; [exact ED|]. split; [exact ED'|]. split; [exact HK|]. split; [exact HK'|].
  destruct (@secp_fields cfg D ED) as (_ & VD & SZ & _), (@secp_fields cfg' D' ED') as (_ & VD' & _). split; [exact SZ|]. split; [now rewrite VD, VD'|].
  split; [now rewrite (int1 cfg dd E1), (int1 cfg' dd' E1')|]. split; [apply (proj1 (P_Portable.alike cfg cfg' _)); now rewrite (@secp_bits cfg D ED)|]. split; [exact hash0_bytes|]. split; [exact entropy0_ok|exact EQ].
Qed.

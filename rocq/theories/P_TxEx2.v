(** A signed transaction whose parity alone leads to another key. *)

From Coq Require Import Lia.
From Verif Require Import Base M_Codec M_BigInt M_BigText M_Curve M_Hmac M_Random M_Ecdsa M_Rfc6979 M_Rlp M_EthTypes M_Tx M_Eoa M_TxSign.
From Verif Require Import S_BigInt S_Curve S_EcModel S_Ecdsa S_Rfc6979 S_Sign S_Hash S_Rlp S_EthTypes S_Tx S_Eoa S_Portable.
From Verif Require P_Curve.
From Verif Require Import P_BigInt1 P_BigInt3 P_BigProp P_NumTheory P_Modular P_Curve P_EcModel P_Order P_EcLaws P_EcEx P_Hash P_Ecdsa2 P_Ecdsa3 P_Rfc6979 P_Sign P_EcdsaProp P_EcdsaProp2 P_EcdsaEx P_Eoa P_TxSign P_TxEx P_EcFast P_Portable.
Open Scope Z_scope.

(** y^2 = x^3 + 2 x + 1 modulo 199: 181 points, generated by (0, 1) *)
Definition TOY4 : eparams := mkEP (mkE 2 1 199) (Some (0, 1)) 181 1.
Lemma toy4_ok : params_ok TOY4.
Proof.
  assert (OK : curve_ok (e_curve TOY4)).
  { split; [apply primeb_ok; vm_compute; reflexivity|]. split; [reflexivity|]. vm_compute. discriminate. }
  assert (HG : on_curve (e_curve TOY4) (e_base TOY4)) by (apply on_curveb_ok; vm_compute; reflexivity).
  assert (HN : prime 181) by (apply primeb_ok; vm_compute; reflexivity).
  assert (NG : emul (e_curve TOY4) 181 (e_base TOY4) = None) by (rewrite <- femul_ok by reflexivity; vm_compute; reflexivity).
  split; [exact OK|]. split; [exact HN|]. split; [reflexivity|]. split; [exact HG|]. split; [discriminate|]. split; [exact NG|].
  intros P HP _. change (e_order TOY4) with 181.
  refine (generated (e_curve TOY4) OK (e_base TOY4) 181 HG _ HN NG eq_refl _ _ P HP); [discriminate| |reflexivity].
  apply no2b_ok; [discriminate|]. vm_compute. reflexivity.
Qed.
Lemma toy4_code : forall cfg : digit_cfg, exists D, small_params 2 1 199 0 1 181 1 = Ret D /\ code_params D /\ params_val D = TOY4.
Proof.
  intros []; (eexists; split; [vm_compute; reflexivity|]; split; [split; [apply wfb_params_ok; vm_compute; reflexivity|split; [exact toy4_ok|vm_compute; discriminate]]|reflexivity]).
Qed.

Definition hash70_bytes : list Z := 137 :: rest70.
(** one run; other machines do the same *)
Lemma run_sign : forall rng,
  match (D <- @small_params U64 2 1 199 0 1 181 1 ;; d <- @from_int U64 13 ;; r <- @sign_with_options U64 false 2 hash70_bytes (mkSk d D) (mkSO true false false false) rng ;; Ret (D, d, r)) with
  | Ret (D, d, Ok (sg, id)) => wf_b U64 d = true /\ @bi_val U64 d = 13 /\ id = HighXEvenY /\ sig_params sg = D /\
      match @recover_with_options U64 sg hash70_bytes (Some LowXEvenY) (mkRO false) with
      | Ret (Ok [pk']) => @bi_val U64 (px (pk_data pk')) = 194 /\ @bi_val U64 (py (pk_data pk')) = 57
      | _ => False
      end
  | _ => False
  end.
Proof. intros rng; vm_compute; repeat split; reflexivity. Qed.
Lemma hash70_ok : bytes hash70_bytes. Proof. unfold hash70_bytes, rest70; repeat constructor; unfold byte; lia. Qed.
Lemma run_any (cfg : digit_cfg) be rng : rng_ok rng -> exists D d fuel sg ks, code_params D /\ params_val D = TOY4 /\ wf d /\ bi_val d = 13 /\
  sign_with_options be fuel hash70_bytes (mkSk d D) (mkSO true false false false) rng = Ret (Ok (sg, HighXEvenY)) /\ sig_params sg = D /\
  recover_with_options sg hash70_bytes (Some LowXEvenY) (mkRO false) = Ret (Ok ks) /\ ks <> [] /\ forall pk', In pk' ks -> pt_val (pk_data pk') = Some (194, 57).
Proof.
  intros HR. destruct (toy4_code U64) as (D & ED & HD & VD). pose proof (run_sign rng) as K. rewrite ED in K. cbn [obind] in K.
  destruct (@from_int U64 13) as [d| |]; cbn [obind] in K; [|contradiction|contradiction].
  destruct (@sign_with_options U64 false 2 hash70_bytes (mkSk d D) (mkSO true false false false) rng) as [[[sg id]|e]| |] eqn:ES; cbn [obind] in K; try contradiction.
  destruct K as (Wd & Vd & -> & SP & K). apply wf_b_ok in Wd.
  destruct (@recover_with_options U64 sg hash70_bytes (Some LowXEvenY) (mkRO false)) as [[[|pk' [|]]|]| |] eqn:ER; try contradiction. destruct K as [X Y].
  assert (EO : @order U64 D = 181) by (change (@order U64 D) with (e_order (@params_val U64 D)); now rewrite VD).
  assert (HK : @code_sk U64 (mkSk d D)). { split; [exact HD|]. split; [exact Wd|]. cbn [sk_data sk_params]. rewrite Vd, EO. lia. }
  assert (SZ : nbits (@order U64 (sk_params (mkSk d D))) < 2 ^ 60) by (cbn [sk_params]; rewrite EO; vm_compute; reflexivity).
  destruct (toy4_code cfg) as (D' & _ & HD' & VD').
  destruct (P_BigInt3.from_i128_spec 13) as (d' & _ & Wd' & Vd'). { change (2 ^ 127) with 170141183460469231731687303715884105728. lia. }
  assert (EO' : order D' = 181) by (change (order D') with (e_order (params_val D')); now rewrite VD').
  assert (HK' : code_sk (mkSk d' D')). { split; [exact HD'|]. split; [exact Wd'|]. cbn [sk_data sk_params]. rewrite Vd', EO'. lia. }
  assert (SZ' : nbits (order (sk_params (mkSk d' D'))) < 2 ^ 60) by (cbn [sk_params]; rewrite EO'; vm_compute; reflexivity).
  set (o := mkSO true false false false) in *.
  assert (EP : @params_val U64 (sk_params (mkSk d D)) = @params_val cfg (sk_params (mkSk d' D'))) by (cbn [sk_params]; now rewrite VD, VD').
  assert (EB : @bi_val U64 (sk_data (mkSk d D)) = @bi_val cfg (sk_data (mkSk d' D'))) by (cbn [sk_data]; now rewrite Vd, Vd').
  destruct (sign_portable U64 cfg false be Sha256 (mkSk d D) (mkSk d' D') hash70_bytes o rng (h_new (hasher_of false Sha256)) (h_new (hasher_of be Sha256)) HK HK' SZ hash70_ok HR
    (new_obj false Sha256) (new_obj be Sha256) EP EB ltac:(discriminate) 2%nat (Ok (sg, HighXEvenY)) ES) as (F & HF).
  destruct (HF F (le_n _)) as (r & ES' & SV). destruct r as [[sg' id']|]; cbn [sign_val] in SV; [|discriminate].
  assert (KV : @bi_val U64 (sig_r sg) = @bi_val cfg (sig_r sg') /\ @bi_val U64 (sig_s sg) = @bi_val cfg (sig_s sg') /\ recid_u8 HighXEvenY = recid_u8 id') by (repeat split; congruence).
  destruct KV as (Vr & Vs & Vi). assert (id' = HighXEvenY) as -> by (destruct id'; [discriminate Vi|discriminate Vi|reflexivity|discriminate Vi]).
  destruct (@signed U64 false Sha256 (mkSk d D) HK SZ hash70_bytes hash70_ok o rng HR 2%nat _ (new_obj false Sha256) sg HighXEvenY ES) as (_ & _ & _ & CS & _).
  destruct (signed be Sha256 (mkSk d' D') HK' SZ' hash70_bytes hash70_ok o rng HR F _ (new_obj be Sha256) sg' HighXEvenY ES') as (_ & _ & _ & CS' & SP' & _). cbn [sk_params] in SP'.
  pose proof (recover_portable U64 cfg sg sg' hash70_bytes (Some LowXEvenY) (mkRO false) CS CS') as RP. rewrite ER in RP.
  specialize (RP ltac:(rewrite SP; change (0 <= e_cofactor (@params_val U64 D) < 2 ^ 32); rewrite VD; vm_compute; split; [discriminate|reflexivity]) hash70_ok ltac:(now rewrite SP, SP') Vr Vs ltac:(discriminate)).
  exists D', d', F, sg'. destruct (recover_with_options sg' hash70_bytes (Some LowXEvenY) (mkRO false)) as [[ks|]| |]; try contradiction.
  exists ks. split; [exact HD'|]. split; [exact VD'|]. split; [exact Wd'|]. split; [exact Vd'|]. split; [exact ES'|]. split; [exact SP'|]. split; [reflexivity|].
  assert (VP : @pt_val U64 (pk_data pk') = Some (194, 57)) by (unfold pt_val; now rewrite X, Y).
  split.
  - intros ->. destruct (proj1 (RP (Some (194, 57)))) as (q & Q & _); [exists pk'; split; [now left|exact VP]|exact Q].
  - intros q Q. destruct (proj2 (RP (pt_val (pk_data q)))) as (q0 & [<-|[]] & E0); [exists q; split; [exact Q|reflexivity]|]. rewrite <- E0. exact VP.
Qed.
Lemma parity_misleads : forall (cfg : digit_cfg) be rng, rng_ok rng -> exists sk pk p m fuel t sg,
  code_sk sk /\ public_key_of sk = Ret pk /\ d_cofactor (sk_params sk) = 1 /\
  payload_ok p /\ PREIMAGE p = Some m /\ sign_payload be fuel rng p sk (mkSO true false false false) = Ret (Ok t) /\
  signature_new (tx_r t) (tx_s t) (sk_params sk) = Ret (Some sg) /\
  (exists id, has_parity t (recid_u8 id)) /\
  (forall id, has_parity t (recid_u8 id) -> exists ks, recover_with_options sg (KECCAK256 m) (Some id) (mkRO false) = Ret (Ok ks) /\
     ks <> [] /\ forall pk', In pk' ks -> pt_val (pk_data pk') <> pt_val (pk_data pk)).
Proof.
  intros cfg be rng HR. destruct (run_any cfg be rng HR) as (D & d & F & sg & ks & HD & VD & Wd & Vd & ES & SP & ER & NE & KS).
  assert (EO : order D = 181) by (change (order D) with (e_order (params_val D)); now rewrite VD).
  assert (HK : code_sk (mkSk d D)). { split; [exact HD|]. split; [exact Wd|]. cbn [sk_data sk_params]. rewrite Vd, EO. lia. }
  assert (SZ : nbits (order (sk_params (mkSk d D))) < 2 ^ 60) by (cbn [sk_params]; rewrite EO; vm_compute; reflexivity).
  destruct (public_key_of_full (mkSk d D) HK) as (pk & EP & (M1 & _ & M2) & _).
  assert (QQ : pt_val (pk_data pk) = Some (58, 127)).
  { rewrite M2. cbn [sk_params sk_data]. rewrite Vd. change (pt_val (d_base D)) with (e_base (params_val D)). change (curve_val (d_curve D)) with (e_curve (params_val D)). rewrite VD, <- femul_ok by reflexivity. vm_compute. reflexivity. }
  pose proof (sign_payload_spec be F rng HR (mkSk d D) HK SZ (mkSO true false false false) payload70 preimage70 (payload70_ok cfg) (preimage70_eq cfg)) as T. cbv zeta in T.
  rewrite hash70 in T. change (137 :: rest70) with hash70_bytes in T. rewrite ES in T. destruct T as (t & ET & _ & Tr & Ts & PA & _).
  exists (mkSk d D), pk, payload70, preimage70, F, t, sg.
  split; [exact HK|]. split; [exact EP|]. split. { change (e_cofactor (params_val D) = 1). now rewrite VD. }
  split; [apply payload70_ok|]. split; [apply preimage70_eq|]. split; [exact ET|].
  assert (HS : code_sig sg).
  { destruct (signed be Sha256 (mkSk d D) HK SZ hash70_bytes hash70_ok (mkSO true false false false) rng HR F _ (new_obj be Sha256) sg HighXEvenY ES) as (_ & _ & _ & CS & _). exact CS. }
  split.
  { cbn [sk_params]. destruct HS as (_ & Wr & Ws & Rr & Rs). rewrite Tr, Ts, signature_new_spec by (assumption || apply HD). rewrite SP in Rr, Rs.
    replace ((1 <=? bi_val (sig_r sg)) && (bi_val (sig_r sg) <=? order D - 1) && ((1 <=? bi_val (sig_s sg)) && (bi_val (sig_s sg) <=? order D - 1)))%bool with true.
    - do 2 f_equal. rewrite <- SP. now destruct sg.
    - symmetry. rewrite !andb_true_iff, !Z.leb_le. lia. }
  assert (PP : forall id, has_parity t (recid_u8 id) -> id = LowXEvenY).
  { intros i Hi. cbn [recid_u8] in PA. change (2 mod 2) with 0 in PA. destruct t as [t|t|t|t]; cbn [has_parity] in *; destruct i; cbn [recid_u8] in *; try reflexivity; exfalso; clear - Hi PA; try lia; try congruence. }
  split. { exists LowXEvenY. exact PA. }
  intros i Hi. exists ks. rewrite (PP i Hi), hash70. split; [exact ER|]. split; [exact NE|]. intros pk' Hp. rewrite (KS pk' Hp), QQ. discriminate.
Qed.

(** A signature that four keys accept. *)

From Coq Require Import Lia.
From Verif Require Import Base M_BigInt M_Curve M_Ecdsa S_BigInt S_Curve S_EcModel S_Ecdsa S_Sign P_EcEx P_EcdsaEx P_TxEx2.
Open Scope Z_scope.

Lemma example_recover_four : forall cfg : digit_cfg, exists sg ks, code_sig sg /\ d_cofactor (sig_params sg) = 1 /\ covers (sig_params sg) /\
  recover_with_options sg [99] None (mkRO true) = Ret (Ok ks) /\ length ks = 4%nat.
Proof.
  intros cfg. destruct (toy4_code cfg) as (D & ED & HD & VD).
  assert (K : match (D <- small_params 2 1 199 0 1 181 1 ;; P <- small_point 2 1 ;; Ret (D, P)) with
              Ret (D, P) => wfb (px P) && wfb (py P) = true /\ bi_val (px P) = 2 /\ bi_val (py P) = 1 /\
                match recover_with_options (mkSig (px P) (py P) D) [99] None (mkRO true) with Ret (Ok [_; _; _; _]) => True | _ => False end | _ => False end).
  { clear. destruct cfg; (vm_compute; repeat split; reflexivity). }
  rewrite ED in K. cbn [obind] in K. destruct (small_point 2 1) as [P| |]; cbn [obind] in K; try contradiction. destruct K as (K1 & V1 & V2 & K2).
  apply andb_true_iff in K1. destruct K1 as [X Y]. apply wfb_ok in X. apply wfb_ok in Y. exists (mkSig (px P) (py P) D).
  destruct (recover_with_options (mkSig (px P) (py P) D) [99] None (mkRO true)) as [[[|k1 [|k2 [|k3 [|k4 [|? ?]]]]]|]| |]; try contradiction. exists [k1; k2; k3; k4].
  assert (EO : order D = 181) by (change (order D) with (e_order (params_val D)); now rewrite VD).
  assert (PP : bi_val (c_p (d_curve D)) = 199) by (change (bi_val (c_p (d_curve D))) with (ep (e_curve (params_val D))); now rewrite VD).
  assert (CF : d_cofactor D = 1) by (change (d_cofactor D) with (e_cofactor (params_val D)); now rewrite VD).
  split. { split; [exact HD|]. cbn [sig_r sig_s sig_params]. rewrite V1, V2, EO. split; [exact X|]. split; [exact Y|]. lia. }
  cbn [sig_params]. split; [exact CF|]. split. { unfold covers. rewrite PP, EO, CF. lia. }
  split; reflexivity.
Qed.

(** y^2 = x^3 + 7x + 15 modulo 19: 21 points; (11, 6) has order 7 *)
Definition TOY5 : eparams := mkEP (mkE 7 15 19) (Some (11, 6)) 7 3.
Lemma toy5_ok : params_ok TOY5.
Proof. apply params_okb_ok. vm_cast_no_check (eq_refl true). Qed.
Lemma toy5_code : forall cfg : digit_cfg, exists D, small_params 7 15 19 11 6 7 3 = Ret D /\ code_params D /\ params_val D = TOY5.
Proof.
  intros []; (eexists; split; [vm_compute; reflexivity|]; split; [split; [apply wfb_params_ok; vm_compute; reflexivity|split; [exact toy5_ok|vm_compute; discriminate]]|reflexivity]).
Qed.
(** The key 2, the hash 1 and the nonce 1 give the signature (4, 2); 4 is 11 and 18 modulo 7. *)
Lemma example_recover_other : forall cfg : digit_cfg, exists sk pk h k sg id k1 k2,
  code_sk sk /\ covers (sk_params sk) /\ recoverable (sk_params sk) /\ public_key_of sk = Ret pk /\ wf h /\ bi_val h = hash_int (order (sk_params sk)) [32] /\
  sk_sign sk h k = Ret (Some (sg, id)) /\
  recover_with_options sg [32] (Some id) (mkRO false) = Ret (Ok [k1; k2]) /\
  pt_val (pk_data k1) = pt_val (pk_data pk) /\ pt_val (pk_data k2) <> pt_val (pk_data pk).
Proof.
  intros cfg. destruct (toy5_code cfg) as (D & ED & HD & VD).
  assert (K : match (D <- small_params 7 15 19 11 6 7 3 ;; P <- small_point 2 1 ;; Ret (D, P)) with
              Ret (D, P) => wfb (px P) && wfb (py P) = true /\ bi_val (px P) = 2 /\ bi_val (py P) = 1 /\
                match public_key_of (mkSk (px P) D) with Ret pk =>
                match sk_sign (mkSk (px P) D) (py P) (py P) with Ret (Some (sg, id)) =>
                match recover_with_options sg [32] (Some id) (mkRO false) with Ret (Ok [k1; k2]) =>
                  epoint_eqb (pt_val (pk_data k1)) (pt_val (pk_data pk)) = true /\ epoint_eqb (pt_val (pk_data k2)) (pt_val (pk_data pk)) = false | _ => False end
                | _ => False end | _ => False end | _ => False end).
  { clear. destruct cfg; (vm_compute; repeat split; reflexivity). }
  rewrite ED in K. cbn [obind] in K. destruct (small_point 2 1) as [P| |]; cbn [obind] in K; try contradiction. destruct K as (K1 & V1 & V2 & K).
  apply andb_true_iff in K1. destruct K1 as [X Y]. apply wfb_ok in X. apply wfb_ok in Y. 
  destruct (public_key_of (mkSk (px P) D)) as [pk| |] eqn:E1; try contradiction.
  destruct (sk_sign (mkSk (px P) D) (py P) (py P)) as [[[sg id]|]| |] eqn:E2; try contradiction.
  destruct (recover_with_options sg [32] (Some id) (mkRO false)) as [[[|k1 [|k2 [|? ?]]]|]| |] eqn:E3; try contradiction. destruct K as [K1 K2].
  assert (EO : order D = 7) by (change (order D) with (e_order (params_val D)); now rewrite VD).
  assert (PP : bi_val (c_p (d_curve D)) = 19) by (change (bi_val (c_p (d_curve D))) with (ep (e_curve (params_val D))); now rewrite VD).
  assert (CF : d_cofactor D = 3) by (change (d_cofactor D) with (e_cofactor (params_val D)); now rewrite VD).
  assert (EC : curve_val (d_curve D) = e_curve TOY5) by (change (curve_val (d_curve D)) with (e_curve (params_val D)); now rewrite VD).
  exists (mkSk (px P) D), pk, (py P), (py P), sg, id, k1, k2. cbn [sk_params sk_data].
  split. { split; [exact HD|]. cbn [sk_data sk_params]. split; [exact X|]. rewrite V1, EO. lia. }
  split. { unfold covers. rewrite PP, EO, CF. lia. }
  split. { split; [rewrite CF; lia|]. right. rewrite EC. apply no2b_ok; [discriminate|]. vm_compute. reflexivity. }
  split; [exact E1|]. split; [exact Y|]. split. { rewrite EO, V2. vm_compute. reflexivity. }
  split; [exact E2|]. split; [exact E3|]. split; [now apply epoint_eqb_ok|]. intros K. apply epoint_eqb_ok in K. congruence.
Qed.

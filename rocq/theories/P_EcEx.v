(** The program's secp256k1 parameters, small example curves, and laws about the program's functions. *)

From Coq Require Import Lia.
From Verif Require Import Base M_BigInt M_Modular M_Curve S_BigInt S_Curve S_EcModel P_BigInt1 P_BigInt3 P_BigInt4 P_Modular P_Curve P_EcModel P_Order P_Secp.
Open Scope Z_scope.

Section WF.
Context {cfg : digit_cfg}.
Definition wfb (x : bigint) : bool :=
  forallb (fun d => (0 <=? d) && (d <? digit_base cfg)) (storage x) &&
  (dlen x <=? length (storage x))%nat &&
  (match firstn (dlen x) (storage x) with [] => false | [_] => true | l => negb (last l 0 =? 0) end) &&
  forallb (fun d => d =? 0) (skipn (dlen x) (storage x)).
Lemma wfb_ok x : wfb x = true -> wf x.
Proof.
  unfold wfb, wf. intros H. apply andb_true_iff in H. destruct H as [H H4]. apply andb_true_iff in H. destruct H as [H H3].
  apply andb_true_iff in H. destruct H as [H1 H2]. split; [|split; [|split]].
  - apply Forall_forall. intros d Hd. apply (proj1 (forallb_forall _ _) H1) in Hd. apply andb_true_iff in Hd. unfold digit. lia.
  - now apply Nat.leb_le.
  - unfold canon. destruct (firstn (dlen x) (storage x)) as [|a [|b l]]; [discriminate| |].
    + split; [discriminate|]. now left.
    + split; [discriminate|]. right. apply negb_true_iff in H3. now apply Z.eqb_neq.
  - apply Forall_forall. intros d Hd. apply (proj1 (forallb_forall _ _) H4) in Hd. now apply Z.eqb_eq.
Qed.
Definition wfb_params (D : params) : bool :=
  wfb (c_a (d_curve D)) && wfb (c_b (d_curve D)) && wfb (c_p (d_curve D)) && wfb (px (d_base D)) && wfb (py (d_base D)) && wfb (d_order D).
Lemma wfb_params_ok D : wfb_params D = true -> wf_params D.
Proof.
  unfold wfb_params. intros H. repeat (apply andb_true_iff in H; let K := fresh "K" in destruct H as [H K]; apply wfb_ok in K). apply wfb_ok in H.
  repeat split; try assumption; apply H || apply K || apply K0 || apply K1 || apply K2 || apply K3.
Qed.
End WF.

Lemma secp_model : forall cfg : digit_cfg, exists D, secp256k1 = Ret D /\ wf_params D /\ params_val D = SECP256K1.
Proof. intros []; (eexists; split; [vm_compute; reflexivity|]; split; [apply wfb_params_ok; vm_compute; reflexivity|vm_compute; reflexivity]). Qed.
Lemma secp_code : forall cfg : digit_cfg, exists D, secp256k1 = Ret D /\ code_params D /\ params_val D = SECP256K1 /\ params_ok SECP256K1.
Proof.
  intros cfg. destruct (secp_model cfg) as (D & H1 & H2 & H3). exists D. split; [exact H1|]. split; [|split; [exact H3|exact secp_params_ok]].
  split; [exact H2|]. rewrite H3. split; [exact secp_params_ok|]. change (curve_val (d_curve D)) with (e_curve (params_val D)). rewrite H3. vm_compute. discriminate.
Qed.

(** ** Checking small parameters by enumeration *)
Definition on_curveb (C : ecurve) (P : epoint) : bool :=
  match P with None => true | Some (x, y) => (0 <=? x) && (x <? ep C) && (0 <=? y) && (y <? ep C) && ((y * y) mod ep C =? (x * x * x + ea C * x + eb C) mod ep C) end.
Lemma on_curveb_ok C P : on_curveb C P = true <-> on_curve C P.
Proof. destruct P as [[x y]|]; cbn; [|tauto]. rewrite !andb_true_iff, !Z.leb_le, !Z.ltb_lt, Z.eqb_eq. tauto. Qed.
Definition epoint_eqb (P Q : epoint) : bool := if epoint_dec P Q then true else false.
Lemma epoint_eqb_ok P Q : epoint_eqb P Q = true <-> P = Q.
Proof. unfold epoint_eqb. destruct (epoint_dec P Q); split; congruence. Qed.
Definition all_points (C : ecurve) : list epoint :=
  None :: filter (on_curveb C) (flat_map (fun x => map (fun y => Some (x, y)) (upto (ep C))) (upto (ep C))).
Lemma all_points_ok C P : 0 <= ep C -> on_curve C P -> In P (all_points C).
Proof.
  intros HP H. destruct P as [[x y]|]; [|now left]. right. apply filter_In. split; [|now apply on_curveb_ok].
  destruct H as (Hx & Hy & _). apply in_flat_map. exists x. split; [now apply upto_in|]. apply in_map_iff. exists y. split; [reflexivity|]. now apply upto_in.
Qed.
Definition primeb (n : Z) : bool := (1 <? n) && trial (Z.to_nat n) 2 n.
Lemma primeb_ok n : primeb n = true -> prime n.
Proof. unfold primeb. intros H. apply andb_true_iff in H. destruct H as [H1 H2]. apply (trial_prime (Z.to_nat n)); [lia|exact H2]. Qed.
Definition params_okb (D : eparams) : bool :=
  let C := e_curve D in
  primeb (ep C) && (3 <? ep C) && negb ((4 * ea C * ea C * ea C + 27 * eb C * eb C) mod ep C =? 0) &&
  primeb (e_order D) && (2 <? e_order D) && on_curveb C (e_base D) && negb (epoint_eqb (e_base D) None) &&
  epoint_eqb (emul C (e_order D) (e_base D)) None &&
  forallb (fun P => implb ((e_cofactor D =? 1) || epoint_eqb (emul C (e_order D) P) None)
                          (existsb (fun k => epoint_eqb P (emul C k (e_base D))) (upto (e_order D)))) (all_points C).
Lemma params_okb_ok D : params_okb D = true -> params_ok D.
Proof.
  unfold params_okb. intros H. do 8 (apply andb_true_iff in H; let K := fresh "K" in destruct H as [H K]).
  apply primeb_ok in H. apply Z.ltb_lt in K6. apply negb_true_iff, Z.eqb_neq in K5. apply primeb_ok in K4. apply Z.ltb_lt in K3.
  apply on_curveb_ok in K2. apply epoint_eqb_ok in K0. split; [split; [assumption|split; assumption]|]. split; [assumption|]. split; [assumption|]. split; [assumption|].
  split. { intros E. rewrite E in K1. discriminate. }
  split; [assumption|]. intros P HP HO. pose proof (proj1 (forallb_forall _ _) K P) as KP. cbn beta in KP.
  specialize (KP (all_points_ok (e_curve D) P ltac:(lia) HP)).
  assert (HT : (e_cofactor D =? 1) || epoint_eqb (emul (e_curve D) (e_order D) P) None = true).
  { destruct (Z.eqb_spec (e_cofactor D) 1) as [|N]; [reflexivity|]. cbn [orb]. apply epoint_eqb_ok. now apply HO. }
  rewrite HT in KP. cbn [implb] in KP. apply existsb_exists in KP. destruct KP as (k & Hk & Ek). apply epoint_eqb_ok in Ek.
  exists k. split; [now apply upto_in in Hk; [|lia]|assumption].
Qed.

(** y^2 = x^3 + 2x + 2 modulo 17: 19 points, generated by (5, 1) *)
Definition TOY : eparams := mkEP (mkE 2 2 17) (Some (5, 1)) 19 1.
Lemma toy_ok : params_ok TOY.
Proof. apply params_okb_ok. vm_cast_no_check (eq_refl true). Qed.
Lemma toy_code : forall cfg : digit_cfg, exists D, small_params 2 2 17 5 1 19 1 = Ret D /\ code_params D /\ params_val D = TOY.
Proof.
  intros []; (eexists; split; [vm_compute; reflexivity|]; split; [split; [apply wfb_params_ok; vm_compute; reflexivity|split; [exact toy_ok|vm_compute; discriminate]]|reflexivity]).
Qed.
(** y^2 = x^3 + x + 4 modulo 17: 14 points; (4, 2) has order 7, (3, 0) has order 2 *)
Definition TOY2 : eparams := mkEP (mkE 1 4 17) (Some (4, 2)) 7 2.
Lemma toy2_ok : params_ok TOY2.
Proof. apply params_okb_ok. vm_cast_no_check (eq_refl true). Qed.
Lemma toy2_code : forall cfg : digit_cfg, exists D, small_params 1 4 17 4 2 7 2 = Ret D /\ code_params D /\ params_val D = TOY2.
Proof.
  intros []; (eexists; split; [vm_compute; reflexivity|]; split; [split; [apply wfb_params_ok; vm_compute; reflexivity|split; [exact toy2_ok|vm_compute; discriminate]]|reflexivity]).
Qed.

(** Laws about the program's point functions, from their specifications. *)

From Coq Require Import Lia.
From Verif Require Import Base M_BigInt M_Modular M_Curve S_BigInt S_Curve S_EcModel P_BigInt1 P_BigInt3 P_BigInt4 P_Modular P_Curve P_EcModel P_Order P_Secp P_EcEx.
Open Scope Z_scope.

Lemma group_law C : curve_ok C ->
  (forall P Q, on_curve C P -> on_curve C Q -> on_curve C (eadd C P Q)) /\
  (forall P Q, on_curve C P -> on_curve C Q -> eadd C P Q = eadd C Q P) /\
  (forall P Q R, on_curve C P -> on_curve C Q -> on_curve C R -> eadd C (eadd C P Q) R = eadd C P (eadd C Q R)) /\
  (forall P, on_curve C P -> eadd C P None = P /\ eadd C None P = P) /\
  (forall P, on_curve C P -> on_curve C (eneg C P) /\ eadd C P (eneg C P) = None).
Proof.
  intros OK. split; [|split; [|split; [|split]]]; intros.
  - now apply eadd_closed.
  - now apply eadd_comm.
  - now apply eadd_assoc.
  - split; [apply eadd_0_r|apply eadd_0_l].
  - split; [now apply eneg_closed|now apply eadd_neg].
Qed.

Section Laws.
Context {cfg : digit_cfg}.
Lemma add_full C P Q : code_curve C -> code_point C P -> code_point C Q ->
  ~ (pt_val P = pt_val Q /\ two_torsion (pt_val P)) ->
  exists R, add_points C P Q = Ret R /\ code_point C R /\ pt_val R = eadd (curve_val C) (pt_val P) (pt_val Q).
Proof.
  intros HC HP HQ N. destruct (add_points_spec C HC P Q HP HQ N) as (R & H1 & H2 & H3). exists R. split; [exact H1|]. split; [|exact H3].
  split; [exact H2|]. rewrite H3. apply eadd_closed; [apply HC|apply HP|apply HQ].
Qed.
Lemma double_full C P : code_curve C -> code_point C P -> ~ two_torsion (pt_val P) ->
  exists R, double_point C P = Ret R /\ code_point C R /\ pt_val R = eadd (curve_val C) (pt_val P) (pt_val P).
Proof.
  intros HC HP N. destruct (double_point_spec C HC P HP N) as (R & H1 & H2 & H3). exists R. split; [exact H1|]. split; [|exact H3].
  split; [exact H2|]. rewrite H3. apply eadd_closed; [apply HC|apply HP|apply HP].
Qed.
Lemma add_panic_iff C P Q : code_curve C -> code_point C P -> code_point C Q ->
  (add_points C P Q = Panic <-> pt_val P = pt_val Q /\ two_torsion (pt_val P)).
Proof.
  intros HC HP HQ. split; [|intros [? ?]; now apply add_points_panics].
  intros H. destruct (epoint_dec (pt_val P) (pt_val Q)) as [E|E]; [destruct (two_torsion_dec (pt_val P)) as [T|T]; [auto|]|];
  destruct (add_points_spec C HC P Q HP HQ) as (R & H1 & _); tauto || congruence.
Qed.
Lemma double_panic_iff C P : code_curve C -> code_point C P -> (double_point C P = Panic <-> two_torsion (pt_val P)).
Proof.
  intros HC HP. split; [|intros ?; now apply double_point_panics].
  intros H. destruct (two_torsion_dec (pt_val P)) as [T|T]; [assumption|]. destruct (double_point_spec C HC P HP T) as (R & H1 & _). congruence.
Qed.

Lemma laws C : code_curve C -> no_two_torsion (curve_val C) ->
  (forall P Q, code_point C P -> code_point C Q ->
     (exists R, add_points C P Q = Ret R /\ code_point C R) /\ same_point (add_points C P Q) (add_points C Q P)) /\
  (forall P, code_point C P -> same_point (double_point C P) (add_points C P P)) /\
  (forall P Q R, code_point C P -> code_point C Q -> code_point C R ->
     same_point (pq <- add_points C P Q ;; add_points C pq R) (qr <- add_points C Q R ;; add_points C P qr)) /\
  (forall P, code_point C P -> same_point (o <- identity_element ;; add_points C P o) (Ret P) /\
                               same_point (o <- identity_element ;; add_points C o P) (Ret P)) /\
  (forall P N, code_point C P -> wf_point N -> pt_val N = eneg (curve_val C) (pt_val P) -> same_point (add_points C P N) identity_element).
Proof.
  intros HC NT. pose proof (proj1 (proj2 HC)) as OK.
  assert (A : forall P Q, code_point C P -> code_point C Q -> exists R, add_points C P Q = Ret R /\ code_point C R /\ pt_val R = eadd (curve_val C) (pt_val P) (pt_val Q)).
  { intros P Q HP HQ. apply add_full; try assumption. intros [_ T]. exact (NT _ (proj2 HP) T). }
  assert (S : forall P Q A B, P = Ret A -> Q = Ret B -> code_point C A -> code_point C B -> pt_val A = pt_val B -> same_point P Q).
  { intros P Q X Y -> -> HX HY E. exists X, Y. split; [reflexivity|]. split; [reflexivity|]. apply same_pt; [apply HX|apply HY|exact E]. }
  assert (ID : exists o, identity_element = Ret o /\ code_point C o /\ pt_val o = None).
  { destruct (identity_spec (cfg:=cfg)) as (o & H1 & H2 & H3). exists o. split; [exact H1|]. split; [|exact H3]. split; [exact H2|]. now rewrite H3. }
  split; [|split; [|split; [|split]]].
  - intros P Q HP HQ. destruct (A P Q HP HQ) as (R & H1 & H2 & H3). destruct (A Q P HQ HP) as (R' & H1' & H2' & H3'). split; [eauto|].
    eapply S; eauto. rewrite H3, H3'. apply eadd_comm; [assumption|apply HP|apply HQ].
  - intros P HP. destruct (A P P HP HP) as (R & H1 & H2 & H3). destruct (double_full C P HC HP (NT _ (proj2 HP))) as (R' & H1' & H2' & H3').
    eapply S; eauto. congruence.
  - intros P Q R HP HQ HR. destruct (A P Q HP HQ) as (X & -> & X2 & X3). destruct (A Q R HQ HR) as (Y & -> & Y2 & Y3). cbn [obind].
    destruct (A X R X2 HR) as (U & U1 & U2 & U3). destruct (A P Y HP Y2) as (V & V1 & V2 & V3). eapply S; eauto.
    rewrite U3, V3, X3, Y3. apply eadd_assoc; [assumption|apply HP|apply HQ|apply HR].
  - intros P HP. destruct ID as (o & -> & Ho & Vo). cbn [obind]. destruct (A P o HP Ho) as (X & X1 & X2 & X3). destruct (A o P Ho HP) as (Y & Y1 & Y2 & Y3).
    split; eapply S; eauto. + rewrite X3, Vo. apply eadd_0_r. + rewrite Y3, Vo. apply eadd_0_l.
  - intros P N HP WN VN. destruct ID as (o & -> & Ho & Vo).
    assert (HN : code_point C N). { split; [assumption|]. rewrite VN. apply eneg_closed; [assumption|apply HP]. }
    destruct (A P N HP HN) as (X & X1 & X2 & X3). eapply S; eauto. rewrite X3, VN, Vo. apply eadd_neg; [assumption|apply HP].
Qed.

Lemma mul_full C P k : code_curve C -> code_point C P -> wf k -> 0 <= bi_val k ->
  (forall i, 0 <= i -> 2 ^ i <= bi_val k -> ~ two_torsion (emul (curve_val C) (2 ^ i) (pt_val P))) ->
  exists R, mul_point C P k = Ret R /\ code_point C R /\ pt_val R = emul (curve_val C) (bi_val k) (pt_val P).
Proof.
  intros HC HP Wk Hk NT. destruct (mul_point_sharp C HC P k HP Wk Hk NT) as (R & H1 & H2 & H3). exists R. split; [exact H1|]. split; [|exact H3].
  split; [exact H2|]. rewrite H3. apply emul_closed; [apply HC|apply HP].
Qed.
Lemma mul_panic_if C P k : code_curve C -> code_point C P -> wf k -> 0 <= bi_val k ->
  (exists i, 0 <= i /\ 2 ^ i <= bi_val k /\ two_torsion (emul (curve_val C) (2 ^ i) (pt_val P))) -> mul_point C P k = Panic.
Proof. intros HC HP Wk Hk (i & H1 & H2 & H3). eapply mul_point_panics; eauto. Qed.
Lemma mul_odd C P m k : code_curve C -> code_point C P -> 0 < m -> Z.odd m = true -> emul (curve_val C) m (pt_val P) = None ->
  wf k -> 0 <= bi_val k ->
  exists R, mul_point C P k = Ret R /\ code_point C R /\ pt_val R = emul (curve_val C) (bi_val k) (pt_val P).
Proof.
  intros HC HP Hm Om Z0 Wk Hk. apply mul_full; try assumption. intros i Hi _. eapply odd_order; try eassumption; [apply HP|]. apply Z.pow_nonneg. lia.
Qed.
Lemma mul_laws C P m : code_curve C -> code_point C P -> 0 < m -> Z.odd m = true -> emul (curve_val C) m (pt_val P) = None ->
  forall a b s t, wf a -> wf b -> wf s -> wf t -> 0 <= bi_val a -> 0 <= bi_val b -> bi_val s = bi_val a + bi_val b -> bi_val t = bi_val a * bi_val b ->
  same_point (mul_point C P s) (A <- mul_point C P a ;; B <- mul_point C P b ;; add_points C A B) /\
  same_point (mul_point C P t) (B <- mul_point C P b ;; mul_point C B a).
Proof.
  intros HC HP Hm Om Z0 a b s t Wa Wb Ws Wt Ha Hb Es Et. pose proof (proj1 (proj2 HC)) as OK. pose proof (proj2 HP) as OP.
  destruct (mul_odd C P m a HC HP Hm Om Z0 Wa Ha) as (A & -> & A2 & A3).
  destruct (mul_odd C P m b HC HP Hm Om Z0 Wb Hb) as (B & -> & B2 & B3).
  destruct (mul_odd C P m s HC HP Hm Om Z0 Ws ltac:(lia)) as (S & -> & S2 & S3).
  destruct (mul_odd C P m t HC HP Hm Om Z0 Wt ltac:(nia)) as (T & -> & T2 & T3). cbn [obind].
  assert (ZB : emul (curve_val C) m (pt_val B) = None).
  { rewrite B3, <- (emul_mul _ OK) by (assumption || lia). rewrite Z.mul_comm, (emul_mul _ OK) by (assumption || lia). rewrite Z0. apply emul_None. }
  destruct (mul_odd C B m a HC B2 Hm Om ZB Wa Ha) as (U & -> & U2 & U3).
  destruct (add_full C A B HC A2 B2) as (V & -> & V2 & V3).
  { intros [_ X]. rewrite A3 in X. revert X. now apply (odd_order C HC m). }
  split.
  - exists S, V. split; [reflexivity|]. split; [reflexivity|]. apply same_pt; [apply S2|apply V2|]. rewrite S3, V3, A3, B3, Es. apply emul_add; assumption.
  - exists T, U. split; [reflexivity|]. split; [reflexivity|]. apply same_pt; [apply T2|apply U2|]. rewrite T3, U3, B3, Et. apply emul_mul; assumption.
Qed.
Lemma scalar_laws C : curve_ok C -> forall P a b, on_curve C P -> 0 <= a -> 0 <= b ->
  emul C (a + b) P = eadd C (emul C a P) (emul C b P) /\ emul C (a * b) P = emul C a (emul C b P) /\
  emul C 0 P = None /\ emul C 1 P = P /\ on_curve C (emul C a P).
Proof.
  intros OK P a b HP Ha Hb. split; [now apply emul_add|]. split; [now apply emul_mul|]. split; [apply emul_0|]. split; [apply emul_1|]. now apply emul_closed.
Qed.

(** ** secp256k1 *)
Lemma secp_no_two D : secp256k1 = Ret D -> code_curve (d_curve D) /\ no_two_torsion (curve_val (d_curve D)).
Proof.
  intros H. destruct (secp_code cfg) as (D' & H' & (W & (OK & _) & B0) & V & _). rewrite H in H'. injection H' as <-.
  split. { split; [apply W|]. split; [exact OK|exact B0]. }
  change (curve_val (d_curve D)) with (e_curve (params_val D)). rewrite V. intros P. apply secp_no2.
Qed.
Lemma secp_mul D P k : secp256k1 = Ret D -> code_point (d_curve D) P -> wf k -> 0 <= bi_val k ->
  exists R, mul_point (d_curve D) P k = Ret R /\ code_point (d_curve D) R /\ pt_val R = emul (curve_val (d_curve D)) (bi_val k) (pt_val P).
Proof.
  intros H HP Wk Hk. destruct (secp_no_two D H) as [HC NT]. apply mul_full; try assumption. intros i Hi _. apply NT. apply emul_closed; [apply HC|apply HP].
Qed.
End Laws.

Lemma refuted23 : forall cfg : digit_cfg, exists D P, small_params 1 4 17 4 2 7 2 = Ret D /\ small_point 3 0 = Ret P /\
  code_params D /\ code_curve (d_curve D) /\ code_point (d_curve D) P /\ pt_val P <> None /\
  double_point (d_curve D) P = Panic /\ add_points (d_curve D) P P = Panic /\ (o <- bi_one ;; mul_point (d_curve D) P o) = Panic.
Proof.
  intros cfg. destruct (toy2_code cfg) as (D & H1 & H2 & H3).
  destruct cfg; (exists D; eexists; split; [exact H1|]; split; [vm_compute; reflexivity|]; split; [exact H2|];
   split; [split; [apply H2|split; [apply H2|apply H2]]|]; clear H3; vm_compute in H1; injection H1 as <-;
   split; [split; [split; apply wfb_ok; vm_compute; reflexivity|apply on_curveb_ok; vm_compute; reflexivity]|]; split; [vm_compute; discriminate|];
   split; [vm_compute; reflexivity|]; split; [vm_compute; reflexivity|vm_compute; reflexivity]).
Qed.
(** y^2 = x^3 + 2 x modulo 17: (0, 0) is a point of the curve, and so is (4, 2) *)
Lemma refuted23_b0 : forall cfg : digit_cfg, exists D P R, small_params 2 0 17 4 2 3 1 = Ret D /\ small_point 0 0 = Ret P /\
  wf_params D /\ curve_ok (curve_val (d_curve D)) /\ on_curve (curve_val (d_curve D)) (Some (0, 0)) /\ on_curve (curve_val (d_curve D)) (Some (4, 2)) /\
  add_points (d_curve D) P (d_base D) = Ret R /\ pt_val R = Some (4, 2) /\ eadd (curve_val (d_curve D)) (Some (0, 0)) (Some (4, 2)) <> Some (4, 2).
Proof.
  intros []; (eexists; eexists; eexists; split; [vm_compute; reflexivity|]; split; [vm_compute; reflexivity|]);
  (split; [apply wfb_params_ok; vm_compute; reflexivity|]);
  (split; [split; [apply primeb_ok; vm_compute; reflexivity|]; split; [vm_compute; reflexivity|vm_compute; discriminate]|]);
  (split; [apply on_curveb_ok; vm_compute; reflexivity|]); (split; [apply on_curveb_ok; vm_compute; reflexivity|]);
  (split; [vm_compute; reflexivity|]; split; [vm_compute; reflexivity|vm_compute; discriminate]).
Qed.
(** on the 19-point curve: (5, 1) + (5, 1) = (6, 3), (6, 3) + (5, 1) = (10, 6), 7 (5, 1) = (0, 6) *)
Lemma toy_sums : forall cfg : digit_cfg, exists D P2 P3 P7, small_params 2 2 17 5 1 19 1 = Ret D /\ code_params D /\ code_curve (d_curve D) /\
  no_two_torsion (curve_val (d_curve D)) /\ code_point (d_curve D) (d_base D) /\
  add_points (d_curve D) (d_base D) (d_base D) = Ret P2 /\ pt_val P2 = Some (6, 3) /\
  add_points (d_curve D) P2 (d_base D) = Ret P3 /\ pt_val P3 = Some (10, 6) /\
  (k <- from_int 7 ;; mul_point (d_curve D) (d_base D) k) = Ret P7 /\ pt_val P7 = Some (0, 6).
Proof.
  assert (K : forall P, on_curve (mkE 2 2 17) P -> ~ two_torsion P).
  { assert (KB : forallb (fun P => match P with Some (_, 0) => false | _ => true end) (all_points (mkE 2 2 17)) = true) by (vm_compute; reflexivity).
    intros P HP [x ->]. apply (all_points_ok (mkE 2 2 17)) in HP; [|cbn; lia]. apply (proj1 (forallb_forall _ _) KB) in HP. discriminate. }
  intros cfg. destruct (toy_code cfg) as (D & H1 & H2 & H3).
  assert (K' : no_two_torsion (curve_val (d_curve D))) by (change (curve_val (d_curve D)) with (e_curve (params_val D)); rewrite H3; exact K).
  destruct cfg;
  (eexists D; eexists; eexists; eexists; split; [exact H1|]; split; [exact H2|]; split; [split; [apply H2|split; [apply H2|apply H2]]|];
   split; [exact K'|]; split; [split; [apply H2|apply H2]|];
   clear K' H3; vm_compute in H1; injection H1 as <-; split; [vm_compute; reflexivity|]; split; [vm_compute; reflexivity|]; split; [vm_compute; reflexivity|];
   split; [vm_compute; reflexivity|]; split; [vm_compute; reflexivity|]; vm_compute; reflexivity).
Qed.

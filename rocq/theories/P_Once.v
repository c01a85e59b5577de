(** Proofs for C72: secp256k1() in threads. *)

From Verif Require Import Base M_BigInt M_Curve M_Once S_BigInt S_Curve S_EcModel S_Once.
From Verif Require P_EcEx.
Open Scope Z_scope.

Lemma part_eqb_spec p q : part_eqb p q = true <-> p = q.
Proof. destruct p, q; cbn; split; congruence. Qed.
Lemma part_dec (p q : part) : {p = q} + {p <> q}.
Proof. decide equality. Qed.
Lemma without_in p q l : In q (without p l) <-> In q l /\ q <> p.
Proof.
  unfold without. rewrite filter_In. destruct (part_eqb q p) eqn:E; cbn [negb].
  - apply part_eqb_spec in E. split; [intros [_ ?]; discriminate|intros [_ ?]; contradiction].
  - split; [|tauto]. intros [H _]. split; [exact H|]. intros ->. destruct p; discriminate.
Qed.
Lemma without_length p l : In p l -> (length (without p l) < length l)%nat.
Proof.
  induction l as [|q l IH]; [intros []|]. intros H. unfold without. cbn [filter].
  assert (L : forall m, (length (filter (fun q => negb (part_eqb q p)) m) <= length m)%nat).
  { induction m as [|x m IHm]; [cbn; lia|]. cbn [filter]. destruct (negb (part_eqb x p)); cbn [length]; lia. }
  destruct (part_eqb q p) eqn:E; cbn [negb length].
  - specialize (L l). lia.
  - destruct H as [->|H]; [destruct p; discriminate|]. specialize (IH H). unfold without in IH. lia.
Qed.
Lemma set_same l t x : set_local l t x t = x.
Proof. unfold set_local. now rewrite Nat.eqb_refl. Qed.
Lemma set_other l t x u : u <> t -> set_local l t x u = l u.
Proof. intros H. unfold set_local. destruct (Nat.eqb_spec u t); [contradiction|reflexivity]. Qed.

Section WithCfg.
Context {cfg : digit_cfg} (d : params) (built : secp256k1 = Ret d).

Definition idle (x : local) : Prop := x = Outside \/ x = AtOnce.
Definition quiet (e : list event) : Prop := forall u, ~ In (EReturned u) e.
Definition right_uses (e : list event) : Prop := forall t p c, In (EUsed t p c) e -> c = stored d p.
Definition builds (e : list event) : list event := filter (fun x => match x with EBuilt _ => true | _ => false end) e.
Definition inv (s : state) : Prop :=
  right_uses (st_events s) /\
  match st_once s with
  | Incomplete => (forall t, idle (st_local s t)) /\ (forall p, st_memory s p = memory_init p) /\ quiet (st_events s) /\ builds (st_events s) = []
  | Running => exists r, (forall t, t <> r -> idle (st_local s t)) /\ quiet (st_events s) /\
      (st_local s r = Building /\ builds (st_events s) = [] \/
       exists todo, st_local s r = Writing d todo /\ builds (st_events s) = [EBuilt r] /\ forall p, ~ In p todo -> st_memory s p = stored d p)
  | Complete => (forall t, idle (st_local s t) \/ st_local s t = AtRead) /\ (forall p, st_memory s p = stored d p) /\ length (builds (st_events s)) = 1%nat
  | Poisoned => False
  end.

Lemma inv_init : inv initial.
Proof. split; [intros ? ? ? []|]. cbn. split; [intros t; left; reflexivity|]. split; [reflexivity|]. split; [intros u []|reflexivity]. Qed.

Ltac other t u := destruct (Nat.eq_dec u t) as [->|?]; [rewrite ?set_same in *|rewrite ?set_other in * by assumption].
Lemma inv_step t s s' : step t s s' -> inv s -> inv s'.
Proof.
  intros St [U I]. destruct St as [o m l e Hl|m l e Hl|m l e Hl|m l e Hl|o m l e d' Hl Hb|o m l e Hl Hb|o m l e d' todo p Hl Hp|o m l e d' Hl|o m l e Hl Hm|o m l e Hl Hm|o m l e u p Hl Hr];
    cbn [st_once st_memory st_local st_events] in *.
  - (* call *)
    split; [exact U|]. cbn [st_once st_memory st_local st_events]. destruct o; [| | |exact I].
    + destruct I as (A & B & C & D). split; [|auto]. intros u. other t u; [right; reflexivity|apply A].
    + destruct I as (r & A & C & D). assert (t <> r). { intros ->. destruct D as [[D _]|(todo & D & _)]; congruence. }
      exists r. split; [|split; [exact C|]].
      * intros u Hu. other t u; [right; reflexivity|apply A; assumption].
      * rewrite set_other by congruence. exact D.
    + destruct I as (A & B). split; [|exact B]. intros u. other t u; [left; right; reflexivity|apply A].
  - (* first *)
    destruct I as (A & B & C & D). split; [exact U|]. cbn. exists t. split; [|split; [exact C|left; split; [apply set_same|exact D]]].
    intros u Hu. rewrite set_other by assumption. apply A.
  - (* done *)
    destruct I as (A & B). split; [exact U|]. cbn. split; [|exact B]. intros u. other t u; [right; reflexivity|apply A].
  - destruct I.
  - (* build *)
    assert (d' = d) by congruence. subst d'.
    destruct o; [destruct I as (A & _); destruct (A t); congruence| |destruct I as (A & _); destruct (A t) as [[?|?]|?]; congruence|destruct I].
    destruct I as (r & A & C & D). destruct (Nat.eq_dec t r) as [->|N]; [|destruct (A t N); congruence].
    destruct D as [[_ D]|(todo & D & _)]; [|congruence]. split.
    + intros u p c [H|H]; [discriminate|]. exact (U u p c H).
    + cbn [st_once st_memory st_local st_events]. exists r. split; [intros u Hu; rewrite set_other by assumption; apply A; assumption|].
      split; [intros u [H|H]; [discriminate|exact (C u H)]|]. right. exists parts. split; [apply set_same|].
      split; [unfold builds in *; cbn [filter]; rewrite D; reflexivity|]. intros p N. exfalso. apply N. destruct p; cbn; tauto.
  - congruence.
  - (* write *)
    destruct o; [destruct I as (A & _); destruct (A t); congruence| |destruct I as (A & _); destruct (A t) as [[?|?]|?]; congruence|destruct I].
    destruct I as (r & A & C & D). destruct (Nat.eq_dec t r) as [->|N]; [|destruct (A t N); congruence].
    destruct D as [[D _]|(todo' & D & E & F)]; [congruence|]. assert (d' = d /\ todo' = todo) as [-> ->] by (split; congruence).
    split; [exact U|]. cbn [st_once st_memory st_local st_events]. exists r. split; [intros u Hu; rewrite set_other by assumption; apply A; assumption|].
    split; [exact C|]. right. exists (without p todo). split; [apply set_same|]. split; [exact E|].
    intros q Hq. rewrite without_in in Hq. unfold store. destruct (part_eqb q p) eqn:Eq; [apply part_eqb_spec in Eq; congruence|].
    apply F. intros Hi. apply Hq. split; [exact Hi|]. intros ->. destruct p; discriminate.
  - (* written *)
    destruct o; [destruct I as (A & _); destruct (A t); congruence| |destruct I as (A & _); destruct (A t) as [[?|?]|?]; congruence|destruct I].
    destruct I as (r & A & C & D). destruct (Nat.eq_dec t r) as [->|N]; [|destruct (A t N); congruence].
    destruct D as [[D _]|(todo' & D & E & F)]; [congruence|]. assert (todo' = []) as -> by congruence.
    split; [exact U|]. cbn [st_once st_memory st_local st_events]. split; [|split; [intros p; apply F; intros []|rewrite E; reflexivity]].
    intros u. other r u; [right; reflexivity|left; apply A; assumption].
  - (* read *)
    destruct o; [destruct I as (A & _); destruct (A t); congruence| | |destruct I].
    + destruct I as (r & A & C & D). destruct (Nat.eq_dec t r) as [->|N]; [|destruct (A t N); congruence].
      destruct D as [[D _]|(todo' & D & E & F)]; congruence.
    + destruct I as (A & B & C). split; [intros u p c [H|H]; [discriminate|exact (U u p c H)]|]. cbn [st_once st_memory st_local st_events].
      split; [|split; [exact B|exact C]]. intros u. other t u; [left; left; reflexivity|apply A].
  - (* no panic *)
    destruct o; [destruct I as (A & _); destruct (A t); congruence| | |destruct I].
    + destruct I as (r & A & C & D). destruct (Nat.eq_dec t r) as [->|N]; [|destruct (A t N); congruence].
      destruct D as [[D _]|(todo' & D & E & F)]; congruence.
    + destruct I as (A & B & C). exfalso. apply Hm. rewrite B. reflexivity.
  - (* use *)
    destruct o; [destruct I as (A & _ & C & _); destruct (C u Hr)|destruct I as (r & _ & C & _); destruct (C u Hr)| |destruct I].
    destruct I as (A & B & C). split.
    + intros v q c [H|H]; [injection H as _ <- <-; apply B|exact (U v q c H)].
    + cbn [st_once st_memory st_local st_events]. split; [exact A|]. split; [exact B|exact C].
Qed.
Lemma inv_reachable s : reachable s -> inv s.
Proof.
  intros R. unfold reachable in R. remember initial as s0 eqn:E. induction R as [s|s s' s'' t R IH St]; subst; [apply inv_init|].
  eapply inv_step; [exact St|apply IH; reflexivity].
Qed.

(** * What follows *)
Lemma no_panic s t : reachable s -> st_local s t <> Panicked.
Proof.
  intros R. destruct (inv_reachable s R) as [_ I]. destruct (st_once s); [| | |destruct I].
  - destruct I as (A & _). destruct (A t); congruence.
  - destruct I as (r & A & _ & D). destruct (Nat.eq_dec t r) as [->|N]; [|destruct (A t N); congruence].
    destruct D as [[D _]|(todo' & D & _)]; congruence.
  - destruct I as (A & _). destruct (A t) as [[?|?]|?]; congruence.
Qed.
Lemma uses s t p c : reachable s -> In (EUsed t p c) (st_events s) -> c = stored d p.
Proof. intros R. destruct (inv_reachable s R) as [U _]. apply U. Qed.
Lemma once_only s : reachable s -> (length (builds (st_events s)) <= 1)%nat.
Proof.
  intros R. destruct (inv_reachable s R) as [_ I]. destruct (st_once s); [| | |destruct I].
  - destruct I as (_ & _ & _ & ->). cbn. lia.
  - destruct I as (r & _ & _ & [[_ ->]|(todo & _ & -> & _)]); cbn; lia.
  - destruct I as (_ & _ & ->). lia.
Qed.
Lemma no_race s : reachable s -> ~ race s.
Proof.
  intros R (t & u & p & N & (d' & todo & Ht & Hp) & Hu). destruct (inv_reachable s R) as [_ I]. destruct (st_once s); [| | |destruct I].
  - destruct I as (A & _). destruct (A t); congruence.
  - destruct I as (r & A & C & D). destruct (Nat.eq_dec t r) as [->|Nt]; [|destruct (A t Nt); congruence].
    pose proof (A u ltac:(congruence)) as Au. destruct Hu as [(e & td & Hu & _)|[[Hu _]|[Hu (v & Hv)]]]; [destruct Au; congruence..|].
    exact (C v Hv).
  - destruct I as (A & _). destruct (A t) as [[?|?]|?]; congruence.
Qed.
(** a returned reference stays good *)
Lemma returned_complete s u : reachable s -> In (EReturned u) (st_events s) -> forall p, st_memory s p = stored d p.
Proof.
  intros R Hu. destruct (inv_reachable s R) as [_ I]. destruct (st_once s); [| | |destruct I].
  - destruct I as (_ & _ & C & _). destruct (C u Hu).
  - destruct I as (r & _ & C & _). destruct (C u Hu).
  - apply I.
Qed.

(** * Calls end *)
Definition left (x : local) : nat :=
  match x with AtOnce => 9 | Building => 8 | Writing _ todo => 2 + length todo | AtRead => 1 | _ => 0 end%nat.
Lemma step_left t s s' : step t s s' -> in_call (st_local s t) -> (left (st_local s' t) < left (st_local s t))%nat /\ forall u, u <> t -> st_local s' u = st_local s u.
Proof.
  intros St [N1 N2]. destruct St as [o m l e Hl|m l e Hl|m l e Hl|m l e Hl|o m l e d' Hl Hb|o m l e Hl Hb|o m l e d' todo p Hl Hp|o m l e d' Hl|o m l e Hl Hm|o m l e Hl Hm|o m l e u p Hl Hr];
    cbn [st_local] in *; try congruence; (split; [rewrite set_same, Hl; cbn; try lia|intros u Hu; apply set_other; assumption]).
  pose proof (without_length p todo Hp). lia.
Qed.
Definition total (ts : list nat) (l : nat -> local) : nat := list_sum (map (fun t => left (l t)) ts).
Lemma total_same ts l l' : (forall u, In u ts -> l' u = l u) -> total ts l' = total ts l.
Proof. intros H. unfold total. f_equal. apply map_ext_in. intros u Hu. rewrite H by assumption. reflexivity. Qed.
Lemma total_step ts t l l' : NoDup ts -> In t ts -> (left (l' t) < left (l t))%nat -> (forall u, u <> t -> l' u = l u) -> (total ts l' < total ts l)%nat.
Proof.
  intros ND I L O. induction ND as [|u ts Nu ND IH]; [destruct I|].
  change (total (u :: ts) l') with (left (l' u) + total ts l')%nat. change (total (u :: ts) l) with (left (l u) + total ts l)%nat.
  destruct (Nat.eq_dec u t) as [->|N].
  - assert (total ts l' = total ts l); [|lia]. apply total_same. intros v Hv. apply O. congruence.
  - rewrite (O u N). destruct I as [?|I]; [congruence|]. specialize (IH I). lia.
Qed.
Lemma steps_bound ts n s s' : NoDup ts -> call_steps ts n s s' -> (n + total ts (st_local s') <= total ts (st_local s))%nat.
Proof.
  intros ND. induction 1 as [s|n s s' s'' t R IH I C St]; [lia|]. destruct (step_left t s' s'' St C) as [L O].
  pose proof (total_step ts t _ _ ND I L O). lia.
Qed.
Lemma max_left s t : reachable s -> (left (st_local s t) <= 9)%nat.
Proof.
  intros R. unfold reachable in R. remember initial as s0 eqn:E. revert t. induction R as [s|s s' s'' u R IH St]; intros t; subst; [cbn; lia|].
  specialize (IH eq_refl).
  destruct St as [o m l e Hl|m l e Hl|m l e Hl|m l e Hl|o m l e d' Hl Hb|o m l e Hl Hb|o m l e d' todo p Hl Hp|o m l e d' Hl|o m l e Hl Hm|o m l e Hl Hm|o m l e v p Hl Hr];
    cbn [st_local] in *; try (destruct (Nat.eq_dec t u) as [->|]; [rewrite set_same; cbn; try lia|rewrite set_other by assumption; apply IH]).
  - specialize (IH u). rewrite Hl in IH. cbn in IH. pose proof (without_length p todo Hp). lia.
  - apply IH.
Qed.
Theorem calls_bounded ts n s s' : reachable s -> NoDup ts -> call_steps ts n s s' -> (n <= 9 * length ts)%nat.
Proof.
  intros R ND H. pose proof (steps_bound ts n s s' ND H) as B. assert (T : (total ts (st_local s) <= 9 * length ts)%nat); [|lia].
  clear B H ND. induction ts as [|t ts IH]; [cbn; lia|]. change (total (t :: ts) (st_local s)) with (left (st_local s t) + total ts (st_local s))%nat.
  pose proof (max_left s t R). cbn [length]. lia.
Qed.
Lemma state_eta s : s = mkState (st_once s) (st_memory s) (st_local s) (st_events s).
Proof. destruct s. reflexivity. Qed.
(** Somebody can always go on, and whoever is not waiting for the closure can *)
Theorem progress s t : reachable s -> in_call (st_local s t) ->
  (exists s', step t s s') \/
  (st_local s t = AtOnce /\ exists u s', u <> t /\ in_call (st_local s u) /\ step u s s').
Proof.
  intros R [N1 N2]. pose proof (inv_reachable s R) as [_ I]. pose proof (no_panic s t R) as NP.
  destruct s as [o m l e]. cbn [st_once st_memory st_local st_events] in *.
  destruct o; [| | |destruct I].
  - destruct I as (A & _). destruct (A t) as [?|H]; [congruence|]. left. eexists. apply SFirst. exact H.
  - destruct I as (r & A & C & D).
    assert (G : in_call (l r) /\ exists s', step r (mkState Running m l e) s').
    { destruct D as [[D _]|(todo & D & _)]; (split; [split; congruence|]).
      - eexists. eapply SBuild; eassumption.
      - destruct todo as [|p todo]; eexists; [eapply SWritten; exact D|eapply SWrite; [exact D|left; reflexivity]]. }
    destruct (Nat.eq_dec t r) as [->|N]; [left; apply G|right]. split; [destruct (A t N); congruence|].
    destruct G as (G1 & s' & G2). exists r, s'. auto.
  - destruct I as (A & B & _). left. destruct (A t) as [[?|H]|H]; [congruence|eexists; apply SDone; exact H|].
    eexists. apply SRead; [exact H|]. rewrite B. reflexivity.
Qed.
End WithCfg.

Lemma secp_built (cfg : digit_cfg) : exists d, secp256k1 = Ret d /\ forall p, holds SECP256K1 p (stored d p).
Proof.
  destruct (P_EcEx.secp_model cfg) as (D & E & (WC & WB & WN) & V). exists D. split; [exact E|].
  assert (VC : curve_val (d_curve D) = e_curve SECP256K1) by (change (curve_val (d_curve D)) with (e_curve (params_val D)); now rewrite V).
  assert (VB : pt_val (d_base D) = e_base SECP256K1) by (change (pt_val (d_base D)) with (e_base (params_val D)); now rewrite V).
  assert (VN : bi_val (d_order D) = e_order SECP256K1) by (change (bi_val (d_order D)) with (e_order (params_val D)); now rewrite V).
  assert (VH : d_cofactor D = e_cofactor SECP256K1) by (change (d_cofactor D) with (e_cofactor (params_val D)); now rewrite V).
  intros []; cbn [holds stored]; [reflexivity|eauto|eauto|eauto|now rewrite VH].
Qed.
Theorem threads_no_panic (cfg : digit_cfg) s t : reachable s -> st_local s t <> Panicked.
Proof. destruct (secp_built cfg) as (d & E & _). exact (no_panic d E s t). Qed.
Theorem threads_uses (cfg : digit_cfg) s t p c : reachable s -> In (EUsed t p c) (st_events s) -> holds SECP256K1 p c.
Proof. destruct (secp_built cfg) as (d & E & H). intros R I. rewrite (uses d E s t p c R I). apply H. Qed.
Theorem threads_no_race (cfg : digit_cfg) s : reachable s -> ~ race s.
Proof. destruct (secp_built cfg) as (d & E & _). exact (no_race d E s). Qed.
Theorem threads_once (cfg : digit_cfg) s : reachable s -> (times_built s <= 1)%nat.
Proof. destruct (secp_built cfg) as (d & E & _). exact (once_only d E s). Qed.
Lemma run_trans {cfg : digit_cfg} s s' s'' : run s s' -> run s' s'' -> run s s''.
Proof. intros H. induction 1 as [|? ? ? t ? IH St]; [exact H|]. eapply RunSnoc; [apply IH; exact H|exact St]. Qed.
Lemma events_grow {cfg : digit_cfg} s s' x : run s s' -> In x (st_events s) -> In x (st_events s').
Proof.
  induction 1 as [|? ? ? t ? IH St]; [auto|]. intros I. specialize (IH I). destruct St; cbn [st_events] in *; auto; right; exact IH.
Qed.
Theorem threads_stable (cfg : digit_cfg) s s' u p : reachable s -> In (EReturned u) (st_events s) -> run s s' ->
  st_memory s' p = st_memory s p /\ holds SECP256K1 p (st_memory s p).
Proof.
  destruct (secp_built cfg) as (d & E & H). intros R I S'. rewrite (returned_complete d E s u R I).
  rewrite (returned_complete d E s' u (run_trans _ _ _ R S') (events_grow _ _ _ S' I)). auto.
Qed.
Theorem threads_progress (cfg : digit_cfg) s t : reachable s -> in_call (st_local s t) ->
  (exists s', step t s s') \/
  (st_local s t = AtOnce /\ exists u s', u <> t /\ in_call (st_local s u) /\ step u s s').
Proof. destruct (secp_built cfg) as (d & E & _). exact (progress d E s t). Qed.
Theorem threads_bounded (cfg : digit_cfg) ts n s s' : reachable s -> NoDup ts -> call_steps ts n s s' -> (n <= 9 * length ts)%nat.
Proof. destruct (secp_built cfg) as (d & E & _). exact (calls_bounded d E ts n s s'). Qed.
(** When calls can go no further all have returned *)
Theorem threads_finish (cfg : digit_cfg) s : reachable s -> (forall t s', step t s s' -> ~ in_call (st_local s t)) ->
  forall t, st_local s t = Outside.
Proof.
  intros R H t. destruct (st_local s t) eqn:L; try reflexivity; [..|exfalso; exact (threads_no_panic cfg s t R L)].
  all: assert (C : in_call (st_local s t)) by (rewrite L; split; discriminate);
    destruct (threads_progress cfg s t R C) as [(s' & St)|(_ & u & s' & _ & Cu & St)]; [destruct (H t s' St C)|destruct (H u s' St Cu)].
Qed.

(** * An execution *)
Lemma example (cfg : digit_cfg) : exists s s',
  reachable s /\ st_local s 1%nat = AtOnce /\ (forall s'', ~ step 1%nat s s'') /\
  st_memory s PTag = CTag true /\ st_memory s PCurve = CUninit /\
  run s s' /\ In (EReturned 0%nat) (st_events s') /\ In (EReturned 1%nat) (st_events s') /\
  exists c, In (EUsed 1%nat POrder c) (st_events s').
Proof.
  destruct (secp_built cfg) as (d & E & _).
  set (l1 := set_local (fun _ => Outside) 0%nat AtOnce). set (l2 := set_local l1 1%nat AtOnce).
  set (l3 := set_local l2 0%nat Building). set (l4 := set_local l3 0%nat (Writing d parts)).
  set (m5 := store memory_init PTag (stored d PTag)). set (l5 := set_local l4 0%nat (Writing d (without PTag parts))).
  exists (mkState Running m5 l5 [EBuilt 0%nat]). eexists.
  split; [|split; [reflexivity|split; [|split; [reflexivity|split; [reflexivity|split]]]]].
  - unfold reachable. eapply RunSnoc; [eapply RunSnoc; [eapply RunSnoc; [eapply RunSnoc; [eapply RunSnoc; [apply RunNil|]|]|]|]|].
    + apply (SCall 0%nat). reflexivity.
    + apply (SCall 1%nat). reflexivity.
    + apply (SFirst 0%nat). reflexivity.
    + apply (SBuild 0%nat) with (d := d); [reflexivity|exact E].
    + apply (SWrite 0%nat) with (d := d) (todo := parts) (p := PTag); [reflexivity|cbn; tauto].
  - intros s'' St. inversion St; subst; match goal with H : l5 1%nat = _ |- _ => discriminate H end.
  - eapply RunSnoc; [eapply RunSnoc; [eapply RunSnoc; [eapply RunSnoc; [eapply RunSnoc; [eapply RunSnoc; [eapply RunSnoc; [eapply RunSnoc; [eapply RunSnoc; [apply RunNil|]|]|]|]|]|]|]|]|].
    + apply (SWrite 0%nat) with (d := d) (todo := without PTag parts) (p := PCofactor); [reflexivity|cbn; tauto].
    + apply (SWrite 0%nat) with (d := d) (todo := [PCurve; PBase; POrder]) (p := PCurve); [reflexivity|cbn; tauto].
    + apply (SWrite 0%nat) with (d := d) (todo := [PBase; POrder]) (p := PBase); [reflexivity|cbn; tauto].
    + apply (SWrite 0%nat) with (d := d) (todo := [POrder]) (p := POrder); [reflexivity|cbn; tauto].
    + apply (SWritten 0%nat) with (d := d). reflexivity.
    + apply (SDone 1%nat). reflexivity.
    + apply (SRead 1%nat); reflexivity.
    + apply (SRead 0%nat); reflexivity.
    + apply (SUse 1%nat) with (u := 0%nat) (p := POrder); [reflexivity|left; reflexivity].
  - cbn. split; [tauto|]. split; [tauto|]. eexists. left. reflexivity.
Qed.

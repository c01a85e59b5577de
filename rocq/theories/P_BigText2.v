(** Proofs for C09: exactly which texts become a BigUint. *)

From Coq Require Import Lia.
From Verif Require Import Base M_Codec M_BigInt M_BigText S_BigInt S_Codec P_BigInt3 P_BigInt4 P_Codec P_BigApi P_BigProp.
Open Scope Z_scope.

Lemma from_0_sign (cfg : digit_cfg) : exists z, from_int 0 = Ret z /\ is_sign_negative z = false.
Proof. destruct cfg; vm_compute; eauto. Qed.

Section Proofs.
Context {cfg : digit_cfg}.

Lemma be_bytes_sign bs sg r : bi_from_be_bytes bs sg = Ret r -> sign r = sg.
Proof.
  unfold bi_from_be_bytes. destruct bs; [discriminate|]. destruct (len_digits _); cbn [obind]; [|discriminate..]. now intros [= <-].
Qed.
Lemma from_hex_sign s r : bi_from_hex s = Ret (Ok r) -> is_sign_negative r = true <-> exists u, s = 45 :: u.
Proof.
  intros H. unfold bi_from_hex in H. destruct s as [|c s].
  - destruct (from_0_sign cfg) as (z & E & S). rewrite E in H. cbn [obind] in H. injection H as <-. rewrite S. split; [discriminate|intros [? ?]; discriminate].
  - unfold split_sign in H. destruct (Z.eqb_spec c 45) as [->|N].
    + destruct s as [|d s]; [discriminate|]. destruct (hex_to_bytes _); [|discriminate]. destruct (bi_from_be_bytes _ _) eqn:E; cbn [obind] in H; try discriminate. injection H as <-.
      unfold is_sign_negative. rewrite (be_bytes_sign _ _ _ E). split; [eauto|reflexivity].
    + destruct (c =? 43).
      * destruct s as [|d s]; [discriminate|]. destruct (hex_to_bytes _); [|discriminate]. destruct (bi_from_be_bytes _ _) eqn:E; cbn [obind] in H; try discriminate. injection H as <-.
        unfold is_sign_negative. rewrite (be_bytes_sign _ _ _ E). split; [discriminate|]. intros [u [= ? ?]]. congruence.
      * destruct (hex_to_bytes _); [|discriminate]. destruct (bi_from_be_bytes _ _) eqn:E; cbn [obind] in H; try discriminate. injection H as <-.
        unfold is_sign_negative. rewrite (be_bytes_sign _ _ _ E). split; [discriminate|]. intros [u [= ? ?]]. congruence.
Qed.

Lemma bu_hex_cases s : bytes s ->
  (exists v r, denotes 16 s v /\ Nat.even (digit_count s) = true /\ (forall u, s <> 45 :: u) /\ bi_from_hex s = Ret (Ok r) /\ bu_from_hex s = Ret (Ok r) /\ wf r /\ bi_val r = v) \/
  (exists v r u, denotes 16 s v /\ Nat.even (digit_count s) = true /\ s = 45 :: u /\ bi_from_hex s = Ret (Ok r) /\ bu_from_hex s = Ret (Err PInvalidInput)) \/
  (exists e, (forall v, denotes 16 s v -> Nat.even (digit_count s) = false) /\ bi_from_hex s = Ret (Err e) /\ bu_from_hex s = Ret (Err e)).
Proof.
  intros Hb. unfold bu_from_hex. pose proof (from_hex_sign s) as SG. pose proof (bi_from_hex_spec s Hb) as HH. destruct HH as [v r H1 H2 W V|e H]; cbn [rbind].
  - specialize (SG r eq_refl). destruct (is_sign_negative r).
    + right; left. destruct (proj1 SG eq_refl) as [u ->]. exists v, r, u. auto.
    + left. exists v, r. split; [exact H1|]. split; [exact H2|]. split; [|auto]. intros u K. pose proof (proj2 SG (ex_intro _ u K)) as K2. discriminate K2.
  - right; right. exists e. auto.
Qed.

Lemma bu_hex_exact s v : bytes s ->
  ((exists r, bu_from_hex s = Ret (Ok r) /\ wf r /\ bi_val r = v) <-> denotes 16 s v /\ Nat.even (digit_count s) = true /\ forall u, s <> 45 :: u) /\
  exists res, bu_from_hex s = Ret res.
Proof.
  intros Hb. pose proof (from_hex_full s Hb) as FH. destruct (bu_hex_cases s Hb) as [(w & r & H1 & H2 & H3 & E' & E & W & V)|[(w & r & u & H1 & H2 & -> & E' & E)|(e & H & E' & E)]]; rewrite E; (split; [|eauto]).
  - split.
    + intros (r' & [= <-] & _ & V'). subst. auto.
    + intros (D & _). exists r. split; [reflexivity|]. split; [exact W|]. destruct FH as [FH _]. destruct (FH v D H2) as (r' & E2 & _ & V2). congruence.
  - split; [intros (r' & K & _); discriminate K|]. intros (_ & _ & K). exfalso. exact (K u eq_refl).
  - split; [intros (r' & K & _); discriminate K|]. intros (D & EV & _). rewrite (H v D) in EV. discriminate.
Qed.

Lemma bu_radix_exact s v : (exists r, bu_from_str_radix s 10 = Ret (Ok r) /\ wf r /\ bi_val r = v) <-> reads_as 10 s v.
Proof. apply from_str_radix_exact; [lia|left; lia]. Qed.

Lemma bu_try_from_exact s v : bytes s ->
  ((exists r, bu_try_from s = Ret (Ok r) /\ wf r /\ bi_val r = v) <->
   (exists t, s = 48 :: 120 :: t /\ denotes 16 t v /\ Nat.even (digit_count t) = true /\ forall u, t <> 45 :: u) \/
   ((forall t, s <> 48 :: 120 :: t) /\ reads_as 10 s v)) /\
  exists res, bu_try_from s = Ret res.
Proof.
  intros Hb. assert (C : (exists t, s = 48 :: 120 :: t /\ bu_try_from s = bu_from_hex t) \/ ((forall t, s <> 48 :: 120 :: t) /\ bu_try_from s = bu_from_str_radix s 10)).
  { destruct (list_eq_dec Z.eq_dec (firstn 2 s) [48; 120]) as [K|K].
    - left. destruct s as [|a [|b t]]; try discriminate. cbn in K. injection K as -> ->. exists t. auto.
    - right. assert (K' : forall t, s <> 48 :: 120 :: t) by (intros t ->; apply K; reflexivity). split; [exact K'|].
      unfold bu_try_from. repeat match goal with |- match ?x with _ => _ end = _ => destruct x; try reflexivity end. exfalso. eapply K'. reflexivity. }
  destruct C as [(t & -> & ->)|[N ->]].
  - assert (Ht : bytes t) by (inversion Hb as [|? ? _ H]; inversion H; assumption). destruct (bu_hex_exact t v Ht) as [H1 H2]. split; [|exact H2]. rewrite H1. split.
    + intros K. left. exists t. auto.
    + intros [(t' & [= <-] & K)|[K _]]; [exact K|]. exfalso. exact (K t eq_refl).
  - split; [rewrite bu_radix_exact|destruct (radix_no_panic s 10 ltac:(lia)) as [r E]; exists r; exact E]. split; [intros K; right; auto|].
    intros [(t & E & _)|[_ K]]; [destruct (N t E)|exact K].
Qed.

End Proofs.

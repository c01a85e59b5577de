(** The secp256k1 parameters: primality certificates (Pocklington), the order of the base point, no point of
    order two, and hence that the base point generates the curve. *)

From Coq Require Import ZArith Zpow_facts Lia Bool List.
From Verif Require Import S_Curve S_EcModel P_NumTheory P_Curve P_Order P_Fast P_SecpChain.
From Verif Require Export P_Cert.
Import ListNotations.
Open Scope Z_scope.

(** * The certificates *)
Create HintDb primes.
Lemma prime_53 : prime 53. Proof. by_trial 9%nat. Qed.
#[local] Hint Resolve prime_53 : primes.
Lemma prime_29 : prime 29. Proof. by_trial 7%nat. Qed.
#[local] Hint Resolve prime_29 : primes.
Lemma prime_7 : prime 7. Proof. by_trial 4%nat. Qed.
#[local] Hint Resolve prime_7 : primes.
Lemma prime_107590001 : prime 107590001. Proof. by_pock [(53, 2); (29, 2); (7, 2)]. Qed.
#[local] Hint Resolve prime_107590001 : primes.
Lemma prime_20113 : prime 20113. Proof. by_trial 143%nat. Qed.
#[local] Hint Resolve prime_20113 : primes.
Lemma prime_1206781 : prime 1206781. Proof. by_pock [(20113, 2)]. Qed.
#[local] Hint Resolve prime_1206781 : primes.
Lemma prime_7240687 : prime 7240687. Proof. by_pock [(1206781, 2)]. Qed.
#[local] Hint Resolve prime_7240687 : primes.
Lemma prime_239 : prime 239. Proof. by_trial 17%nat. Qed.
#[local] Hint Resolve prime_239 : primes.
Lemma prime_101 : prime 101. Proof. by_trial 12%nat. Qed.
#[local] Hint Resolve prime_101 : primes.
Lemma prime_96557 : prime 96557. Proof. by_pock [(239, 2); (101, 2)]. Qed.
#[local] Hint Resolve prime_96557 : primes.
Lemma prime_q128 : prime 255515944373312847190720520512484175977. Proof. by_pock [(107590001, 2); (7240687, 2); (96557, 2)]. Qed.
#[local] Hint Resolve prime_q128 : primes.
Lemma prime_q237 : prime 205115282021455665897114700593932402728804164701536103180137503955397371. Proof. by_pock [(255515944373312847190720520512484175977, 2)]. Qed.
#[local] Hint Resolve prime_q237 : primes.
Lemma prime_1871 : prime 1871. Proof. by_trial 45%nat. Qed.
#[local] Hint Resolve prime_1871 : primes.
Lemma prime_1627771 : prime 1627771. Proof. by_pock [(1871, 2)]. Qed.
#[local] Hint Resolve prime_1627771 : primes.
Lemma prime_297159362677 : prime 297159362677. Proof. by_pock [(1627771, 2)]. Qed.
#[local] Hint Resolve prime_297159362677 : primes.
Lemma prime_28181 : prime 28181. Proof. by_trial 169%nat. Qed.
#[local] Hint Resolve prime_28181 : primes.
Lemma prime_545358713 : prime 545358713. Proof. by_pock [(28181, 2)]. Qed.
#[local] Hint Resolve prime_545358713 : primes.
Lemma prime_q95 : prime 29047611873442575647497758179. Proof. by_pock [(297159362677, 2); (545358713, 2)]. Qed.
#[local] Hint Resolve prime_q95 : primes.
Lemma prime_q109 : prime 341948486974166000522343609283189. Proof. by_pock [(29047611873442575647497758179, 2)]. Qed.
#[local] Hint Resolve prime_q109 : primes.
Lemma prime_9349 : prime 9349. Proof. by_trial 98%nat. Qed.
#[local] Hint Resolve prime_9349 : primes.
Lemma prime_44706919 : prime 44706919. Proof. by_pock [(9349, 2)]. Qed.
#[local] Hint Resolve prime_44706919 : primes.
Lemma prime_113 : prime 113. Proof. by_trial 12%nat. Qed.
#[local] Hint Resolve prime_113 : primes.
Lemma prime_19 : prime 19. Proof. by_trial 6%nat. Qed.
#[local] Hint Resolve prime_19 : primes.
Lemma prime_120233 : prime 120233. Proof. by_pock [(113, 2); (19, 2)]. Qed.
#[local] Hint Resolve prime_120233 : primes.
Lemma prime_q68 : prime 174723607534414371449. Proof. by_pock [(44706919, 2); (120233, 2)]. Qed.
#[local] Hint Resolve prime_q68 : primes.
Definition redp : Z -> Z := folding 256 (2 ^ 32 + 977) (ep (e_curve SECP256K1)).
Lemma redp_ok : reduces (ep (e_curve SECP256K1)) redp. Proof. intros x. apply folding_ok; reflexivity. Qed.
Definition redn : Z -> Z := folding 256 (2 ^ 256 - e_order SECP256K1) (e_order SECP256K1).
Lemma redn_ok : reduces (e_order SECP256K1) redn. Proof. intros x. apply folding_ok; reflexivity. Qed.
Lemma prime_p : prime (ep (e_curve SECP256K1)).
Proof. by_pock_with redp ltac:(exact redp_ok) [(205115282021455665897114700593932402728804164701536103180137503955397371, 2)]. Qed.
Lemma prime_n : prime (e_order SECP256K1).
Proof. by_pock_with redn ltac:(exact redn_ok) [(341948486974166000522343609283189, 2); (174723607534414371449, 2)]. Qed.

(** * The order of the base point, by a checked chain of doublings and additions *)
Local Notation E := (e_curve SECP256K1).
Lemma secp_curve_ok : curve_ok E.
Proof. split; [exact prime_p|]. split; [cbn; lia|]. vm_compute. discriminate. Qed.
Lemma secp_base : on_curve E (e_base SECP256K1).
Proof. cbn [SECP256K1 e_base on_curve]. split; [cbn; lia|]. split; [cbn; lia|]. vm_compute. reflexivity. Qed.
Definition GX : Z := 0x79BE667EF9DCBBAC55A06295CE870B07029BFCDB2DCE28D959F2815B16F81798.
Definition GY : Z := 0x483ADA7726A3C4655DA4FBFC0E1108A8FD17B448A68554199C47D08FFB10D4B8.
Lemma secp_chain_ok : chainh redp E (GX, GY) (GX, GY) 1 secp_chain = Some ((GX, ep E - GY), e_order SECP256K1 - 1).
Proof. vm_cast_no_check (eq_refl (Some ((GX, ep E - GY), e_order SECP256K1 - 1))). Qed.
Lemma secp_order : emul E (e_order SECP256K1) (e_base SECP256K1) = None.
Proof.
  change (e_base SECP256K1) with (Some (GX, GY)). replace (e_order SECP256K1) with ((e_order SECP256K1 - 1) + 1) by lia.
  rewrite emul_succ by (cbn; lia).
  rewrite <- (chainh_ok redp E (GX, GY) secp_chain redp_ok secp_curve_ok secp_base ltac:(reflexivity) (GX, GY) 1 (GX, ep E - GY) (e_order SECP256K1 - 1));
    [vm_compute; reflexivity|lia|symmetry; apply emul_1|exact secp_chain_ok].
Qed.
(** no point with y = 0: -7 is not a cube modulo p *)
Lemma secp_no2 P : on_curve E P -> ~ two_torsion P.
Proof.
  intros H [x ->]. cbn [on_curve] in H. destruct H as (Hx & _ & H). pose proof prime_p as PP.
  set (p := ep E) in *. assert (P3 : 3 < p) by (unfold p; cbn; lia).
  set (z := - x).
  assert (K : cg p (z * z * z) 7).
  { apply cg_iff in H; [|lia]. change (eb E) with 7 in H. change (ea E) with 0 in H. destruct H as [k H]. exists k. unfold z. lia. }
  assert (NX : ~ cg p z 0).
  { intros Z0. rewrite Z0 in K. change (0 * 0 * 0) with 0 in K. destruct K as [k K]. assert (D : (p | 7)) by (exists (- k); lia). apply Z.divide_pos_le in D; [|lia]. unfold p in D. cbn in D. lia. }
  pose proof (fermat p PP z NX) as F.
  assert (E3 : p - 1 = 3 * ((p - 1) / 3)) by (vm_compute; reflexivity).
  rewrite E3, Z.pow_mul_r in F by (vm_compute; discriminate). replace (z ^ 3) with (z * z * z) in F by ring.
  assert (F' : cg p (7 ^ ((p - 1) / 3)) 1). { eapply cg_trans; [|exact F]. apply cg_pow. now apply cg_sym. }
  apply cg_iff in F'; [|lia]. rewrite <- (powm_spec redp) in F' by (apply redp_ok || (unfold p; vm_compute; congruence)).
  assert (NE : (powm redp 7 ((p - 1) / 3) =? 1 mod p) = false) by (unfold p; vm_cast_no_check (eq_refl false)).
  apply Z.eqb_neq in NE. exact (NE F').
Qed.
Lemma secp_gen P : on_curve E P -> exists k, 0 <= k < e_order SECP256K1 /\ P = emul E k (e_base SECP256K1).
Proof.
  apply (generated E secp_curve_ok (e_base SECP256K1) (e_order SECP256K1) secp_base); [discriminate|exact prime_n|exact secp_order|reflexivity|exact secp_no2|reflexivity].
Qed.
Theorem secp_params_ok : params_ok SECP256K1.
Proof.
  split; [exact secp_curve_ok|]. split; [exact prime_n|]. split; [reflexivity|]. split; [exact secp_base|]. split; [discriminate|].
  split; [exact secp_order|]. intros P H _. now apply secp_gen.
Qed.

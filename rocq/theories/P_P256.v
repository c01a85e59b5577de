(** The P-256 parameters: primality certificates (Pocklington), the order of the base point, no point of
    order two, and hence that the base point generates the curve. *)

From Coq Require Import ZArith Zpow_facts Lia Bool List.
From Verif Require Import S_Curve S_EcModel S_P256 P_NumTheory P_Curve P_Order P_Fast P_Cert P_NoTwo P_P256Chain.
Import ListNotations.
Open Scope Z_scope.

(** * The certificates *)
Create HintDb primes.
Lemma prime_313 : prime 313. Proof. by_trial 19%nat. Qed.
#[local] Hint Resolve prime_313 : primes.
Lemma prime_5 : prime 5. Proof. by_trial 4%nat. Qed.
#[local] Hint Resolve prime_5 : primes.
Lemma prime_704251 : prime 704251. Proof. by_pock [(313, 2); (5, 2)]. Qed.
#[local] Hint Resolve prime_704251 : primes.
Lemma prime_4349 : prime 4349. Proof. by_trial 67%nat. Qed.
#[local] Hint Resolve prime_4349 : primes.
Lemma prime_78283 : prime 78283. Proof. by_pock [(4349, 2)]. Qed.
#[local] Hint Resolve prime_78283 : primes.
Lemma prime_q56 : prime 46076956964474543. Proof. by_pock [(704251, 2); (78283, 2)]. Qed.
#[local] Hint Resolve prime_q56 : primes.
Lemma prime_3677 : prime 3677. Proof. by_trial 62%nat. Qed.
#[local] Hint Resolve prime_3677 : primes.
Lemma prime_197 : prime 197. Proof. by_trial 16%nat. Qed.
#[local] Hint Resolve prime_197 : primes.
Lemma prime_66417393611 : prime 66417393611. Proof. by_pock [(3677, 2); (197, 2)]. Qed.
#[local] Hint Resolve prime_66417393611 : primes.
Lemma prime_q44 : prime 11290956913871. Proof. by_pock [(66417393611, 2)]. Qed.
#[local] Hint Resolve prime_q44 : primes.
Lemma prime_q150 : prime 774023187263532362759620327192479577272145303. Proof. by_pock [(46076956964474543, 2); (11290956913871, 2)]. Qed.
#[local] Hint Resolve prime_q150 : primes.
Lemma prime_q160 : prime 835945042244614951780389953367877943453916927241. Proof. by_pock [(774023187263532362759620327192479577272145303, 2)]. Qed.
#[local] Hint Resolve prime_q160 : primes.
Lemma prime_43 : prime 43. Proof. by_trial 8%nat. Qed.
#[local] Hint Resolve prime_43 : primes.
Lemma prime_7 : prime 7. Proof. by_trial 4%nat. Qed.
#[local] Hint Resolve prime_7 : primes.
Lemma prime_3 : prime 3. Proof. by_trial 3%nat. Qed.
#[local] Hint Resolve prime_3 : primes.
Lemma prime_155317 : prime 155317. Proof. by_pock [(43, 2); (7, 2); (3, 3)]. Qed.
#[local] Hint Resolve prime_155317 : primes.
Lemma prime_191039911 : prime 191039911. Proof. by_pock [(155317, 2)]. Qed.
#[local] Hint Resolve prime_191039911 : primes.
Lemma prime_3023 : prime 3023. Proof. by_trial 56%nat. Qed.
#[local] Hint Resolve prime_3023 : primes.
Lemma prime_q58 : prime 208150935158385979. Proof. by_pock [(191039911, 2); (3023, 2)]. Qed.
#[local] Hint Resolve prime_q58 : primes.
Lemma prime_q92 : prime 2624747550333869278416773953. Proof. by_pock [(208150935158385979, 2)]. Qed.
#[local] Hint Resolve prime_q92 : primes.
Lemma prime_337 : prime 337. Proof. by_trial 20%nat. Qed.
#[local] Hint Resolve prime_337 : primes.
Lemma prime_104471 : prime 104471. Proof. by_pock [(337, 2)]. Qed.
#[local] Hint Resolve prime_104471 : primes.
Lemma prime_3969899 : prime 3969899. Proof. by_pock [(104471, 2)]. Qed.
#[local] Hint Resolve prime_3969899 : primes.
Lemma prime_1002328039319 : prime 1002328039319. Proof. by_pock [(3969899, 2)]. Qed.
#[local] Hint Resolve prime_1002328039319 : primes.
(** * Reduction modulo p, by 32-bit limbs (FIPS 186-4, D.2.3) *)
Definition shift32 (x : Z) : Z := match x with Zpos a => Zpos ((((((((((((((((((((((((((((((((a)~0)~0)~0)~0)~0)~0)~0)~0)~0)~0)~0)~0)~0)~0)~0)~0)~0)~0)~0)~0)~0)~0)~0)~0)~0)~0)~0)~0)~0)~0)~0)~0 | _ => 2 ^ 32 * x end.
Lemma shift32_eq x : shift32 x = 2 ^ 32 * x.
Proof. destruct x as [|x|x]; [reflexivity| |reflexivity]. unfold shift32. change (2 ^ 32) with 4294967296. lia. Qed.
Fixpoint adjust (fuel : nat) (m x : Z) : Z :=
  match fuel with O => x mod m | S f => match x with Zneg _ => adjust f m (x + m) | _ => if x <? m then x else adjust f m (x - m) end end.
Lemma adjust_ok m f : 0 < m -> forall x, adjust f m x = x mod m.
Proof.
  intros Hm. induction f as [|f IH]; intros x; [reflexivity|]. cbn [adjust]. destruct x as [|x|x].
  - destruct (Z.ltb_spec 0 m); [|lia]. now rewrite Z.mod_0_l by lia.
  - destruct (Z.ltb_spec (Zpos x) m); [symmetry; apply Z.mod_small; lia|]. rewrite IH. replace (Zpos x) with (Zpos x - m + 1 * m) at 2 by ring. symmetry. apply Z_mod_plus_full.
  - rewrite IH. replace (Zneg x + m) with (Zneg x + 1 * m) by ring. apply Z_mod_plus_full.
Qed.
Definition limbs (x : Z) : Z :=
  let (c0, x1) := split 32 x in
  let (c1, x2) := split 32 x1 in
  let (c2, x3) := split 32 x2 in
  let (c3, x4) := split 32 x3 in
  let (c4, x5) := split 32 x4 in
  let (c5, x6) := split 32 x5 in
  let (c6, x7) := split 32 x6 in
  let (c7, x8) := split 32 x7 in
  let (c8, x9) := split 32 x8 in
  let (c9, x10) := split 32 x9 in
  let (c10, x11) := split 32 x10 in
  let (c11, x12) := split 32 x11 in
  let (c12, x13) := split 32 x12 in
  let (c13, x14) := split 32 x13 in
  let (c14, c15) := split 32 x14 in
  (shift32 (shift32 (shift32 (shift32 (shift32 (shift32 (shift32 (c7 + c8 + 3 * c15 - (c10 + c11 + c12 + c13)) + (c6 + c13 + 3 * c14 + 2 * c15 - (c8 + c9))) + (c5 + 2 * c13 + 2 * c14 + c15 - (c10 + c11))) + (c4 + 2 * c12 + 2 * c13 + c14 - (c9 + c10))) + (c3 + 2 * c11 + 2 * c12 + c13 - (c8 + c9 + c15))) + (c2 + c10 + c11 - (c13 + c14 + c15))) + (c1 + c9 + c10 - (c12 + c13 + c14 + c15))) + (c0 + c8 + c9 - (c11 + c12 + c13 + c14))).
Definition redp (x : Z) : Z := adjust 12 (ep (e_curve P256)) (limbs x).
Lemma limbs_ok x : limbs x mod ep (e_curve P256) = x mod ep (e_curve P256).
Proof.
  unfold limbs.
  pose proof (split_eq 32 x) as S0. destruct (split 32 x) as [c0 x1]. change (2 ^ Z.of_nat 32) with (2 ^ 32) in S0.
  pose proof (split_eq 32 x1) as S1. destruct (split 32 x1) as [c1 x2]. change (2 ^ Z.of_nat 32) with (2 ^ 32) in S1.
  pose proof (split_eq 32 x2) as S2. destruct (split 32 x2) as [c2 x3]. change (2 ^ Z.of_nat 32) with (2 ^ 32) in S2.
  pose proof (split_eq 32 x3) as S3. destruct (split 32 x3) as [c3 x4]. change (2 ^ Z.of_nat 32) with (2 ^ 32) in S3.
  pose proof (split_eq 32 x4) as S4. destruct (split 32 x4) as [c4 x5]. change (2 ^ Z.of_nat 32) with (2 ^ 32) in S4.
  pose proof (split_eq 32 x5) as S5. destruct (split 32 x5) as [c5 x6]. change (2 ^ Z.of_nat 32) with (2 ^ 32) in S5.
  pose proof (split_eq 32 x6) as S6. destruct (split 32 x6) as [c6 x7]. change (2 ^ Z.of_nat 32) with (2 ^ 32) in S6.
  pose proof (split_eq 32 x7) as S7. destruct (split 32 x7) as [c7 x8]. change (2 ^ Z.of_nat 32) with (2 ^ 32) in S7.
  pose proof (split_eq 32 x8) as S8. destruct (split 32 x8) as [c8 x9]. change (2 ^ Z.of_nat 32) with (2 ^ 32) in S8.
  pose proof (split_eq 32 x9) as S9. destruct (split 32 x9) as [c9 x10]. change (2 ^ Z.of_nat 32) with (2 ^ 32) in S9.
  pose proof (split_eq 32 x10) as S10. destruct (split 32 x10) as [c10 x11]. change (2 ^ Z.of_nat 32) with (2 ^ 32) in S10.
  pose proof (split_eq 32 x11) as S11. destruct (split 32 x11) as [c11 x12]. change (2 ^ Z.of_nat 32) with (2 ^ 32) in S11.
  pose proof (split_eq 32 x12) as S12. destruct (split 32 x12) as [c12 x13]. change (2 ^ Z.of_nat 32) with (2 ^ 32) in S12.
  pose proof (split_eq 32 x13) as S13. destruct (split 32 x13) as [c13 x14]. change (2 ^ Z.of_nat 32) with (2 ^ 32) in S13.
  pose proof (split_eq 32 x14) as S14. destruct (split 32 x14) as [c14 c15]. change (2 ^ Z.of_nat 32) with (2 ^ 32) in S14.
  rewrite !shift32_eq. rewrite S14 in S13. clear S14. rewrite S13 in S12. clear S13. rewrite S12 in S11. clear S12. rewrite S11 in S10. clear S11. rewrite S10 in S9. clear S10. rewrite S9 in S8. clear S9. rewrite S8 in S7. clear S8. rewrite S7 in S6. clear S7. rewrite S6 in S5. clear S6. rewrite S5 in S4. clear S5. rewrite S4 in S3. clear S4. rewrite S3 in S2. clear S3. rewrite S2 in S1. clear S2. rewrite S1 in S0. clear S1. 
  rewrite S0. clear S0. symmetry.
  match goal with |- ?l mod ?m = ?r mod ?m => replace l with (r + ((1) * c8 + (4294967297) * c9 + (18446744078004518912) * c10 + (79228162532711081667253501951) * c11 + (340282367000166625977638945021017194495) * c12 + (1461501637671185285124623296161210883009696235519) * c13 + (6277101736848182401166692341332123086285927382448418586623) * c14 + (26959946673427741530053695850515137729844644212646842236464328081408) * c15) * m); [apply Z_mod_plus_full|] end.
  change (ep (e_curve P256)) with (2 ^ 256 - 2 ^ 224 + 2 ^ 192 + 2 ^ 96 - 1). ring.
Qed.
Lemma redp_ok : reduces (ep (e_curve P256)) redp.
Proof. intros x. unfold redp. rewrite adjust_ok by reflexivity. apply limbs_ok. Qed.
Definition redn : Z -> Z := barrett (e_order P256) 256 29642774851654692375224735949284715853493150270789105240142764339325645654589030.
Lemma redn_ok : reduces (e_order P256) redn. Proof. intros x. apply barrett_ok; reflexivity. Qed.
Lemma prime_p : prime (ep (e_curve P256)).
Proof. by_pock_with redp ltac:(exact redp_ok) [(835945042244614951780389953367877943453916927241, 2)]. Qed.
Lemma prime_n : prime (e_order P256).
Proof. by_pock_with redn ltac:(exact redn_ok) [(2624747550333869278416773953, 2); (1002328039319, 2)]. Qed.

(** * The order of the base point, by a checked chain of doublings and additions *)
Local Notation E := (e_curve P256).
Lemma p256_curve_ok : curve_ok E.
Proof. split; [exact prime_p|]. split; [reflexivity|]. vm_compute. discriminate. Qed.
Lemma p256_base : on_curve E (e_base P256).
Proof. cbn [P256 e_base on_curve]. split; [split; [discriminate|reflexivity]|]. split; [split; [discriminate|reflexivity]|]. vm_compute. reflexivity. Qed.
Definition GX : Z := 0x6b17d1f2e12c4247f8bce6e563a440f277037d812deb33a0f4a13945d898c296.
Definition GY : Z := 0x4fe342e2fe1a7f9b8ee7eb4a7c0f9e162bce33576b315ececbb6406837bf51f5.
Lemma p256_chain_ok : chainh redp E (GX, GY) (GX, GY) 1 p256_chain = Some ((GX, ep E - GY), e_order P256 - 1).
Proof. vm_cast_no_check (eq_refl (Some ((GX, ep E - GY), e_order P256 - 1))). Qed.
Lemma p256_order : emul E (e_order P256) (e_base P256) = None.
Proof.
  change (e_base P256) with (Some (GX, GY)). replace (e_order P256) with ((e_order P256 - 1) + 1) by lia.
  rewrite emul_succ by (cbn; lia).
  rewrite <- (chainh_ok redp E (GX, GY) p256_chain redp_ok p256_curve_ok p256_base ltac:(reflexivity) (GX, GY) 1 (GX, ep E - GY) (e_order P256 - 1));
    [vm_compute; reflexivity|lia|symmetry; apply emul_1|exact p256_chain_ok].
Qed.
Lemma p256_no2 P : on_curve E P -> ~ two_torsion P.
Proof.
  apply (rootless_ok redp E (0x4cde11cf86cb876cd59cf0115813c55af0ecd3cda667d98bb9a347a56aa74a6d, 0xa4a08891884100c13323460107a8d28eede4387fa3e6e9bfebec9f6d72d0b5cc,
    0xa969487079f1744798bf0de6fded091b66e9d328eb0645fe5d979d1339b7f47f) p256_curve_ok redp_ok).
  vm_cast_no_check (eq_refl true).
Qed.
Lemma p256_gen P : on_curve E P -> exists k, 0 <= k < e_order P256 /\ P = emul E k (e_base P256).
Proof.
  apply (generated E p256_curve_ok (e_base P256) (e_order P256) p256_base); [discriminate|exact prime_n|exact p256_order|reflexivity|exact p256_no2|reflexivity].
Qed.
Theorem p256_params_ok : params_ok P256.
Proof.
  split; [exact p256_curve_ok|]. split; [exact prime_n|]. split; [reflexivity|]. split; [exact p256_base|]. split; [discriminate|].
  split; [exact p256_order|]. intros P H _. now apply p256_gen.
Qed.

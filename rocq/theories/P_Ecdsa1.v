(** ECDSA on the textbook curves. *)

From Coq Require Import Lia.
From Verif Require Import Base M_BigInt M_Curve M_Ecdsa S_BigInt S_Curve S_EcModel S_Ecdsa P_NumTheory P_Curve P_EcModel P_Order.
Open Scope Z_scope.

Section Spec.
Variable D : eparams.
Hypothesis OKD : params_ok D.
Local Notation C := (e_curve D).
Local Notation G := (e_base D).
Local Notation n := (e_order D).
Local Notation "k # P" := (emul C k P) (at level 35, right associativity).
Let OK : curve_ok C. Proof. apply OKD. Qed.
Let Hn : prime n. Proof. apply OKD. Qed.
Let N2 : 2 < n. Proof. apply OKD. Qed.
Let HG : on_curve C G. Proof. apply OKD. Qed.
Let G0 : G <> None. Proof. apply OKD. Qed.
Let nG : n # G = None. Proof. apply OKD. Qed.

Lemma mod_nz x : 1 <= x < n -> x mod n <> 0. Proof. intros. rewrite Z.mod_small; lia. Qed.
Lemma inv_n x : 1 <= x < n -> cg n (x * zinv n x) 1.
Proof. intros H. apply cg_iff; [lia|]. rewrite zinv_spec by (assumption || now apply mod_nz). rewrite Z.mod_small; lia. Qed.
Lemma inv_pos x : 1 <= x < n -> 1 <= zinv n x < n.
Proof.
  intros H. pose proof (zinv_range n Hn x) as R. destruct (Z.eq_dec (zinv n x) 0) as [E|E]; [|lia].
  pose proof (inv_n x H) as I. rewrite E, Z.mul_0_r in I. destruct I as [k I]. exfalso.
  assert (K : (n | 1)) by (exists (- k); lia). apply Z.divide_pos_le in K; lia.
Qed.

Lemma G_mod j k : cg n j k -> 0 <= j -> 0 <= k -> j # G = k # G.
Proof. intros H Hj Hk. apply (emul_eq_mod C OK G n HG G0 Hn nG); try assumption. apply cg_iff; [lia|assumption]. Qed.
Lemma n_odd : Z.odd n = true.
Proof.
  destruct (Z.odd n) eqn:E; [reflexivity|]. exfalso. rewrite <- Z.negb_even in E. apply negb_false_iff, Z.even_spec in E. destruct E as [k E].
  assert (K : (2 | n)) by (exists k; lia). apply prime_divisors in K; [|assumption]. lia.
Qed.
Lemma kG_no2 k : 0 <= k -> ~ two_torsion (k # G).
Proof.
  intros Hk [x T]. assert (TT : eadd C (k # G) (k # G) = None).
  { rewrite T. cbn [eadd]. rewrite Z.eqb_refl. change (0 + 0) with 0. rewrite Z.mod_0_l; [reflexivity|]. destruct OK as (_ & P3 & _). lia. }
  rewrite <- emul_2, <- emul_mul in TT by (assumption || lia). apply (order_spec C OK G n HG G0 Hn nG) in TT; [|lia].
  apply prime_mult in TT; [|assumption]. destruct TT as [TT|TT]; [apply Z.divide_pos_le in TT; lia|].
  apply (order_spec C OK G n HG G0 Hn nG) in TT; [|assumption]. rewrite TT in T. discriminate.
Qed.

(** Valid public keys are the multiples of G. *)
Lemma public_multiple x y : valid_public D x y -> exists d, 1 <= d < n /\ Some (x, y) = d # G.
Proof.
  intros (Hx & Hy & E & _ & O). destruct OKD as (_ & _ & _ & _ & _ & _ & GEN).
  destruct (GEN (Some (x, y))) as (d & Hd & Ed); [split; [exact Hx|split; [exact Hy|exact E]]|exact O|].
  exists d. split; [|exact Ed]. destruct (Z.eq_dec d 0) as [->|]; [rewrite emul_0 in Ed; discriminate|lia].
Qed.
Lemma multiple_public d x y : 0 <= d -> d # G = Some (x, y) -> eb C mod ep C <> 0 -> valid_public D x y.
Proof.
  intros Hd E B0. pose proof (emul_closed C OK d G HG) as O. rewrite E in O. destruct O as (Hx & Hy & O). split; [exact Hx|]. split; [exact Hy|]. split; [exact O|].
  split. { intros [-> ->]. apply B0. rewrite Z.mod_0_l in O by (destruct OK as (_ & ? & _); lia). rewrite O. f_equal. ring. }
  intros _. rewrite <- E, <- emul_mul by (assumption || lia). rewrite Z.mul_comm, emul_mul by (assumption || lia). rewrite nG. apply emul_None.
Qed.
Lemma dG_some d : 1 <= d < n -> exists x y, d # G = Some (x, y).
Proof.
  intros Hd. destruct (d # G) as [[x y]|] eqn:E; [eauto|]. exfalso. apply (order_spec C OK G n HG G0 Hn nG) in E; [|lia]. apply Z.divide_pos_le in E; lia.
Qed.
Lemma gen1 : e_cofactor D = 1 -> forall P, on_curve C P -> exists k, 0 <= k < n /\ P = k # G.
Proof. intros H1 P HP. destruct OKD as (_ & _ & _ & _ & _ & _ & GEN). apply GEN; [exact HP|]. intros K. congruence. Qed.
Lemma cofactor1_no2 : e_cofactor D = 1 -> no_two_torsion C.
Proof. intros H1 P HP. destruct (gen1 H1 P HP) as (k & Hk & ->). apply kG_no2. lia. Qed.

(** ** The verification equation in terms of discrete logarithms *)
Definition vlog (d e r s : Z) : Z := (e * zinv n s) mod n + ((r * zinv n s) mod n) * d.
Lemma valid_log d e r s : 0 <= d -> ecdsa_valid D (d # G) e r s <-> exists x y, vlog d e r s # G = Some (x, y) /\ x mod n = r.
Proof.
  intros Hd. unfold ecdsa_valid, vlog. pose proof (Z.mod_pos_bound (e * zinv n s) n). pose proof (Z.mod_pos_bound (r * zinv n s) n).
  rewrite <- emul_mul, <- emul_add by (assumption || nia). reflexivity.
Qed.
Lemma vlog_nonneg d e r s : 0 <= d -> 0 <= vlog d e r s.
Proof. intros Hd. unfold vlog. pose proof (Z.mod_pos_bound (e * zinv n s) n). pose proof (Z.mod_pos_bound (r * zinv n s) n). nia. Qed.
Lemma vlog_cg d e r s : cg n (vlog d e r s) (zinv n s * (e + r * d)).
Proof.
  unfold vlog. rewrite !cg_mod_l by lia. apply cg_iff; [lia|]. f_equal. ring.
Qed.
(** If s = (e + r d) / k then the logarithm of the verification point is k. *)
Lemma vlog_k d e r s k : 1 <= s < n -> 1 <= k < n -> cg n s (zinv n k * (e + r * d)) -> cg n (vlog d e r s) k.
Proof.
  intros Hs Hk E. rewrite vlog_cg.
  assert (K1 : cg n (e + r * d) (k * s)).
  { rewrite E. replace (k * (zinv n k * (e + r * d))) with ((k * zinv n k) * (e + r * d)) by ring. rewrite (inv_n k Hk). now rewrite Z.mul_1_l. }
  rewrite K1. replace (zinv n s * (k * s)) with (k * (s * zinv n s)) by ring. rewrite (inv_n s Hs). now rewrite Z.mul_1_r.
Qed.

Theorem sign_valid d e k r s : 1 <= d < n -> 1 <= k < n -> ecdsa_sign D d e k = Some (r, s) ->
  1 <= r < n /\ 1 <= s < n /\ ecdsa_valid D (d # G) e r s.
Proof.
  intros Hd Hk. unfold ecdsa_sign. destruct (k # G) as [[x y]|] eqn:E; [|discriminate]. cbv zeta.
  pose proof (Z.mod_pos_bound x n ltac:(lia)) as R1. pose proof (Z.mod_pos_bound (zinv n k * (e + x mod n * d)) n ltac:(lia)) as R2.
  destruct (Z.eqb_spec (x mod n) 0) as [Z0|Z0]; [discriminate|]. destruct (Z.eqb_spec ((zinv n k * (e + x mod n * d)) mod n) 0) as [Z1|Z1]; [discriminate|]. cbn [orb].
  intros H. injection H as <- <-. split; [lia|]. split; [lia|]. apply valid_log; [lia|]. exists x, y. split; [|reflexivity].
  rewrite <- E. apply G_mod; [|apply vlog_nonneg; lia|lia]. apply vlog_k; [lia|assumption|]. apply cg_mod_l. lia.
Qed.

(** ** Malleability *)
Lemma zinv_opp s : 1 <= s < n -> cg n (zinv n (n - s)) (- zinv n s).
Proof.
  intros Hs. pose proof (inv_n s Hs) as I1. pose proof (inv_n (n - s) ltac:(lia)) as I2.
  assert (K : cg n (n - s) (- s)) by (exists 1; ring). set (z := zinv n (n - s)) in *. clearbody z. rewrite K in I2.
  transitivity (z * (s * zinv n s)); [rewrite I1; now rewrite Z.mul_1_r|].
  replace (z * (s * zinv n s)) with (- (- s * z) * zinv n s) by ring. rewrite I2. apply cg_iff; [lia|]. f_equal. all: try ring.
Qed.
Lemma vlog_opp d e r s : 1 <= s < n -> cg n (vlog d e r (n - s)) (- vlog d e r s).
Proof. intros Hs. rewrite !vlog_cg, zinv_opp by assumption. apply cg_iff; [lia|]. f_equal. ring. Qed.
Lemma eneg_x P : match P, eneg C P with Some (x, _), Some (x', _) => x = x' | None, None => True | _, _ => False end.
Proof. destruct P as [[x y]|]; cbn; auto. Qed.
Lemma G_opp j k : cg n j (- k) -> 0 <= j -> 0 <= k -> j # G = eneg C (k # G).
Proof.
  intros H Hj Hk. rewrite (neg_kG C OK G n HG G0 Hn nG) by assumption. apply G_mod; [|assumption|apply Z.mod_pos_bound; lia].
  rewrite H. symmetry. apply cg_mod_l. lia.
Qed.
Theorem malleable d e r s : 0 <= d -> 1 <= s < n -> ecdsa_valid D (d # G) e r s <-> ecdsa_valid D (d # G) e r (n - s).
Proof.
  intros Hd Hs. rewrite !valid_log by assumption.
  pose proof (G_opp _ _ (vlog_opp d e r s Hs) (vlog_nonneg d e r (n - s) Hd) (vlog_nonneg d e r s Hd)) as E. rewrite E.
  destruct (vlog d e r s # G) as [[x y]|]; cbn [eneg].
  - split; intros (x' & y' & H & Hx); injection H as <- <-; eauto.
  - split; intros (x' & y' & H & Hx); discriminate.
Qed.

(** ** Recovery: Q = (1/r) (s R - e G) *)
Definition recovered (R : epoint) (e r s : Z) : epoint := zinv n r # eadd C (s # R) (((- e) mod n) # G).
(** for R = k G the recovered key is d G with d = (s k - e) / r *)
Lemma recovered_log k e r s : 0 <= k -> 0 <= s -> recovered (k # G) e r s = (zinv n r * (s * k + (- e) mod n)) # G.
Proof.
  intros Hk Hs. unfold recovered. pose proof (zinv_range n Hn r). pose proof (Z.mod_pos_bound (- e) n ltac:(lia)).
  rewrite <- emul_mul, <- emul_add by (assumption || nia). rewrite <- emul_mul by (assumption || nia). reflexivity.
Qed.
Lemma recovered_signer d e r s k : 1 <= d < n -> 1 <= r < n -> 1 <= s < n -> 1 <= k < n -> cg n s (zinv n k * (e + r * d)) ->
  recovered (k # G) e r s = d # G.
Proof.
  intros Hd Hr Hs Hk E. rewrite recovered_log by lia. apply G_mod; [| |lia].
  - rewrite cg_mod_l by lia.
    assert (K1 : cg n (s * k) (e + r * d)).
    { rewrite E. replace (zinv n k * (e + r * d) * k) with ((k * zinv n k) * (e + r * d)) by ring. rewrite (inv_n k Hk). now rewrite Z.mul_1_l. }
    rewrite K1. replace (zinv n r * (e + r * d + - e)) with ((r * zinv n r) * d) by ring. rewrite (inv_n r Hr). now rewrite Z.mul_1_l.
  - pose proof (inv_pos r Hr). pose proof (Z.mod_pos_bound (- e) n ltac:(lia)). nia.
Qed.
(** and the verification point of the recovered key is R *)
Lemma recovered_verifies k e r s x y : 0 <= k -> 1 <= r < n -> 1 <= s < n -> k # G = Some (x, y) -> x mod n = r ->
  ecdsa_valid D (recovered (k # G) e r s) e r s.
Proof.
  intros Hk Hr Hs E Ex. rewrite recovered_log by lia. pose proof (inv_pos r Hr). pose proof (Z.mod_pos_bound (- e) n ltac:(lia)).
  set (d := zinv n r * (s * k + (- e) mod n)). assert (Hd : 0 <= d) by (unfold d; nia). apply valid_log; [assumption|].
  exists x, y. split; [|assumption]. rewrite <- E. apply G_mod; [|now apply vlog_nonneg|assumption].
  rewrite vlog_cg. unfold d. 
  assert (K : cg n (r * (zinv n r * (s * k + (- e) mod n))) (s * k + - e)).
  { replace (r * (zinv n r * (s * k + (- e) mod n))) with ((r * zinv n r) * (s * k + (- e) mod n)) by ring. rewrite (inv_n r Hr), cg_mod_l by lia. now rewrite Z.mul_1_l. }
  rewrite K. replace (zinv n s * (e + (s * k + - e))) with ((s * zinv n s) * k) by ring. rewrite (inv_n s Hs). now rewrite Z.mul_1_l.
Qed.
(** the opposite point and the opposite s recover the same key *)
Lemma recovered_opp R e r s : on_curve C R -> n # R = None -> 1 <= s < n -> recovered (eneg C R) e r (n - s) = recovered R e r s.
Proof.
  intros HR nR Hs. unfold recovered. f_equal. f_equal. rewrite emul_eneg by (assumption || lia).
  assert (K : eadd C ((n - s) # R) (s # R) = None) by (rewrite <- emul_add by (assumption || lia); replace (n - s + s) with n by lia; exact nR).
  symmetry. apply eneg_unique; try assumption; now apply emul_closed.
Qed.

(** a key that accepts the signature is recovered from the verification point *)
Lemma accepted_recovered d e r s : 1 <= d < n -> 1 <= r < n -> 1 <= s < n -> ecdsa_valid D (d # G) e r s ->
  exists k x y, 1 <= k < n /\ k # G = Some (x, y) /\ x mod n = r /\ recovered (k # G) e r s = d # G.
Proof.
  intros Hd Hr Hs V. apply valid_log in V; [|lia]. destruct V as (x & y & V & Ex). set (k := vlog d e r s mod n).
  pose proof (Z.mod_pos_bound (vlog d e r s) n ltac:(lia)) as Rk. fold k in Rk.
  assert (Ck : cg n k (vlog d e r s)) by (apply cg_mod_l; lia).
  assert (Ek : k # G = Some (x, y)) by (rewrite <- V; apply G_mod; [assumption|lia|apply vlog_nonneg; lia]).
  assert (K0 : k <> 0) by (intros K0; rewrite K0, emul_0 in Ek; discriminate). assert (Hk : 1 <= k < n) by lia.
  exists k, x, y. split; [assumption|]. split; [assumption|]. split; [assumption|]. apply recovered_signer; try assumption.
  assert (K1 : cg n (e + r * d) (s * k)).
  { rewrite Ck, vlog_cg. replace (s * (zinv n s * (e + r * d))) with ((s * zinv n s) * (e + r * d)) by ring. rewrite (inv_n s Hs). now rewrite Z.mul_1_l. }
  rewrite K1. replace (zinv n k * (s * k)) with ((k * zinv n k) * s) by ring. rewrite (inv_n k Hk). now rewrite Z.mul_1_l.
Qed.

(** a point is determined by its abscissa and the parity of its ordinate *)
Lemma parity_point x y y' : on_curve C (Some (x, y)) -> on_curve C (Some (x, y')) -> Z.odd y = Z.odd y' -> y = y'.
Proof.
  intros (Hx & Hy & E) (_ & Hy' & E') P. destruct OK as (Hp & P3 & _).
  assert (K : cg (ep C) ((y - y') * (y + y')) 0).
  { replace ((y - y') * (y + y')) with (y * y - y' * y') by ring. assert (K : cg (ep C) (y * y) (y' * y')) by (apply cg_iff; [lia|congruence]). rewrite K. apply cg_iff; [lia|]. f_equal. ring. }
  apply cg_integral in K; [|assumption]. destruct K as [K|K].
  - apply (cg_small (ep C)); try assumption; try lia. destruct K as [q K]. exists q. lia.
  - apply (proj1 (cg_0 (ep C) _)) in K. destruct K as [q K]. 
    destruct (Z.eq_dec q 0) as [->|Q0]; [lia|]. assert (Q1 : q = 1) by nia. subst q.
    exfalso. assert (OE : Z.odd (y + y') = Z.odd (ep C)) by (f_equal; lia). rewrite Z.odd_add, P, xorb_nilpotent in OE.
    symmetry in OE. rewrite <- Z.negb_even in OE. apply negb_false_iff, Z.even_spec in OE. destruct OE as [j OE].
    assert (D2 : (2 | ep C)) by (exists j; lia). apply prime_divisors in D2; [|assumption]. lia.
Qed.
End Spec.

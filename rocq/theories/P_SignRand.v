(** Where signing gets its randomness, and that nothing else about the machine matters. *)

From Coq Require Import Lia.
From Verif Require Import Base M_BigInt M_Modular M_Curve M_Loop M_Hmac M_Random M_Ecdsa M_Rfc6979
  S_BigInt S_Curve S_EcModel S_Hash S_Sha2 S_Ecdsa S_Rfc6979 S_Sign
  P_BigInt1 P_BigInt3 P_BigInt4 P_BigApi P_Bits P_NumTheory P_Modular P_Curve P_EcModel P_Order P_EcLaws P_Hash P_Ecdsa1 P_Ecdsa2 P_Ecdsa3 P_Rfc6979 P_Sign P_EcdsaProp P_EcdsaProp2.
Open Scope Z_scope.

(** * More fuel never changes what a loop returns *)
(** [b] is what [a] is, unless [a] has not come to an end. *)
Definition upto {A} (a b : outcome A) : Prop := a <> OutOfFuel -> b = a.
Lemma upto_refl {A} (a : outcome A) : upto a a. Proof. intros _. reflexivity. Qed.
Lemma upto_bind {A B} (a b : outcome A) (f g : A -> outcome B) : upto a b -> (forall x, upto (f x) (g x)) -> upto (obind a f) (obind b g).
Proof. intros H K N. destruct a as [x| |]; cbn [obind] in N |- *; [rewrite H by discriminate; cbn [obind]; now apply K|now rewrite H by discriminate|congruence]. Qed.
Lemma loop_upto {S R} n (f g : S -> outcome (S + R)) : (forall s, upto (f s) (g s)) -> forall s, upto (loop n f s) (loop n g s).
Proof.
  intros H. induction n as [|n IH]; intros s; [apply H|]. cbn [loop]. apply upto_bind; [apply IH|]. intros [s'|r]; [apply IH|apply upto_refl].
Qed.
Lemma loop_more {S R} n m (f : S -> outcome (S + R)) s : (n <= m)%nat -> (forall s', loop n f s <> Ret (inl s')) -> upto (loop n f s) (loop m f s).
Proof.
  intros L H N. induction L as [|m L IH]; [reflexivity|]. cbn [loop]. rewrite IH. destruct (loop n f s) as [[s'|r]| |]; cbn [obind]; [now destruct (H s')|reflexivity|reflexivity|congruence].
Qed.
Lemma run_loop_upto {S R} n m (f g : S -> outcome (S + R)) s : (n <= m)%nat -> (forall s, upto (f s) (g s)) -> upto (run_loop n f s) (run_loop m g s).
Proof.
  intros L H N. unfold run_loop in *. destruct (loop n f s) as [x| |] eqn:E; cbn [obind] in N.
  - destruct x as [s'|r]; [congruence|]. assert (G : loop m g s = Ret (inr r)); [|now rewrite G].
    rewrite <- E. assert (E' : loop n g s = Ret (inr r)) by (rewrite <- E; apply (loop_upto n f g H s); now rewrite E).
    rewrite (loop_more n m g s L); rewrite E'; congruence.
  - assert (E' : loop n g s = Panic) by (rewrite <- E; apply (loop_upto n f g H s); now rewrite E).
    rewrite (loop_more n m g s L); rewrite E'; congruence.
  - congruence.
Qed.
Lemma run_loop_same {S R} n (f g : S -> outcome (S + R)) s : (forall s, f s = g s) -> run_loop n f s = run_loop n g s.
Proof.
  intros H. unfold run_loop. assert (E : forall s, loop n f s = loop n g s); [|now rewrite E].
  induction n as [|n IH]; intros t; cbn [loop]; [apply H|]. rewrite IH. destruct (loop n g t) as [[s'|r]| |]; cbn [obind]; [apply IH|reflexivity..].
Qed.

Section Proofs.
Context {cfg : digit_cfg}.

Lemma upto_check {A} (m : outcome bool) (a b : outcome A) : upto a b -> upto (dcheck m a) (dcheck m b).
Proof. intros H. unfold dcheck. destruct (debug_checks cfg); [|exact H]. apply upto_bind; [apply upto_refl|]. intros []; [exact H|apply upto_refl]. Qed.

Lemma generate_fuel (h : hasher) f f' rf hash sk random st : (f <= f')%nat -> upto (generate_nonce h f rf hash sk random st) (generate_nonce h f' rf hash sk random st).
Proof.
  intros L. unfold generate_nonce. apply upto_check. do 3 (apply upto_bind; [apply upto_refl|]; intros ?).
  match goal with |- upto (match ?r with _ => _ end) _ => destruct r as [ex|]; [|apply upto_refl] end.
  do 4 (apply upto_bind; [apply upto_refl|]; intros [? ?]). apply upto_bind; [|intros; apply upto_refl]. apply run_loop_upto; [exact L|]. intros; apply upto_refl.
Qed.
(** Whatever signing does with some fuel, it does with more. *)
Lemma sign_fuel (h : hasher) fuel fuel' hash sk o rng st : (fuel <= fuel')%nat -> sign_with_hasher h fuel hash sk o rng st <> OutOfFuel ->
  sign_with_hasher h fuel' hash sk o rng st = sign_with_hasher h fuel hash sk o rng st.
Proof.
  intros L. change (upto (sign_with_hasher h fuel hash sk o rng st) (sign_with_hasher h fuel' hash sk o rng st)). unfold sign_with_hasher.
  destruct hash as [|b0 bs0] eqn:EH; [apply upto_refl|]. rewrite <- EH.
  apply upto_bind; [apply upto_refl|]. intros []; [apply upto_refl|]. do 3 (apply upto_bind; [apply upto_refl|]; intros ?).
  match goal with |- upto (if ?b then _ else _) _ => destruct b; [apply upto_refl|] end. apply upto_bind; [apply upto_refl|]. intros rf.
  apply run_loop_upto; [exact L|]. intros [i s]. unfold sign_body. apply upto_bind; [now apply generate_fuel|]. intros; apply upto_refl.
Qed.

(** Without additional data the random source is not consulted, whatever it would have done. *)
Lemma sign_ignores (h : hasher) fuel hash sk o rng rng' st : so_extra o = false ->
  sign_with_hasher h fuel hash sk o rng st = sign_with_hasher h fuel hash sk o rng' st.
Proof.
  intros SE. unfold sign_with_hasher. destruct hash as [|b0 bs0] eqn:EH; [reflexivity|]. rewrite <- EH.
  destruct (if so_strict o then _ else _) as [[]| |]; cbn [obind]; try reflexivity.
  destruct (bit_len _) as [bl| |]; cbn [obind]; try reflexivity. destruct (from_be_bytes_max _ _) as [hn| |]; cbn [obind]; try reflexivity.
  destruct (if so_zero o then _ else _) as [[]| |]; cbn [obind]; try reflexivity. destruct (rfc6979_new _ _) as [rf| |] eqn:ER; cbn [obind]; try reflexivity.
  assert (X : rf_extra rf = false).
  { unfold rfc6979_new in ER. rewrite SE in ER. destruct (bit_len _) as [b| |]; cbn [obind] in ER; try discriminate.
    repeat match type of ER with context [obind ?m _] => destruct m; cbn [obind] in ER; try discriminate end. injection ER as <-. reflexivity. }
  apply run_loop_same. intros [i s]. unfold sign_body, generate_nonce. now rewrite X.
Qed.

(** An ideal source, to speak about runs that do not use one. *)
Definition some_rng : nat -> outcome (result get_os_random_bytes_error (list Z)) := fun _ => Ret (Ok (repeat 0 32)).
Lemma some_rng_ok : rng_ok some_rng.
Proof. intros i. left. exists (repeat 0 32). split; [reflexivity|]. split; [|reflexivity]. apply Forall_forall. intros x H. apply repeat_spec in H. subst x. cbv; intuition discriminate. Qed.

Lemma sign_det be nm sk fuel hash o rng (st : h_state (hasher_of be nm)) sg id :
  code_sk sk -> nbits (order (sk_params sk)) < 2 ^ 60 -> bytes hash -> obj nm be st -> so_extra o = false ->
  sign_with_hasher (hasher_of be nm) fuel hash sk o rng st = Ret (Ok (sg, id)) ->
  exists k, RFC6979 nm (order (sk_params sk)) (bi_val (sk_data sk)) hash [] k /\
    signature_of (params_val (sk_params sk)) (so_low_s o) (bi_val (sk_data sk)) (hash_int (order (sk_params sk)) hash) k
      (bi_val (sig_r sg)) (bi_val (sig_s sg)) (recid_u8 id).
Proof.
  intros HK SZ Hb Ho SE EQ. rewrite (sign_ignores _ fuel hash sk o rng some_rng st SE) in EQ.
  destruct (sign_made_from be nm sk fuel hash o some_rng st sg id HK SZ Hb some_rng_ok Ho EQ) as (i & k & (ex & EX & NK) & S).
  unfold extra_data in EX. rewrite SE in EX. subst ex. eauto.
Qed.

(** * The default options *)
Lemma sign_default_from be sk fuel hash rng sg id : code_sk sk -> nbits (order (sk_params sk)) < 2 ^ 60 -> bytes hash -> rng_ok rng ->
  sign_default be fuel hash sk rng = Ret (Ok (sg, id)) ->
  let n := order (sk_params sk) in let d := bi_val (sk_data sk) in let e := hash_int n hash in let D := params_val (sk_params sk) in
  exists i ex k, rng i = Ret (Ok ex) /\ RFC6979 Sha256 n d hash ex k /\
    signature_of D true d e k (bi_val (sig_r sg)) (bi_val (sig_s sg)) (recid_u8 id) /\
    forall j, (j < i)%nat -> exists ex' k', rng j = Ret (Ok ex') /\ RFC6979 Sha256 n d hash ex' k' /\ ecdsa_sign D d e k' = None.
Proof.
  intros HK SZ Hb HR EQ n d e D. unfold sign_default, sign_with_options in EQ. destruct (list_eq_dec Z.eq_dec hash []) as [->|Hne]; [discriminate|].
  assert (HD : code_params (sk_params sk)) by apply HK.
  destruct (sign_ok (sk_params sk) HD be Sha256 SZ sk HK eq_refl hash Hb Hne signing_default rng HR fuel (h_new (hasher_of be Sha256)) sg id (conj eq_refl eq_refl) EQ) as (_ & _ & i & k & (ex & EX & NK) & (_ & _ & _ & S) & F).
  exists i, ex, k. cbn [extra_data so_extra signing_default] in EX. split; [exact EX|]. split; [exact NK|]. split; [exact S|].
  intros j Hj. destruct (F j Hj) as (k' & (ex' & EX' & NK') & N). cbn [extra_data so_extra signing_default] in EX'. eauto 6.
Qed.

(** * When the source fails *)
Lemma sign_unavailable be nm sk fuel hash o rng (st : h_state (hasher_of be nm)) e :
  code_sk sk -> nbits (order (sk_params sk)) < 2 ^ 60 -> bytes hash -> hash <> [] -> rng_ok rng -> obj nm be st ->
  (so_strict o = true -> strict_ok (order (sk_params sk)) hash) -> (so_zero o = false -> hash_int (order (sk_params sk)) hash <> 0) ->
  so_extra o = true -> rng O = Ret (Err e) ->
  sign_with_hasher (hasher_of be nm) fuel hash sk o rng st = Ret (Err (SFailedToGenerateNonce (FailedToGenerateRandomBytes e))).
Proof.
  intros HK SZ Hb Hne HR Ho ST ZR SE R0. assert (HD : code_params (sk_params sk)) by apply HK.
  pose proof (sign_spec (sk_params sk) HD be nm SZ sk HK eq_refl hash Hb Hne o rng HR fuel st Ho (fun H => or_introl (proj1 (ST H)))) as K. cbv zeta in K.
  assert (NF : ~ sfails (sk_params sk) nm sk hash o rng O). { intros (k & (ex & EX & _) & _). unfold extra_data in EX. rewrite SE, R0 in EX. discriminate. }
  assert (NS : ~ sstuck (sk_params sk) nm sk hash o rng fuel O). { intros (ex & EX & _). unfold extra_data in EX. rewrite SE, R0 in EX. discriminate. }
  replace (so_strict o && _) with false in K by (destruct (so_strict o); [cbn [andb]; symmetry; apply negb_false_iff, Z.eqb_eq; now apply ST|reflexivity]).
  replace (negb (so_zero o) && _) with false in K by (destruct (so_zero o); [reflexivity|cbn [negb andb]; symmetry; apply Z.eqb_neq; now apply ZR]).
  destruct K as [(r & i & -> & RR & RF)|(_ & [F|(i & ES & F)])].
  - destruct i as [|i]; [|exfalso; apply NF, RF; lia]. destruct r as [f|err].
    + destruct RR as (k & (ex & EX & _) & _). unfold extra_data in EX. rewrite SE, R0 in EX. discriminate.
    + destruct RR as (_ & e' & E & ->). rewrite R0 in E. injection E as <-. reflexivity.
  - exfalso. apply NF, F. apply Nat.neq_0_lt_0, Nat.pow_nonzero. discriminate.
  - destruct i as [|i]; [contradiction|exfalso; apply NF, F; lia].
Qed.
Lemma sign_error_from be nm sk fuel hash o rng (st : h_state (hasher_of be nm)) err :
  code_sk sk -> nbits (order (sk_params sk)) < 2 ^ 60 -> bytes hash -> rng_ok rng -> obj nm be st ->
  sign_with_hasher (hasher_of be nm) fuel hash sk o rng st = Ret (Err (SFailedToGenerateNonce err)) ->
  so_extra o = true /\ exists i e, rng i = Ret (Err e) /\ err = FailedToGenerateRandomBytes e /\
    forall j, (j < i)%nat -> exists ex k, rng j = Ret (Ok ex) /\ RFC6979 nm (order (sk_params sk)) (bi_val (sk_data sk)) hash ex k /\
      ecdsa_sign (params_val (sk_params sk)) (bi_val (sk_data sk)) (hash_int (order (sk_params sk)) hash) k = None.
Proof.
  intros HK SZ Hb HR Ho EQ. assert (HD : code_params (sk_params sk)) by apply HK. destruct (list_eq_dec Z.eq_dec hash []) as [->|Hne]; [discriminate|].
  assert (ST : so_strict o = true -> strict_usable cfg (order (sk_params sk))).
  { intros ST. destruct (strict_dec cfg (order (sk_params sk))) as [|NB]; [assumption|]. rewrite (sign_panics (sk_params sk) HD be nm sk eq_refl) in EQ by assumption. discriminate. }
  pose proof (sign_spec (sk_params sk) HD be nm SZ sk HK eq_refl hash Hb Hne o rng HR fuel st Ho ST) as K. cbv zeta in K. rewrite EQ in K.
  destruct (_ && _); [discriminate|]. destruct (_ && _); [discriminate|]. destruct K as [(r & i & ER & RR & RF)|(ER & _)]; [|discriminate].
  injection ER as <-. destruct RR as (SE & e & RE & Ee). injection Ee as ->. split; [exact SE|]. exists i, e. split; [exact RE|]. split; [reflexivity|].
  intros j Hj. destruct (RF j Hj) as (k & (ex & EX & NK) & N). unfold extra_data in EX. rewrite SE in EX. eauto.
Qed.
End Proofs.

(** A signature is determined by the parameters, the key, the hash and the nonce. *)
Lemma signature_of_fun D low d e k r s id r' s' id' : signature_of D low d e k r s id -> signature_of D low d e k r' s' id' -> r = r' /\ s = s' /\ id = id'.
Proof.
  intros (x & y & s0 & E1 & E2 & E3 & E4) (x' & y' & s0' & F1 & F2 & F3 & F4). rewrite E1 in F1. injection F1 as <- <-. rewrite E2 in F2. injection F2 as <- <-.
  cbv zeta in *. subst. auto.
Qed.
Lemma sign_everywhere (cfg cfg' : digit_cfg) be be' nm sk sk' fuel fuel' hash o o' rng rng'
    (st : h_state (hasher_of be nm)) (st' : h_state (hasher_of be' nm)) sg id sg' id' :
  @code_sk cfg sk -> @code_sk cfg' sk' -> nbits (@order cfg (sk_params sk)) < 2 ^ 60 -> bytes hash -> obj nm be st -> obj nm be' st' ->
  @params_val cfg (sk_params sk) = @params_val cfg' (sk_params sk') -> @bi_val cfg (sk_data sk) = @bi_val cfg' (sk_data sk') ->
  so_extra o = false -> so_extra o' = false -> so_low_s o = so_low_s o' ->
  @sign_with_hasher cfg (hasher_of be nm) fuel hash sk o rng st = Ret (Ok (sg, id)) ->
  @sign_with_hasher cfg' (hasher_of be' nm) fuel' hash sk' o' rng' st' = Ret (Ok (sg', id')) ->
  @bi_val cfg (sig_r sg) = @bi_val cfg' (sig_r sg') /\ @bi_val cfg (sig_s sg) = @bi_val cfg' (sig_s sg') /\ recid_u8 id = recid_u8 id'.
Proof.
  intros HK HK' SZ Hb Ho Ho' EP ED SE SE' EL H H'. assert (EO : @order cfg (sk_params sk) = @order cfg' (sk_params sk')) by exact (f_equal e_order EP).
  destruct (@sign_det cfg be nm sk fuel hash o rng st sg id HK SZ Hb Ho SE H) as (k & NK & S).
  destruct (@sign_det cfg' be' nm sk' fuel' hash o' rng' st' sg' id' HK' ltac:(now rewrite <- EO) Hb Ho' SE' H') as (k' & NK' & S').
  rewrite <- EO, <- ED in NK', S'. rewrite <- EP, <- EL in S'. rewrite (nonce_unique _ _ _ _ _ _ _ NK NK') in S. exact (signature_of_fun _ _ _ _ _ _ _ _ _ _ _ S S').
Qed.

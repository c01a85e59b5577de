(** The signing loop, and recovery of the signer. *)

From Coq Require Import Lia.
From Verif Require Import Base M_BigInt M_Modular M_Curve M_Loop M_Hmac M_Random M_Ecdsa M_Rfc6979
  S_BigInt S_Curve S_EcModel S_Hash S_Ecdsa S_Recover S_Rfc6979 S_Sign
  P_BigInt1 P_BigInt3 P_BigInt4 P_BigApi P_NumTheory P_Modular P_Curve P_EcModel P_Order P_EcLaws P_Hash P_Ecdsa1 P_Ecdsa2 P_Ecdsa3 P_Rfc6979.
Open Scope Z_scope.

(** * A loop over numbered attempts, which may get stuck *)
Section Attempts.
Context {S R : Type} (body : S -> outcome (S + R)) (Rel : S -> nat -> Prop) (fails : nat -> Prop) (stuck : nat -> Prop) (Q : nat -> R -> Prop).
Hypothesis Hstep : forall s i, Rel s i ->
  (exists s', body s = Ret (inl s') /\ Rel s' (Datatypes.S i) /\ fails i) \/ (exists r, body s = Ret (inr r) /\ Q i r) \/ (body s = OutOfFuel /\ stuck i).
Lemma loop_attempts n : forall s i, Rel s i ->
  (exists s', loop n body s = Ret (inl s') /\ Rel s' (i + 2 ^ n)%nat /\ forall j, (i <= j < i + 2 ^ n)%nat -> fails j) \/
  (exists r j, loop n body s = Ret (inr r) /\ (i <= j)%nat /\ Q j r /\ forall l, (i <= l < j)%nat -> fails l) \/
  (exists j, loop n body s = OutOfFuel /\ (i <= j)%nat /\ stuck j /\ forall l, (i <= l < j)%nat -> fails l).
Proof.
  induction n as [|n IH]; intros s i Hs; cbn [loop].
  - destruct (Hstep s i Hs) as [(s' & E & H1 & H2)|[(r & E & H1)|(E & H1)]].
    + left. exists s'. split; [exact E|]. cbn. rewrite Nat.add_1_r. split; [exact H1|]. intros j Hj. replace j with i by lia. exact H2.
    + right; left. exists r, i. split; [exact E|]. split; [lia|]. split; [exact H1|]. intros l Hl. lia.
    + right; right. exists i. split; [exact E|]. split; [lia|]. split; [exact H1|]. intros l Hl. lia.
  - destruct (IH s i Hs) as [(s1 & -> & H1 & M1)|[(r & j & -> & H)|(j & -> & H)]]; cbn [obind]; [|right; left; exists r, j; auto|right; right; exists j; auto].
    destruct (IH s1 _ H1) as [(s2 & -> & H2 & M2)|[(r & j & -> & H2 & H3 & M2)|(j & -> & H2 & H3 & M2)]].
    + left. exists s2. split; [reflexivity|]. replace (i + 2 ^ Datatypes.S n)%nat with (i + 2 ^ n + 2 ^ n)%nat by (cbn; lia). split; [exact H2|].
      intros j Hj. destruct (Nat.lt_ge_cases j (i + 2 ^ n)) as [L|L]; [apply M1|apply M2]; lia.
    + right; left. exists r, j. split; [reflexivity|]. split; [lia|]. split; [exact H3|].
      intros l Hl. destruct (Nat.lt_ge_cases l (i + 2 ^ n)) as [L|L]; [apply M1|apply M2]; lia.
    + right; right. exists j. split; [reflexivity|]. split; [lia|]. split; [exact H3|].
      intros l Hl. destruct (Nat.lt_ge_cases l (i + 2 ^ n)) as [L|L]; [apply M1|apply M2]; lia.
Qed.
Lemma run_loop_attempts n s : Rel s O ->
  (exists r j, run_loop n body s = Ret r /\ Q j r /\ forall l, (l < j)%nat -> fails l) \/
  (run_loop n body s = OutOfFuel /\ ((forall j, (j < 2 ^ n)%nat -> fails j) \/ exists j, stuck j /\ forall l, (l < j)%nat -> fails l)).
Proof.
  intros Hs. unfold run_loop. destruct (loop_attempts n s O Hs) as [(s1 & -> & H1 & M1)|[(r & j & -> & _ & H & M)|(j & -> & _ & H & M)]]; cbn [obind].
  - right. split; [reflexivity|]. left. intros j Hj. apply M1. lia.
  - left. exists r, j. split; [reflexivity|]. split; [exact H|]. intros l Hl. apply M. lia.
  - right. split; [reflexivity|]. right. exists j. split; [exact H|]. intros l Hl. apply M. lia.
Qed.
End Attempts.

Section Spec.
Variable D : eparams.
Hypothesis OKD : params_ok D.
Local Notation C := (e_curve D).
Local Notation G := (e_base D).
Local Notation n := (e_order D).
Local Notation "k # P" := (emul C k P) (at level 35, right associativity).
Let OK : curve_ok C. Proof. apply OKD. Qed.
Let Hn : prime n. Proof. apply OKD. Qed.
Let N2 : 2 < n. Proof. apply OKD. Qed.
Let HG : on_curve C G. Proof. apply OKD. Qed.

(** What a signature with its recovery id says about its point R. *)
Lemma signature_point low d e k r s id : 1 <= d < n -> 1 <= k < n -> signature_of D low d e k r s id ->
  1 <= r < n /\ 1 <= s < n /\ (low = true -> s <= n / 2) /\
  exists k' x y, 1 <= k' < n /\ k' # G = Some (x, y) /\ x mod n = r /\ id = 2 * Z.b2z (n <=? x) + Z.b2z (Z.odd y) /\ cg n s (zinv n k' * (e + r * d)).
Proof.
  intros Hd Hk (x & y & s0 & EK & ES & E1 & E2). cbv zeta in *. destruct (sign_valid D OKD d e k r s0 Hd Hk ES) as (Hr & Hs0 & _).
  unfold ecdsa_sign in ES. rewrite EK in ES. cbv zeta in ES. destruct (_ || _); [discriminate|]. injection ES as Er Es0.
  assert (CS : cg n s0 (zinv n k * (e + r * d))) by (rewrite <- Es0, Er; apply cg_mod_l; lia).
  assert (ON : Z.odd n = true) by now apply n_odd. pose proof (Z.div_mod n 2 ltac:(lia)) as DM. rewrite Zmod_odd, ON in DM.
  destruct (low && (n / 2 <? s0)) eqn:F.
  - apply andb_true_iff in F. destruct F as [-> F]. apply Z.ltb_lt in F. rewrite E1. split; [exact Hr|]. split; [lia|]. split; [intros _; lia|].
    assert (KG : (n - k) # G = eneg C (k # G)). { apply (G_opp D OKD); [|lia|lia]. exists 1. ring. }
    rewrite EK in KG. cbn [eneg] in KG. assert (Hp : prime (ep C)) by apply OK. assert (P3 : 3 < ep C) by apply OK.
    assert (HK : on_curve C (Some (x, y))) by (rewrite <- EK; now apply emul_closed). destruct HK as (Hx & Hy & _).
    assert (Y0 : y <> 0). { intros ->. apply (kG_no2 D OKD k); [lia|]. exists x. exact EK. }
    assert (EY : (- y) mod ep C = ep C - y) by (rewrite Z.mod_opp_l_nz; rewrite ?Z.mod_small; lia). rewrite EY in KG.
    exists (n - k), x, (ep C - y). split; [lia|]. split; [exact KG|]. split; [exact Er|]. split.
    + rewrite E2. f_equal. f_equal. rewrite Z.odd_sub. assert (OP : Z.odd (ep C) = true). { pose proof (p_odd (ep C) Hp ltac:(lia)) as O. rewrite Zmod_odd in O. destruct (Z.odd (ep C)); [reflexivity|discriminate]. }
      rewrite OP. now destruct (Z.odd y).
    + pose proof (zinv_opp D OKD k Hk) as ZO. set (z := zinv n (n - k)) in *. clearbody z. rewrite ZO.
      assert (K : cg n (n - s0) (- s0)) by (exists 1; ring). rewrite K, CS. apply cg_of_eq. ring.
  - rewrite E1. split; [exact Hr|]. split; [exact Hs0|]. split.
    { intros ->. cbn [andb] in F. apply Z.ltb_ge in F. exact F. }
    exists k, x, y. split; [exact Hk|]. split; [exact EK|]. split; [exact Er|]. split; [rewrite E2, xorb_false_r; reflexivity|exact CS].
Qed.
Lemma signature_valid low d e k r s id : 1 <= d < n -> 1 <= k < n -> signature_of D low d e k r s id -> ecdsa_valid D (d # G) e r s.
Proof.
  intros Hd Hk H. destruct (signature_point low d e k r s id Hd Hk H) as (Hr & Hs & _ & k' & x & y & Hk' & EK & Ex & _ & CS).
  apply (valid_log D OKD); [lia|]. exists x, y. split; [|exact Ex]. rewrite <- EK. apply (G_mod D OKD); [|apply (vlog_nonneg D OKD); lia|lia]. now apply (vlog_k D OKD).
Qed.
End Spec.

Section Proofs.
Context {cfg : digit_cfg}.
Section Params.
Context (D : params) (HD : code_params D).
Local Notation n := (order D).
Local Notation E := (curve_val (d_curve D)).
Local Notation G := (pt_val (d_base D)).
Local Notation "k # P" := (emul E k P) (at level 35, right associativity).
Let OKD : params_ok (params_val D). Proof. apply HD. Qed.
Let OK : curve_ok E. Proof. apply OKD. Qed.
Let Hn : prime n. Proof. apply OKD. Qed.
Let N2 : 2 < n. Proof. apply OKD. Qed.
Let N0 : 0 < n. Proof. lia. Qed.
Let Wn : wf (d_order D). Proof. apply HD. Qed.

Lemma finish_spec o sg id : code_sig sg -> sig_params sg = D -> 0 <= recid_u8 id < 4 ->
  exists sg' id', finish o sg id = Ret (sg', id') /\ code_sig sg' /\ sig_params sg' = D /\ bi_val (sig_r sg') = bi_val (sig_r sg) /\
    let flip := so_low_s o && (n / 2 <? bi_val (sig_s sg)) in
    bi_val (sig_s sg') = (if flip then n - bi_val (sig_s sg) else bi_val (sig_s sg)) /\ recid_u8 id' = Z.lxor (recid_u8 id) (Z.b2z flip).
Proof.
  intros HS ES _. destruct HS as (_ & Wr & Ws & Hr & Hs). rewrite ES in Hr, Hs. unfold finish.
  assert (EQ1 : (if so_low_s o then low <- is_low_s_signature sg ;; Ret (negb low) else Ret false) = Ret (so_low_s o && (n / 2 <? bi_val (sig_s sg)))).
  { destruct (so_low_s o); [|reflexivity]. rewrite (is_low_s_spec D HD) by assumption. cbn [obind andb]. now rewrite Z.ltb_antisym. }
  rewrite EQ1. cbn [obind]. cbv zeta. destruct (_ && _).
  - rewrite ES. ret (bi_sub_spec (d_order D) (sig_s sg) Wn Ws) ns Wns Vns. change (bi_val (d_order D)) with n in Vns. rewrite signature_new_spec by assumption.
    replace (((1 <=? bi_val (sig_r sg)) && (bi_val (sig_r sg) <=? n - 1)) && ((1 <=? bi_val ns) && (bi_val ns <=? n - 1))) with true
      by (symmetry; rewrite !andb_true_iff, !Z.leb_le; rewrite Vns; lia).
    cbn [obind unwrap]. assert (ID : exists id', recid_from_u8 (Z.lxor (recid_u8 id) 1) = Some id' /\ recid_u8 id' = Z.lxor (recid_u8 id) 1) by (destruct id; eexists; split; reflexivity).
    destruct ID as (id' & -> & V'). cbn [obind unwrap]. exists (mkSig (sig_r sg) ns D), id'. split; [reflexivity|].
    split; [split; [exact HD|]; cbn [sig_r sig_s sig_params]; rewrite Vns; split; [exact Wr|]; split; [exact Wns|]; split; lia|]. split; [reflexivity|]. split; [reflexivity|]. split; [exact Vns|exact V'].
  - exists sg, id. split; [reflexivity|]. split; [split; [rewrite ES; exact HD|rewrite ES; auto]|]. split; [exact ES|]. split; [reflexivity|]. split; [reflexivity|]. cbn [Z.b2z]. now rewrite Z.lxor_0_r.
Qed.

Section Sign.
Context (be : bool) (nm : hash_name) (SZ : nbits n < 2 ^ 60).
Local Notation h := (hasher_of be nm).
Context (sk : private_key) (HK : code_sk sk) (ED : sk_params sk = D).
Local Notation d := (bi_val (sk_data sk)).
Context (hash : list Z) (Hb : bytes hash) (Hne : hash <> []).
Context (o : signing_options) (rng : nat -> outcome (result get_os_random_bytes_error (list Z))) (HR : rng_ok rng).
Local Notation e := (hash_int n hash).

Definition attempt (i : nat) (k : Z) : Prop := nonce_of_attempt nm n d hash o rng i k.
Definition sfails (i : nat) : Prop := exists k, attempt i k /\ ecdsa_sign (params_val D) d e k = None.
Definition sstuck (fuel : nat) (i : nat) : Prop :=
  exists ex, extra_data o rng i ex /\ forall j, (j < 2 ^ fuel)%nat -> ~ 1 <= RFC6979_candidate nm n d hash ex j <= n - 1.
Definition good_sign (k : Z) (r : signature * recovery_id) : Prop :=
  code_sig (fst r) /\ sig_params (fst r) = D /\ 1 <= k < n /\
  signature_of (params_val D) (so_low_s o) d e k (bi_val (sig_r (fst r))) (bi_val (sig_s (fst r))) (recid_u8 (snd r)).
Definition sresult (i : nat) (r : result signing_error (signature * recovery_id)) : Prop :=
  match r with
  | Ok f => exists k, attempt i k /\ good_sign k f
  | Err err => so_extra o = true /\ exists e, rng i = Ret (Err e) /\ err = SFailedToGenerateNonce (FailedToGenerateRandomBytes e)
  end.
Local Notation rf := (mkRfc (d_order D) (nbits n) ((nbits n + 7) / 8 * 8) (so_extra o)).

Lemma sign_step fuel hn s i : code_hash D hn -> bi_val hn = e -> (fst s = i /\ obj nm be (snd s)) ->
  (exists s', sign_body h fuel hash sk o rng rf hn s = Ret (inl s') /\ (fst s' = S i /\ obj nm be (snd s')) /\ sfails i) \/
  (exists r, sign_body h fuel hash sk o rng rf hn s = Ret (inr r) /\ sresult i r) \/
  (sign_body h fuel hash sk o rng rf hn s = OutOfFuel /\ sstuck fuel i).
Proof.
  intros Hh Vh. destruct s as [i' st]. cbn [fst snd]. intros [-> Ho]. unfold sign_body.
  assert (HK' := HK). destruct HK' as (_ & Wd & Hd). rewrite ED in Hd. unfold order in Hd, N2.
  assert (Eo : bi_val (d_order (sk_params sk)) = bi_val (d_order D)) by now rewrite ED. assert (Wo : wf (d_order (sk_params sk))) by (rewrite ED; exact Wn).
  assert (GEN : (exists err, so_extra o = true /\ rng i = Ret (Err err)) \/ exists ex, extra_data o rng i ex /\ bytes ex /\ (length ex <= 32)%nat).
  { unfold extra_data. destruct (so_extra o); [|right; exists []; split; [reflexivity|]; split; [constructor|cbn; lia]].
    destruct (HR i) as [(bs & H1 & H2 & H3)|(err & H1)]; [right; exists bs; split; [exact H1|]; split; [exact H2|lia]|left; eauto]. }
  destruct GEN as [(err & SE & RE)|(ex & EX & Bex & Lex)].
  - right; left. rewrite SE. unfold order. rewrite (generate_err (d_order D) Wn N2 be nm fuel sk hash (rng i) st err Wd Hd Eo Wo Hb Hne RE).
    cbn [obind]. eexists. split; [reflexivity|]. cbn [sresult]. split; [exact SE|]. eauto.
  - destruct (generate_spec (d_order D) Wn N2 be nm SZ fuel sk hash (so_extra o) (rng i) st Wd Hd Eo Wo Hb Hne Ho ex EX Bex Lex) as [(k & st' & EG & Wk & NK & O')|(EG & NN)].
    + unfold order. rewrite EG. cbn [obind].
      assert (AT : attempt i (bi_val k)) by (exists ex; split; [exact EX|exact NK]).
      assert (Hk : 1 <= bi_val k < n). { destruct NK as (_ & _ & K & _). unfold order. lia. }
      destruct (sk_sign_spec D HD sk hn k HK ED Hh Wk Hk) as [(sg & id & x & y & -> & CSG & PSG & ES & EK & Er & Eid)|(-> & ES)]; cbn [obind].
      * right; left. assert (IDB : 0 <= recid_u8 id < 4) by (destruct id; cbn; lia).
        destruct (finish_spec o sg id CSG PSG IDB) as (sg' & id' & -> & CSG' & PSG' & Rr & Rs & Ri). cbn [obind]. eexists. split; [reflexivity|].
        exists (bi_val k). split; [exact AT|]. split; [exact CSG'|]. split; [exact PSG'|]. split; [exact Hk|]. cbn [fst snd].
        exists x, y, (bi_val (sig_s sg)). rewrite Vh in ES. split; [exact EK|]. split; [rewrite Rr; exact ES|]. cbv zeta in *. split; [exact Rs|]. rewrite Ri, Eid.
        change (e_order (params_val D)) with n. destruct (so_low_s o && (n / 2 <? bi_val (sig_s sg))), (n <=? x), (Z.odd y); reflexivity.
      * left. eexists. split; [reflexivity|]. cbn [fst snd]. split; [auto|]. exists (bi_val k). split; [exact AT|]. rewrite <- Vh. exact ES.
    + right; right. unfold order. rewrite EG. split; [reflexivity|]. exists ex. split; [exact EX|exact NN].
Qed.

Lemma sign_spec fuel (st : h_state h) : obj nm be st -> (so_strict o = true -> strict_usable cfg n) ->
  let out := sign_with_hasher h fuel hash sk o rng st in
  if so_strict o && negb (8 * Z.of_nat (length hash) =? nbits n) then out = Ret (Err SHashBitLength)
  else if negb (so_zero o) && (e =? 0) then out = Ret (Err SZeroHash)
  else
    (exists r i, out = Ret r /\ sresult i r /\ forall j, (j < i)%nat -> sfails j) \/
    (out = OutOfFuel /\ ((forall j, (j < 2 ^ fuel)%nat -> sfails j) \/ exists i, sstuck fuel i /\ forall j, (j < i)%nat -> sfails j)).
Proof.
  intros Ho ST. cbv zeta. unfold sign_with_hasher. destruct hash as [|b0 bs0] eqn:EH; [congruence|]. rewrite <- EH in *. rewrite ED.
  assert (EQ2 : (if so_strict o then m <- hash_length_matches (Z.of_nat (length hash)) D ;; Ret (negb m) else Ret false) = Ret (so_strict o && negb (8 * Z.of_nat (length hash) =? nbits n))).
  { destruct (so_strict o); [|reflexivity]. rewrite (matches_spec D HD) by auto. reflexivity. }
  rewrite EQ2. cbn [obind]. destruct (_ && _); [reflexivity|]. rewrite (bit_len_n D HD). cbn [obind].
  destruct (hash_n_spec D hash Hne Hb) as (hn & -> & Hh & Vh). cbn [obind].
  assert (EQ3 : (if so_zero o then Ret false else is_zero hn) = Ret (negb (so_zero o) && (e =? 0))).
  { destruct (so_zero o); [reflexivity|]. rewrite is_zero_spec by apply Hh. now rewrite Vh. }
  rewrite EQ3. cbn [obind]. destruct (_ && _); [reflexivity|].
  unfold order in N2. rewrite (rfc6979_new_spec (d_order D) Wn N2). cbn [obind]. change (bi_val (d_order D)) with n.
  apply (run_loop_attempts (sign_body h fuel hash sk o rng rf hn) (fun s i => fst s = i /\ obj nm be (snd s)) sfails (sstuck fuel) sresult); [|split; [reflexivity|exact Ho]].
  intros s i Hs. now apply sign_step.
Qed.
Lemma sign_panics fuel (st : h_state h) : so_strict o = true -> ~ strict_usable cfg n -> sign_with_hasher h fuel hash sk o rng st = Panic.
Proof.
  intros ST NB. unfold sign_with_hasher. destruct hash as [|b0 bs0] eqn:EH; [congruence|]. rewrite <- EH in *. rewrite ED, ST, (matches_panics D HD) by assumption. reflexivity.
Qed.
(** Whatever is returned, it was made from a nonce in range. *)
Lemma sign_ok fuel (st : h_state h) sg id : obj nm be st -> sign_with_hasher h fuel hash sk o rng st = Ret (Ok (sg, id)) ->
  (so_strict o = true -> nbits n mod 8 = 0 /\ 8 * Z.of_nat (length hash) = nbits n) /\ (so_zero o = false -> e <> 0) /\
  exists i k, attempt i k /\ good_sign k (sg, id) /\ forall j, (j < i)%nat -> sfails j.
Proof.
  intros Ho EQ. assert (ST : so_strict o = true -> strict_usable cfg n).
  { intros ST. destruct (strict_dec cfg n) as [|NB]; [assumption|]. rewrite sign_panics in EQ by assumption. discriminate. }
  pose proof (sign_spec fuel st Ho ST) as K. cbv zeta in K. rewrite EQ in K.
  destruct (so_strict o && negb (8 * Z.of_nat (length hash) =? nbits n)) eqn:E1; [discriminate|].
  destruct (negb (so_zero o) && (e =? 0)) eqn:E2; [discriminate|].
  split. { intros S1. rewrite S1 in E1. cbn [andb] in E1. apply negb_false_iff, Z.eqb_eq in E1. split; [|exact E1]. rewrite <- E1, Z.mul_comm. apply Z.mod_mul. lia. }
  split. { intros Z1. rewrite Z1 in E2. cbn [negb andb] in E2. now apply Z.eqb_neq. }
  destruct K as [(r & i & ER & RR & RF)|(ER & _)]; [|discriminate]. injection ER as <-. destruct RR as (k & AT & GS). exists i, k. auto.
Qed.
End Sign.

(** * Recovery *)
Lemma no2_no_panic id e r s : no_two_torsion E -> ~ recovery_panics (params_val D) id e r s.
Proof.
  intros NT (j & x & _ & _ & K). assert (DT : forall k P, on_curve E P -> ~ doubles_two E k P).
  { intros k P HP (i & _ & _ & T). revert T. apply NT, emul_closed; [exact OK|exact HP]. }
  destruct K as [K|(y & K & _ & T)]; [apply (NT _ K); now exists x|]. cbn [params_val e_curve] in *.
  assert (OT : on_curve E (eadd E (emul E s (Some (x, y))) (emul E ((- e) mod n) (pt_val (d_base D))))).
  { apply eadd_closed; [exact OK| |]; apply emul_closed; try exact OK; [exact K|apply (base_code D HD)]. }
  destruct T as [T|[T|[_ T]]]; revert T; cbv zeta; cbn [params_val e_curve e_order e_base]; apply DT; [exact K|exact OT|]. apply emul_closed; [exact OK|exact OT].
Qed.
Lemma recover_cases sg hash o : code_sig sg -> sig_params sg = D -> bytes hash -> hash <> [] -> (ro_strict o = true -> strict_usable cfg n) ->
  0 <= d_cofactor D < 2 ^ 32 -> forall id,
  let out (res : outcome (result recovery_error (list public_key))) :=
    recover_with_options sg hash id o =
      if ro_strict o && negb (8 * Z.of_nat (length hash) =? nbits n) then Ret (Err RHashBitLength)
      else if hash_int n hash =? 0 then Ret (Err RZeroHash) else res in
  (recovery_panics (params_val D) id (hash_int n hash) (bi_val (sig_r sg)) (bi_val (sig_s sg)) /\ out Panic) \/
  (~ recovery_panics (params_val D) id (hash_int n hash) (bi_val (sig_r sg)) (bi_val (sig_s sg)) /\
  exists h ks, bi_val h = hash_int n hash /\ code_hash D h /\ out (Ret (Ok ks)) /\
    let (lo, hi) := j_bounds id D in
    (id <> None -> (length ks <= Z.to_nat (hi - lo + 1))%nat) /\
    (forall pk, In pk ks -> good_key D sg h pk /\ exists x y, candidate D sg id lo hi x y /\ pt_val (pk_data pk) = recovered (params_val D) (Some (x, y)) (bi_val h) (bi_val (sig_r sg)) (bi_val (sig_s sg))) /\
    (forall x y, candidate D sg id lo hi x y -> good_point D sg h (Some (x, y)) ->
       exists pk, In pk ks /\ pt_val (pk_data pk) = recovered (params_val D) (Some (x, y)) (bi_val h) (bi_val (sig_r sg)) (bi_val (sig_s sg)))).
Proof.
  intros HS ES Hb Hne ST CF id out. assert (HS' := HS). destruct HS' as (_ & Wr & Ws & Hr & Hs). rewrite ES in Hr, Hs.
  destruct (hash_n_spec D hash Hne Hb) as (h & E1 & Hh & Vh).
  destruct (invert_n D HD (sig_r sg) Wr Hr) as (ri & E2 & Wri & Vri).
  destruct (bi_neg_spec h (proj1 Hh)) as [Wneg Vneg].
  destruct (modulo_n D HD (bi_neg h) Wneg) as (en & E3 & We & Ve). rewrite Vneg in Ve.
  assert (JB : 0 <= fst (j_bounds id D) /\ fst (j_bounds id D) <= snd (j_bounds id D) + 1 /\ snd (j_bounds id D) < 2 ^ 32 /\
    forall j, id_range (d_cofactor D) id j <-> fst (j_bounds id D) <= j <= snd (j_bounds id D)).
  { destruct id as [[| | |]|]; cbn [j_bounds fst snd id_range]; (split; [lia|]); (split; [lia|]); (split; [lia|]); intros; lia. }
  assert (OUT : forall res, (let (lo, hi) := j_bounds id D in recover_loop sg h en ri id (Z.to_nat (hi - lo + 1)) lo) = res -> out (ks <- res ;; Ret (Ok ks))).
  { intros res ER. unfold out, recover_with_options. clear out. cbv zeta. destruct hash as [|b0 bs0] eqn:EH; [congruence|]. rewrite <- EH in *. rewrite ES.
    assert (EQ2 : (if ro_strict o then m <- hash_length_matches (Z.of_nat (length hash)) D ;; Ret (negb m) else Ret false) = Ret (ro_strict o && negb (8 * Z.of_nat (length hash) =? nbits n))).
    { destruct (ro_strict o); [|reflexivity]. rewrite (matches_spec D HD) by auto. reflexivity. }
    rewrite EQ2. cbn [obind]. destruct (_ && _); [reflexivity|]. rewrite (bit_len_n D HD). cbn [obind]. rewrite E1. cbn [obind].
    rewrite is_zero_spec by apply Hh. cbn [obind]. rewrite Vh. destruct (_ =? 0); [reflexivity|].
    destruct (j_bounds id D) as [lo hi]. rewrite E2. cbn [obind]. rewrite E3. cbn [obind]. rewrite ER. reflexivity. }
  destruct (j_bounds id D) as [lo hi] eqn:EJ. cbn [fst snd] in JB. destruct JB as (J0 & J1 & J2 & JR).
  assert (BL : blocked D sg h id lo hi <-> recovery_panics (params_val D) id (hash_int n hash) (bi_val (sig_r sg)) (bi_val (sig_s sg))).
  { rewrite <- Vh. unfold blocked, recovery_panics. cbn [params_val e_cofactor e_order e_curve]. split; intros (j & x & K); exists j, x; (split; [apply JR|]; apply K). }
  pose proof (loop_spec D HD sg HS ES CF h Hh en We Ve ri Wri Vri id (Z.to_nat (hi - lo + 1)) lo ltac:(lia)) as LS.
  rewrite Z2Nat.id in LS by lia. replace (lo + (hi - lo + 1) - 1) with hi in LS by lia.
  destruct LS as [[T E4]|(T & ks & E4 & L4 & S4 & C4)].
  - change (2 ^ 33) with (2 ^ 32 + 2 ^ 32). change (2 ^ 32) with 4294967296 in *. lia.
  - left. split; [now apply BL|]. exact (OUT _ E4).
  - right. split; [now rewrite <- BL|]. exists h, ks. split; [exact Vh|]. split; [exact Hh|]. split; [exact (OUT _ E4)|auto].
Qed.
Lemma recover_spec sg hash o : code_sig sg -> sig_params sg = D -> bytes hash -> hash <> [] -> (ro_strict o = true -> strict_usable cfg n) ->
  0 <= d_cofactor D < 2 ^ 32 -> no_two_torsion E -> forall id,
  exists h ks, bi_val h = hash_int n hash /\ code_hash D h /\
    recover_with_options sg hash id o = Ret (
      if ro_strict o && negb (8 * Z.of_nat (length hash) =? nbits n) then Err RHashBitLength
      else if hash_int n hash =? 0 then Err RZeroHash
      else Ok ks) /\
    let (lo, hi) := j_bounds id D in
    (id <> None -> (length ks <= Z.to_nat (hi - lo + 1))%nat) /\
    (forall pk, In pk ks -> good_key D sg h pk /\ exists x y, candidate D sg id lo hi x y /\ pt_val (pk_data pk) = recovered (params_val D) (Some (x, y)) (bi_val h) (bi_val (sig_r sg)) (bi_val (sig_s sg))) /\
    (forall x y, candidate D sg id lo hi x y -> good_point D sg h (Some (x, y)) ->
       exists pk, In pk ks /\ pt_val (pk_data pk) = recovered (params_val D) (Some (x, y)) (bi_val h) (bi_val (sig_r sg)) (bi_val (sig_s sg))).
Proof.
  intros HS ES Hb Hne ST CF NT id. destruct (recover_cases sg hash o HS ES Hb Hne ST CF id) as [[P _]|(_ & h & ks & K1 & K2 & K3 & K4)].
  - exfalso. revert P. now apply no2_no_panic.
  - exists h, ks. split; [exact K1|]. split; [exact K2|]. split; [|exact K4]. cbv beta in K3. rewrite K3. destruct (_ && _); [reflexivity|]. now destruct (_ =? _).
Qed.
End Params.
End Proofs.

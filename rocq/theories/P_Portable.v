(** Signing against [SIGNING]; results on different machines. *)

From Coq Require Import Lia.
From Verif Require Import Base M_BigInt M_Modular M_Curve M_Loop M_Hmac M_Random M_Ecdsa M_Rfc6979
  S_BigInt S_Curve S_EcModel S_Hash S_Sha2 S_Ecdsa S_Rfc6979 S_Sign S_Portable
  P_BigInt1 P_BigInt3 P_BigInt4 P_BigApi P_Bits P_NumTheory P_Modular P_Curve P_EcModel P_Order P_EcLaws P_Hash P_Ecdsa1 P_Ecdsa2 P_Ecdsa3 P_Rfc6979 P_Sign P_EcdsaProp P_EcdsaProp2 P_SignRand.
Open Scope Z_scope.

Lemma attempt_fun nm n d hash o rng i k k' : nonce_of_attempt nm n d hash o rng i k -> nonce_of_attempt nm n d hash o rng i k' -> k = k'.
Proof.
  intros (ex & E1 & K1) (ex' & E2 & K2). assert (EE : ex = ex'). { unfold extra_data in *. destruct (so_extra o); congruence. } subst ex'.
  eapply is_nonce_unique; eassumption.
Qed.
(** At most one result. *)
Lemma SIGNING_fun nm D d hash o rng v v' : SIGNING nm D d hash o rng v -> SIGNING nm D d hash o rng v' -> v = v'.
Proof.
  unfold SIGNING. cbv zeta. destruct hash as [|b0 bs0] eqn:EH; [congruence|]. rewrite <- EH. clear EH.
  destruct (_ && _); [congruence|]. destruct (_ && _); [congruence|]. intros (i & F & R) (i' & F' & R').
  assert (NF : forall i v, (match v with
      | Ok (r, s, id) => exists k, nonce_of_attempt nm (e_order D) d hash o rng i k /\ signature_of D (so_low_s o) d (hash_int (e_order D) hash) k r s id
      | Err err => so_extra o = true /\ exists x, rng i = Ret (Err x) /\ err = SFailedToGenerateNonce (FailedToGenerateRandomBytes x) end : Prop) ->
      ~ exists k, nonce_of_attempt nm (e_order D) d hash o rng i k /\ ecdsa_sign D d (hash_int (e_order D) hash) k = None).
  { intros j [[[r s] id]|err] H (k & A & N).
    - destruct H as (k' & A' & (x & y & s0 & _ & S & _)). rewrite (attempt_fun _ _ _ _ _ _ _ _ _ A A') in N. congruence.
    - destruct H as (SE & x & RX & _). destruct A as (ex & EX & _). unfold extra_data in EX. rewrite SE in EX. congruence. }
  assert (EI : i = i').
  { destruct (Nat.lt_trichotomy i i') as [L|[L|L]]; [|exact L|]; exfalso; [apply (NF i v R), F', L|apply (NF i' v' R'), F, L]. }
  subst i'. destruct v as [[[r s] id]|err], v' as [[[r' s'] id']|err'].
  - destruct R as (k & A & S), R' as (k' & A' & S'). rewrite (attempt_fun _ _ _ _ _ _ _ _ _ A A') in S. destruct (signature_of_fun _ _ _ _ _ _ _ _ _ _ _ S S') as (-> & -> & ->). reflexivity.
  - destruct R as (k & (ex & EX & _) & _), R' as (SE & x & RX & _). unfold extra_data in EX. rewrite SE in EX. congruence.
  - destruct R' as (k & (ex & EX & _) & _), R as (SE & x & RX & _). unfold extra_data in EX. rewrite SE in EX. congruence.
  - destruct R as (_ & x & RX & ->), R' as (_ & x' & RX' & ->). rewrite RX in RX'. injection RX' as <-. reflexivity.
Qed.

Section Proofs.
Context {cfg : digit_cfg}.

Section Exact.
Context (be : bool) (nm : hash_name) (sk : private_key) (HK : code_sk sk).
Local Notation D := (sk_params sk).
Local Notation n := (order D).
Local Notation d := (bi_val (sk_data sk)).
Context (SZ : nbits n < 2 ^ 60) (hash : list Z) (Hb : bytes hash) (o : signing_options).
Context (rng : nat -> outcome (result get_os_random_bytes_error (list Z))) (HR : rng_ok rng).
Context (st : h_state (hasher_of be nm)) (Ho : obj nm be st).
Local Notation e := (hash_int n hash).
Local Notation out fuel := (sign_with_hasher (hasher_of be nm) fuel hash sk o rng st).
Let HD : code_params D. Proof. apply HK. Qed.

Lemma signing_sound fuel r : out fuel = Ret r -> SIGNING nm (params_val D) d hash o rng (sign_val r).
Proof.
  intros EQ. unfold SIGNING. cbv zeta. change (e_order (params_val D)) with n. destruct hash as [|b0 bs0] eqn:EH; [cbn in EQ; injection EQ as <-; reflexivity|]. rewrite <- EH in *.
  assert (Hne : hash <> []) by (rewrite EH; discriminate). clear EH.
  assert (ST : so_strict o = true -> strict_usable cfg n).
  { intros ST. destruct (strict_dec cfg n) as [|NB]; [assumption|]. rewrite (sign_panics D HD be nm sk eq_refl) in EQ by assumption. discriminate. }
  pose proof (sign_spec D HD be nm SZ sk HK eq_refl hash Hb Hne o rng HR fuel st Ho ST) as K. cbv zeta in K. rewrite EQ in K.
  destruct (_ && _); [now injection K as ->|]. destruct (_ && _); [now injection K as ->|]. destruct K as [(r' & i & ER & RR & RF)|(ER & _)]; [|discriminate].
  injection ER as <-. exists i. split; [exact RF|]. destruct r as [[sg id]|err]; cbn [sign_val sresult] in *.
  - destruct RR as (k & A & (_ & _ & _ & S)). exists k. split; [exact A|exact S].
  - exact RR.
Qed.
Lemma signing_complete v : (so_strict o = true -> strict_usable cfg n) -> SIGNING nm (params_val D) d hash o rng v ->
  exists F, forall fuel, (F <= fuel)%nat -> exists r, out fuel = Ret r /\ sign_val r = v.
Proof.
  intros ST V. cut (exists F, forall fuel, (F <= fuel)%nat -> exists r, out fuel = Ret r).
  { intros (F & H). exists F. intros fuel L. destruct (H fuel L) as (r & E). exists r. split; [exact E|]. exact (SIGNING_fun _ _ _ _ _ _ _ _ (signing_sound fuel r E) V). }
  destruct (list_eq_dec Z.eq_dec hash []) as [E0|Hne]. { exists O. intros fuel _. exists (Err SEmptyHash). rewrite E0. reflexivity. }
  assert (SP := fun fuel => sign_spec D HD be nm SZ sk HK eq_refl hash Hb Hne o rng HR fuel st Ho ST). cbv zeta in SP.
  unfold SIGNING in V. cbv zeta in V. change (e_order (params_val D)) with n in V. destruct hash as [|b0 bs0] eqn:EH; [congruence|]. rewrite <- EH in *. clear EH.
  destruct (_ && _); [exists O; intros fuel _; rewrite SP; eauto|]. destruct (_ && _); [exists O; intros fuel _; rewrite SP; eauto|]. destruct V as (i & F & R).
  refine (sign_terminates be nm sk HK SZ hash Hb Hne o rng HR st Ho ST i _ _).
  - intros j Hj. destruct (Nat.eq_dec j i) as [->|NE]; [|right; destruct (F j ltac:(lia)) as (k & A & _); eauto].
    destruct v as [[[r s] id]|err]; [right; destruct R as (k & A & _); eauto|left]. destruct R as (SE & x & RX & _). split; eauto.
  - destruct v as [[[r s] id]|err]; [right; destruct R as (k & A & (x & y & s0 & _ & S & _)); exists k; split; [exact A|congruence]|left]. destruct R as (SE & x & RX & _). split; eauto.
Qed.
End Exact.
End Proofs.

(** * Two machines *)
Section Two.
Context (cfg cfg' : digit_cfg).

Lemma alike n : (nbits n mod 8 = 0 -> strict_alike cfg cfg' n) /\ (debug_checks cfg = debug_checks cfg' -> strict_alike cfg cfg' n) /\
  (nbits n mod 8 <> 0 -> debug_checks cfg <> debug_checks cfg' -> ~ strict_alike cfg cfg' n).
Proof.
  unfold strict_alike, strict_usable. split; [|split].
  - intros E. rewrite E. tauto.
  - intros ->. reflexivity.
  - intros N D [H K]. destruct (debug_checks cfg), (debug_checks cfg'); try congruence; [destruct (K (or_intror eq_refl))|destruct (H (or_intror eq_refl))]; congruence.
Qed.

Lemma sign_portable be be' nm sk sk' hash o rng (st : h_state (hasher_of be nm)) (st' : h_state (hasher_of be' nm)) :
  @code_sk cfg sk -> @code_sk cfg' sk' -> nbits (@order cfg (sk_params sk)) < 2 ^ 60 -> bytes hash -> rng_ok rng -> obj nm be st -> obj nm be' st' ->
  @params_val cfg (sk_params sk) = @params_val cfg' (sk_params sk') -> @bi_val cfg (sk_data sk) = @bi_val cfg' (sk_data sk') ->
  (so_strict o = true -> strict_alike cfg cfg' (@order cfg (sk_params sk))) ->
  forall fuel r, @sign_with_hasher cfg (hasher_of be nm) fuel hash sk o rng st = Ret r ->
  exists F, forall fuel', (F <= fuel')%nat -> exists r', @sign_with_hasher cfg' (hasher_of be' nm) fuel' hash sk' o rng st' = Ret r' /\
    @sign_val cfg r = @sign_val cfg' r'.
Proof.
  intros HK HK' SZ Hb HR Ho Ho' EP ED AL fuel r EQ. assert (EO : @order cfg (sk_params sk) = @order cfg' (sk_params sk')) by exact (f_equal e_order EP).
  pose proof (@signing_sound cfg be nm sk HK SZ hash Hb o rng HR st Ho fuel r EQ) as V. rewrite EP, ED in V.
  destruct (list_eq_dec Z.eq_dec hash []) as [->|Hne]. { exists O. intros fuel' _. exists (Err SEmptyHash). split; [reflexivity|]. unfold SIGNING in V. rewrite V. reflexivity. }
  assert (SZ' : nbits (@order cfg' (sk_params sk')) < 2 ^ 60) by now rewrite <- EO.
  destruct (fun ST => @signing_complete cfg' be' nm sk' HK' SZ' hash Hb o rng HR st' Ho' _ ST V) as (F & H).
  - intros ST. rewrite <- EO. apply (AL ST). destruct (strict_dec cfg (@order cfg (sk_params sk))) as [|NB]; [assumption|].
    rewrite (@sign_panics cfg (sk_params sk) (proj1 HK) be nm sk eq_refl hash Hb Hne o rng fuel st ST NB) in EQ. discriminate.
  - exists F. intros fuel' L. destruct (H fuel' L) as (r' & E & Q). exists r'. split; [exact E|now symmetry].
Qed.

Lemma verify_portable pk pk' sg sg' hash o :
  @code_pk cfg pk -> @code_pk cfg' pk' -> @code_sig cfg sg -> @code_sig cfg' sg' -> sig_params sg = pk_params pk -> sig_params sg' = pk_params pk' -> bytes hash ->
  @params_val cfg (pk_params pk) = @params_val cfg' (pk_params pk') -> @pt_val cfg (pk_data pk) = @pt_val cfg' (pk_data pk') ->
  @bi_val cfg (sig_r sg) = @bi_val cfg' (sig_r sg') -> @bi_val cfg (sig_s sg) = @bi_val cfg' (sig_s sg') ->
  (vo_strict o = true -> strict_alike cfg cfg' (@order cfg (pk_params pk))) ->
  @verify_with_options cfg hash sg pk o = @verify_with_options cfg' hash sg' pk' o.
Proof.
  intros HP HP' HS HS' ES ES' Hb EP EQ Er Es AL. assert (EO : @order cfg (pk_params pk) = @order cfg' (pk_params pk')) by exact (f_equal e_order EP).
  destruct (list_eq_dec Z.eq_dec hash []) as [->|Hne]; [reflexivity|].
  assert (D1 : vo_strict o = true /\ ~ strict_usable cfg (@order cfg (pk_params pk)) \/ (vo_strict o = true -> strict_usable cfg (@order cfg (pk_params pk)))).
  { destruct (vo_strict o); [|right; discriminate]. destruct (strict_dec cfg (@order cfg (pk_params pk))); auto. }
  assert (HIGH : forall (c : digit_cfg) q sgn, @code_params c (pk_params q) -> sig_params sgn = pk_params q -> @wf c (sig_s sgn) -> vo_low_s o = true -> @order c (pk_params q) / 2 < @bi_val c (sig_s sgn) ->
    @verify_with_options c hash sgn q o = Ret (Err VStrictHighS)).
  { intros c q sgn HDq Eq Ws LO HI. unfold verify_with_options. destruct hash as [|b0 bs0]; [congruence|]. rewrite LO, (is_low_s_spec (pk_params q) HDq) by assumption. cbn [obind].
    replace (_ <=? _) with false by (symmetry; apply Z.leb_gt; exact HI). reflexivity. }
  destruct D1 as [[ST NB]|ST].
  - destruct (vo_low_s o && (@order cfg (pk_params pk) / 2 <? @bi_val cfg (sig_s sg))) eqn:EL.
    + apply andb_true_iff in EL. destruct EL as [E1 E2]. apply Z.ltb_lt in E2.
      rewrite (HIGH cfg pk sg), (HIGH cfg' pk' sg'); try assumption; [reflexivity|apply HP'|apply HS'|rewrite <- EO, <- Es; exact E2|apply HP|apply HS].
    + assert (LS : vo_low_s o = true -> @bi_val cfg (sig_s sg) <= @order cfg (pk_params pk) / 2). { intros L. rewrite L in EL. cbn [andb] in EL. now apply Z.ltb_ge in EL. }
      rewrite (@verify_panics cfg (pk_params pk) (proj1 HP) pk sg hash o eq_refl ES (proj1 (proj2 (proj2 HS))) Hne ST NB LS).
      rewrite (@verify_panics cfg' (pk_params pk') (proj1 HP') pk' sg' hash o eq_refl ES' (proj1 (proj2 (proj2 HS'))) Hne ST); [reflexivity|rewrite <- EO; intros U; exact (NB (proj2 (AL ST) U))|now rewrite <- EO, <- Es].
  - destruct (@verify_spec cfg (pk_params pk) (proj1 HP) pk sg hash o HP eq_refl HS ES Hb Hne ST) as (b & -> & B).
    destruct (@verify_spec cfg' (pk_params pk') (proj1 HP') pk' sg' hash o HP' eq_refl HS' ES' Hb Hne ltac:(intros S; rewrite <- EO; apply (AL S); now apply ST)) as (b' & -> & B').
    rewrite <- EO, <- EP, <- EQ, <- Er, <- Es in *. assert (b = b') as ->; [|reflexivity]. destruct b, b'; intuition congruence.
Qed.

Lemma recover_portable sg sg' hash id o :
  @code_sig cfg sg -> @code_sig cfg' sg' -> 0 <= d_cofactor (sig_params sg) < 2 ^ 32 -> bytes hash ->
  @params_val cfg (sig_params sg) = @params_val cfg' (sig_params sg') -> @bi_val cfg (sig_r sg) = @bi_val cfg' (sig_r sg') -> @bi_val cfg (sig_s sg) = @bi_val cfg' (sig_s sg') ->
  (ro_strict o = true -> strict_alike cfg cfg' (@order cfg (sig_params sg))) ->
  match @recover_with_options cfg sg hash id o, @recover_with_options cfg' sg' hash id o with
  | Ret (Ok ks), Ret (Ok ks') => same_keys cfg cfg' ks ks'
  | Ret (Err e), Ret (Err e') => e = e'
  | Panic, Panic => True
  | _, _ => False
  end.
Proof.
  intros HS HS' RC Hb EP Er Es AL. assert (EO : @order cfg (sig_params sg) = @order cfg' (sig_params sg')) by exact (f_equal e_order EP).
  assert (EC : @curve_val cfg (d_curve (sig_params sg)) = @curve_val cfg' (d_curve (sig_params sg'))) by exact (f_equal e_curve EP).
  assert (EF : d_cofactor (sig_params sg) = d_cofactor (sig_params sg')) by exact (f_equal e_cofactor EP).
  assert (RC' : 0 <= d_cofactor (sig_params sg') < 2 ^ 32) by now rewrite <- EF.
  destruct (list_eq_dec Z.eq_dec hash []) as [->|Hne]; [reflexivity|].
  assert (D1 : ro_strict o = true /\ ~ strict_usable cfg (@order cfg (sig_params sg)) \/ (ro_strict o = true -> strict_usable cfg (@order cfg (sig_params sg)))).
  { destruct (ro_strict o); [|right; discriminate]. destruct (strict_dec cfg (@order cfg (sig_params sg))); auto. }
  destruct D1 as [[ST NB]|ST].
  - assert (PAN : forall (c : digit_cfg) sgn, @code_params c (sig_params sgn) -> ~ strict_usable c (@order c (sig_params sgn)) -> @recover_with_options c sgn hash id o = Panic).
    { intros c sgn HDs N. unfold recover_with_options. cbv zeta. destruct hash as [|b0 bs0]; [congruence|]. rewrite ST, (matches_panics (sig_params sgn) HDs) by assumption. reflexivity. }
    rewrite (PAN cfg sg (proj1 HS) NB), (PAN cfg' sg' (proj1 HS')); [exact I|rewrite <- EO; intros U; exact (NB (proj2 (AL ST) U))].
  - destruct (@recover_cases cfg (sig_params sg) (proj1 HS) sg hash o HS eq_refl Hb Hne ST RC id) as [[Q E1]|(Q & h & ks & Vh & Hh & E1 & K)];
    destruct (@recover_cases cfg' (sig_params sg') (proj1 HS') sg' hash o HS' eq_refl Hb Hne ltac:(intros S; rewrite <- EO; apply (AL S); now apply ST) RC' id) as [[Q' E2]|(Q' & h' & ks' & Vh' & Hh' & E2 & K')];
    cbv beta in E1, E2; rewrite E1, E2; clear E1 E2; rewrite <- EO in *; rewrite <- Er, <- Es, <- EP in Q'; (destruct (_ && _); [reflexivity|]); (destruct (_ =? _); [reflexivity|]); try contradiction; [exact I|].
    assert (JB : j_bounds id (sig_params sg') = j_bounds id (sig_params sg)) by (unfold j_bounds; now rewrite EF). rewrite JB in K'.
    destruct (j_bounds id (sig_params sg)) as [lo hi]. destruct K as (_ & K1 & K2), K' as (_ & K1' & K2').
    assert (GP : forall (c : digit_cfg) sgn hh pk x y, @good_key c (sig_params sgn) sgn hh pk ->
      @pt_val c (pk_data pk) = recovered (@params_val c (sig_params sgn)) (Some (x, y)) (@bi_val c hh) (@bi_val c (sig_r sgn)) (@bi_val c (sig_s sgn)) -> @good_point c (sig_params sgn) sgn hh (Some (x, y))).
    { intros c sgn hh pk x y ((HDq & WP & VP) & EPq & V) R. rewrite EPq in HDq, VP. destruct (valid_point_of _ _ (params_curve _ HDq) WP VP) as [_ NN].
      destruct (pt_val (pk_data pk)) as [[a b]|] eqn:EV; [|congruence]. destruct (pt_some _ _ _ WP EV) as [Ea Eb]. rewrite Ea, Eb in VP. exists a, b. rewrite <- R. auto. }
    intros P. split; intros (pk & I & E).
    + destruct (K1 pk I) as (G & x & y & C & R). destruct (K2' x y) as (pk' & I' & R').
      * unfold candidate in *. now rewrite <- Er, <- EO, <- EC.
      * specialize (GP cfg sg h pk x y G R). unfold good_point in *. now rewrite <- EP, <- Er, <- Es, Vh', <- Vh.
      * exists pk'. split; [exact I'|]. rewrite R', <- E, R. now rewrite <- EP, <- Er, <- Es, Vh', <- Vh.
    + destruct (K1' pk I) as (G & x & y & C & R). destruct (K2 x y) as (pk' & I' & R').
      * unfold candidate in *. now rewrite Er, EO, EC.
      * specialize (GP cfg' sg' h' pk x y G R). unfold good_point in *. now rewrite EP, Er, Es, Vh, <- Vh'.
      * exists pk'. split; [exact I'|]. rewrite R', <- E, R. now rewrite EP, Er, Es, Vh, <- Vh'.
Qed.

Lemma public_key_portable sk sk' : @code_sk cfg sk -> @code_sk cfg' sk' ->
  @params_val cfg (sk_params sk) = @params_val cfg' (sk_params sk') -> @bi_val cfg (sk_data sk) = @bi_val cfg' (sk_data sk') ->
  exists pk pk', @public_key_of cfg sk = Ret pk /\ @public_key_of cfg' sk' = Ret pk' /\ @pt_val cfg (pk_data pk) = @pt_val cfg' (pk_data pk').
Proof.
  intros HK HK' EP ED. destruct (@public_key_of_full cfg sk HK) as (pk & E & M & _). destruct (@public_key_of_full cfg' sk' HK') as (pk' & E' & M' & _).
  exists pk, pk'. split; [exact E|]. split; [exact E'|].
  assert (V : @pt_val cfg (pk_data pk) = emul (e_curve (@params_val cfg (sk_params sk))) (@bi_val cfg (sk_data sk)) (e_base (@params_val cfg (sk_params sk)))) by apply M.
  assert (V' : @pt_val cfg' (pk_data pk') = emul (e_curve (@params_val cfg' (sk_params sk'))) (@bi_val cfg' (sk_data sk')) (e_base (@params_val cfg' (sk_params sk')))) by apply M'.
  now rewrite V, V', EP, ED.
Qed.
End Two.

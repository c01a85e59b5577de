(** The nonce and the gates in front of signing, verification and recovery. *)

From Coq Require Import Lia.
From Verif Require Import Base M_BigInt M_Modular M_Curve M_Loop M_Hmac M_Random M_Ecdsa M_Rfc6979
  S_BigInt S_Curve S_EcModel S_Hash S_Sha2 S_Ecdsa S_Rfc6979 S_Sign
  P_BigInt1 P_BigInt3 P_BigInt4 P_BigApi P_Bits P_NumTheory P_Modular P_Curve P_EcModel P_Order P_EcLaws P_Hash P_Ecdsa1 P_Ecdsa2 P_Ecdsa3 P_Rfc6979 P_Sign P_EcdsaProp.
Open Scope Z_scope.

(** [hash_int] is the number written by the first bits of the hash. *)
Lemma hash_int_bits n hash : 0 < n -> bytes hash -> hash_int n hash = Z_of_bits (firstn (Z.to_nat (nbits n)) (bits_of_bytes hash)).
Proof.
  intros N0 Hb. unfold hash_int. pose proof (Z.log2_nonneg n) as L0. assert (NB : 0 < nbits n) by (unfold nbits; lia).
  assert (LB : Z.of_nat (length (bits_of_bytes hash)) = 8 * Z.of_nat (length hash)).
  { unfold bits_of_bytes. clear Hb. induction hash as [|b t IH]; [reflexivity|]. cbn [flat_map length]. rewrite app_length, bits_length. lia. }
  rewrite <- (Z_of_bits_of_bytes hash Hb). set (bs := bits_of_bytes hash) in *. set (m := Z.to_nat (nbits n)).
  rewrite <- (firstn_skipn m bs) at 1. rewrite Z_of_bits_app. set (t := skipn m bs).
  assert (LT : Z.of_nat (length t) = Z.max 0 (8 * Z.of_nat (length hash) - nbits n)). { unfold t, m. rewrite skipn_length. lia. }
  rewrite <- LT. assert (R : 0 <= Z_of_bits t < 2 ^ Z.of_nat (length t)).
  { clear LT. clearbody t. induction t as [|b t IH] using rev_ind; [cbn; lia|]. rewrite Z_of_bits_app, app_length. cbn [length]. rewrite Nat2Z.inj_add. change (Z.of_nat 1) with 1.
    rewrite Z.pow_add_r by lia. change (2 ^ 1) with 2. assert (0 <= Z_of_bits [b] < 2) by (destruct b; cbn; lia). lia. }
  rewrite Z.add_comm, Z.div_add by lia. rewrite Z.div_small by exact R. lia.
Qed.

Section Proofs.
Context {cfg : digit_cfg}.

(** * The nonce *)
Section Nonce.
Context (be : bool) (nm : hash_name) (sk : private_key).
Local Notation q := (d_order (sk_params sk)).
Local Notation n := (order (sk_params sk)).
Local Notation d := (bi_val (sk_data sk)).
Context (Wq : wf q) (Hq : 2 < n) (SZ : nbits n < 2 ^ 60) (Wd : wf (sk_data sk)) (Hd : 1 <= d <= n - 1).
Context (hash : list Z) (Hb : bytes hash) (Hne : hash <> []) (extra : bool) (random : outcome (result get_os_random_bytes_error (list Z))).
Context (ex : list Z) (EX : if extra then random = Ret (Ok ex) else ex = []) (Bx : bytes ex) (Lx : (length ex <= 32)%nat).
Context (st : h_state (hasher_of be nm)) (Ho : obj nm be st).
Local Notation gen fuel := (rf <- rfc6979_new q extra ;; generate_nonce (hasher_of be nm) fuel rf hash sk random st).

Lemma gen_cases fuel :
  (exists k st', gen fuel = Ret (Ok (k, st')) /\ wf k /\ RFC6979 nm n d hash ex (bi_val k) /\ obj nm be st') \/
  (gen fuel = OutOfFuel /\ forall i, (i < 2 ^ fuel)%nat -> ~ 1 <= RFC6979_candidate nm n d hash ex i <= n - 1).
Proof.
  rewrite (rfc6979_new_spec q Wq Hq). cbn [obind]. assert (Hd' : 1 <= d < n) by lia.
  apply (generate_spec q Wq Hq be nm SZ fuel sk hash extra random st Wd Hd' eq_refl Wq Hb Hne Ho ex EX Bx Lx).
Qed.
Lemma gen_sound fuel k st' : gen fuel = Ret (Ok (k, st')) -> wf k /\ 1 <= bi_val k <= n - 1 /\ RFC6979 nm n d hash ex (bi_val k).
Proof.
  intros E. destruct (gen_cases fuel) as [(k1 & s1 & E1 & W & R & _)|(E1 & _)]; rewrite E in E1; [|discriminate]. injection E1 as -> _.
  split; [exact W|]. split; [|exact R]. destruct R as (i & _ & K & _). exact K.
Qed.
Lemma gen_complete k : RFC6979 nm n d hash ex k -> exists F, forall fuel, (F <= fuel)%nat -> exists k' st', gen fuel = Ret (Ok (k', st')) /\ bi_val k' = k.
Proof.
  intros R. assert (R0 := R). destruct R as (i & E & K & _). destruct (pow_big i) as (F & HF). exists F. intros fuel Hf.
  destruct (gen_cases fuel) as [(k1 & s1 & E1 & W & R & _)|(_ & N)].
  - exists k1, s1. split; [exact E1|]. exact (is_nonce_unique _ _ _ _ _ _ _ _ R R0).
  - exfalso. apply (N i (HF fuel Hf)). unfold RFC6979_candidate. rewrite E. exact K.
Qed.
Lemma gen_never_panics fuel : (exists k st', gen fuel = Ret (Ok (k, st'))) \/ gen fuel = OutOfFuel.
Proof. destruct (gen_cases fuel) as [(k & s & E & _)|(E & _)]; eauto. Qed.
End Nonce.
Lemma nonce_unique nm q x h1 ex k k' : RFC6979 nm q x h1 ex k -> RFC6979 nm q x h1 ex k' -> k = k'.
Proof. apply is_nonce_unique. Qed.

(** * Gates *)
Lemma sign_gates be nm sk fuel hash o rng (st : h_state (hasher_of be nm)) :
  code_sk sk -> nbits (order (sk_params sk)) < 2 ^ 60 -> bytes hash -> rng_ok rng -> obj nm be st ->
  (so_strict o = true -> strict_usable cfg (order (sk_params sk))) ->
  let out := sign_with_hasher (hasher_of be nm) fuel hash sk o rng st in
  (out = Ret (Err SEmptyHash) <-> hash = []) /\
  (out = Ret (Err SHashBitLength) <-> hash <> [] /\ so_strict o = true /\ 8 * Z.of_nat (length hash) <> nbits (order (sk_params sk))) /\
  (out = Ret (Err SZeroHash) <-> hash <> [] /\ (so_strict o = true -> 8 * Z.of_nat (length hash) = nbits (order (sk_params sk))) /\
     so_zero o = false /\ hash_int (order (sk_params sk)) hash = 0).
Proof.
  intros HK SZ Hb HR Ho ST out. destruct (list_eq_dec Z.eq_dec hash []) as [->|Hne].
  { unfold out, sign_with_hasher. split; [tauto|]. split; (split; [discriminate|]; intros (K & _); congruence). }
  pose proof (sign_spec (sk_params sk) (proj1 HK) be nm SZ sk HK eq_refl hash Hb Hne o rng HR fuel st Ho ST) as K. cbv zeta in K. fold out in K.
  destruct (so_strict o) eqn:SO; cbn [andb] in K.
  - destruct (Z.eqb_spec (8 * Z.of_nat (length hash)) (nbits (order (sk_params sk)))) as [L|L]; cbn [negb] in K.
    + destruct (so_zero o) eqn:ZO; cbn [negb andb] in K.
      * destruct K as [(r & i & -> & R & _)|(-> & _)].
        -- destruct r as [f|err]; [|destruct R as (_ & e & _ & ->)]; (split; [split; [discriminate|congruence]|]; split; (split; [discriminate|]; intros K; decompose [and] K; congruence)).
        -- split; [split; [discriminate|congruence]|]; split; (split; [discriminate|]; intros K; decompose [and] K; congruence).
      * destruct (Z.eqb_spec (hash_int (order (sk_params sk)) hash) 0) as [Z0|Z0].
        -- rewrite K. split; [split; [discriminate|congruence]|]. split; [split; [discriminate|]; intros K'; decompose [and] K'; congruence|]. tauto.
        -- destruct K as [(r & i & -> & R & _)|(-> & _)].
           ++ destruct r as [f|err]; [|destruct R as (_ & e & _ & ->)]; (split; [split; [discriminate|congruence]|]; split; (split; [discriminate|]; intros K; decompose [and] K; congruence)).
           ++ split; [split; [discriminate|congruence]|]; split; (split; [discriminate|]; intros K; decompose [and] K; congruence).
    + rewrite K. split; [split; [discriminate|congruence]|]. split; [tauto|]. split; [discriminate|]. intros (_ & K' & _). specialize (K' eq_refl). contradiction.
  - destruct (so_zero o) eqn:ZO; cbn [negb andb] in K.
    + destruct K as [(r & i & -> & R & _)|(-> & _)].
      * destruct r as [f|err]; [|destruct R as (_ & e & _ & ->)]; (split; [split; [discriminate|congruence]|]; split; (split; [discriminate|]; intros K; decompose [and] K; congruence)).
      * split; [split; [discriminate|congruence]|]; split; (split; [discriminate|]; intros K; decompose [and] K; congruence).
    + destruct (Z.eqb_spec (hash_int (order (sk_params sk)) hash) 0) as [Z0|Z0].
      * rewrite K. split; [split; [discriminate|congruence]|]. split; [split; [discriminate|]; intros K'; decompose [and] K'; congruence|].
        split; [|tauto]. intros _. split; [exact Hne|]. split; [discriminate|]. auto.
      * destruct K as [(r & i & -> & R & _)|(-> & _)].
        -- destruct r as [f|err]; [|destruct R as (_ & e & _ & ->)]; (split; [split; [discriminate|congruence]|]; split; (split; [discriminate|]; intros K; decompose [and] K; congruence)).
        -- split; [split; [discriminate|congruence]|]; split; (split; [discriminate|]; intros K; decompose [and] K; congruence).
Qed.
Lemma verify_gates pk sg hash o : code_pk pk -> code_sig sg -> sig_params sg = pk_params pk -> bytes hash ->
  (vo_strict o = true -> strict_usable cfg (order (pk_params pk))) ->
  let n := order (pk_params pk) in
  let out := verify_with_options hash sg pk o in
  (out = Ret (Err VEmptyHash) <-> hash = []) /\
  (out = Ret (Err VStrictHighS) <-> hash <> [] /\ vo_low_s o = true /\ n / 2 < bi_val (sig_s sg)) /\
  (out = Ret (Err VHashBitLength) <-> hash <> [] /\ (vo_low_s o = true -> bi_val (sig_s sg) <= n / 2) /\ vo_strict o = true /\ 8 * Z.of_nat (length hash) <> nbits n) /\
  (out = Ret (Err VZeroHash) <-> hash <> [] /\ (vo_low_s o = true -> bi_val (sig_s sg) <= n / 2) /\ (vo_strict o = true -> 8 * Z.of_nat (length hash) = nbits n) /\ hash_int n hash = 0) /\
  (exists r, out = Ret r).
Proof.
  intros HP HS ES Hb ST n out. destruct (list_eq_dec Z.eq_dec hash []) as [->|Hne].
  { unfold out, verify_with_options. split; [tauto|]. repeat (split; [split; [discriminate|]; intros (K & _); congruence|]). eauto. }
  destruct (verify_spec (pk_params pk) (proj1 HP) pk sg hash o HP eq_refl HS ES Hb Hne ST) as (b & E & _). fold n in E. fold out in E. rewrite E. clear E.
  assert (B1 : vo_low_s o && (n / 2 <? bi_val (sig_s sg)) = true <-> vo_low_s o = true /\ n / 2 < bi_val (sig_s sg)) by (rewrite andb_true_iff, Z.ltb_lt; reflexivity).
  assert (B2 : vo_strict o && negb (8 * Z.of_nat (length hash) =? nbits n) = true <-> vo_strict o = true /\ 8 * Z.of_nat (length hash) <> nbits n) by (rewrite andb_true_iff, negb_true_iff, Z.eqb_neq; reflexivity).
  assert (B3 : (vo_low_s o = true -> bi_val (sig_s sg) <= n / 2) <-> ~ (vo_low_s o = true /\ n / 2 < bi_val (sig_s sg))).
  { split; [intros K (K1 & K2); specialize (K K1); lia|]. intros K K1. destruct (Z.le_gt_cases (bi_val (sig_s sg)) (n / 2)); [assumption|]. exfalso. apply K. split; [assumption|lia]. }
  assert (B4 : (vo_strict o = true -> 8 * Z.of_nat (length hash) = nbits n) <-> ~ (vo_strict o = true /\ 8 * Z.of_nat (length hash) <> nbits n)).
  { split; [tauto|]. intros K K1. destruct (Z.eq_dec (8 * Z.of_nat (length hash)) (nbits n)); [assumption|tauto]. }
  rewrite B3, B4, <- B1. clear B3. set (c1 := vo_low_s o && _) in *. clearbody c1. assert (B5 : (vo_strict o = true /\ 8 * Z.of_nat (length hash) <> nbits n) <-> vo_strict o && negb (8 * Z.of_nat (length hash) =? nbits n) = true) by tauto.
  rewrite B5. clear B4 B5 B2 B1. set (c2 := vo_strict o && _) in *. clearbody c2. destruct (Z.eqb_spec (hash_int n hash) 0) as [Z0|Z0]; destruct c1, c2;
  (split; [split; [discriminate|congruence]|]); (split; [split; [try discriminate; tauto|intros (_ & K); try discriminate; try reflexivity]|]); (split; [split; [try discriminate; intros _; (split; [exact Hne|]); (split; [discriminate|reflexivity])|intros (_ & K1 & K2); try discriminate; try reflexivity; exfalso; now apply K1]|]); (split; [|eauto]);
  (split; [try discriminate; intros _; (split; [exact Hne|]); (split; [discriminate|]); (split; [discriminate|exact Z0])|intros (_ & K1 & K2 & K3); try reflexivity; try (exfalso; now apply K1); try (exfalso; now apply K2); try contradiction]).
Qed.
Lemma recover_gates sg hash id o : code_sig sg -> 0 <= d_cofactor (sig_params sg) < 2 ^ 32 -> bytes hash ->
  (ro_strict o = true -> strict_usable cfg (order (sig_params sg))) ->
  let n := order (sig_params sg) in
  let out := recover_with_options sg hash id o in
  (out = Ret (Err REmptyHash) <-> hash = []) /\
  (out = Ret (Err RHashBitLength) <-> hash <> [] /\ ro_strict o = true /\ 8 * Z.of_nat (length hash) <> nbits n) /\
  (out = Ret (Err RZeroHash) <-> hash <> [] /\ (ro_strict o = true -> 8 * Z.of_nat (length hash) = nbits n) /\ hash_int n hash = 0) /\
  (recoverable (sig_params sg) -> exists r, out = Ret r) /\ out <> Ret (Err RInvalidSignature) /\ out <> OutOfFuel.
Proof.
  intros HS CF Hb ST n out. destruct (list_eq_dec Z.eq_dec hash []) as [->|Hne].
  { unfold out, recover_with_options. cbv zeta. split; [tauto|]. repeat (split; [split; [discriminate|]; intros (K & _); congruence|]). split; [eauto|split; discriminate]. }
  assert (GO : exists res : outcome (result recovery_error (list public_key)),
    out = (if ro_strict o && negb (8 * Z.of_nat (length hash) =? nbits n) then Ret (Err RHashBitLength) else if hash_int n hash =? 0 then Ret (Err RZeroHash) else res) /\
    ((exists ks, res = Ret (Ok ks)) \/ (res = Panic /\ ~ recoverable (sig_params sg)))).
  { destruct (recover_cases (sig_params sg) (proj1 HS) sg hash o HS eq_refl Hb Hne ST CF id) as [[P E]|(_ & h & ks & _ & _ & E & _)]; cbv beta in E; eexists; (split; [exact E|]).
    - right. split; [reflexivity|]. intros RC. revert P. apply rc_np; [apply HS|exact RC].
    - left. eauto. }
  destruct GO as (res & E & R). rewrite E. clear E.
  assert (B2 : (ro_strict o = true /\ 8 * Z.of_nat (length hash) <> nbits n) <-> ro_strict o && negb (8 * Z.of_nat (length hash) =? nbits n) = true) by (rewrite andb_true_iff, negb_true_iff, Z.eqb_neq; reflexivity).
  assert (B4 : (ro_strict o = true -> 8 * Z.of_nat (length hash) = nbits n) <-> ~ (ro_strict o = true /\ 8 * Z.of_nat (length hash) <> nbits n)).
  { split; [tauto|]. intros K K1. destruct (Z.eq_dec (8 * Z.of_nat (length hash)) (nbits n)); [assumption|tauto]. }
  rewrite B4, B2. clear B4 B2. set (c2 := ro_strict o && _) in *. clearbody c2.
  destruct R as [(ks & ->)|[-> NR]]; destruct (Z.eqb_spec (hash_int n hash) 0) as [Z0|Z0]; destruct c2;
  (split; [split; [discriminate|congruence]|]); (split; [split; [try discriminate; tauto|intros (_ & K); try discriminate; try reflexivity]|]); (split; [|split; [solve [eauto|tauto]|split; discriminate]]);
  (split; [try discriminate; intros _; (split; [exact Hne|]); (split; [discriminate|exact Z0])|intros (_ & K1 & K2); try reflexivity; try (exfalso; now apply K1); try contradiction]).
Qed.

(** Only the leading bits count. *)
Lemma verify_same_bits pk sg hash hash' o : code_pk pk -> code_sig sg -> sig_params sg = pk_params pk -> bytes hash -> bytes hash' -> hash <> [] -> hash' <> [] ->
  vo_strict o = false -> hash_int (order (pk_params pk)) hash = hash_int (order (pk_params pk)) hash' ->
  verify_with_options hash sg pk o = verify_with_options hash' sg pk o.
Proof.
  intros HP HS ES Hb Hb' Hne Hne' S0 EQ. assert (HD := proj1 HP).
  destruct (verify_spec (pk_params pk) HD pk sg hash o HP eq_refl HS ES Hb Hne ltac:(rewrite S0; discriminate)) as (b & -> & HB).
  destruct (verify_spec (pk_params pk) HD pk sg hash' o HP eq_refl HS ES Hb' Hne' ltac:(rewrite S0; discriminate)) as (b' & -> & HB').
  rewrite S0, EQ in *. cbn [andb]. assert (E : b = b') by (apply Bool.eq_true_iff_eq; rewrite HB, HB'; reflexivity). now rewrite E.
Qed.
Lemma nonce_same_bits nm n d hash hash' ex k : hash_int n hash = hash_int n hash' -> RFC6979 nm n d hash ex k -> RFC6979 nm n d hash' ex k.
Proof.
  intros E. unfold RFC6979, IS_NONCE, NONCE, SETUP, BITS2OCTETS. change (BITS2INT n hash) with (hash_int n hash). change (BITS2INT n hash') with (hash_int n hash'). rewrite E. auto.
Qed.

(** * The panics *)
Lemma strict_panics be nm sk pk sg fuel hash rng (st : h_state (hasher_of be nm)) so vo ro id :
  code_sk sk -> code_pk pk -> code_sig sg -> sig_params sg = pk_params pk -> pk_params pk = sk_params sk -> bytes hash -> hash <> [] ->
  ~ strict_usable cfg (order (sk_params sk)) ->
  (so_strict so = true -> sign_with_hasher (hasher_of be nm) fuel hash sk so rng st = Panic) /\
  (vo_strict vo = true -> (vo_low_s vo = true -> bi_val (sig_s sg) <= order (pk_params pk) / 2) -> verify_with_options hash sg pk vo = Panic) /\
  (ro_strict ro = true -> recover_with_options sg hash id ro = Panic).
Proof.
  intros HK HP HS ES EP Hb Hne NB. split; [|split].
  - intros S1. apply (sign_panics (sk_params sk) (proj1 HK)); try assumption. reflexivity.
  - intros S1 L. apply (verify_panics (pk_params pk)); try assumption; [apply HP|reflexivity|apply HS|now rewrite EP].
  - intros S1. unfold recover_with_options. cbv zeta. destruct hash as [|b0 bs0] eqn:EH; [congruence|]. rewrite <- EH in *.
    rewrite S1, (matches_panics (sig_params sg) (proj1 HS)); [reflexivity|]. now rewrite ES, EP.
Qed.

Lemma strict_rejects be nm sk pk sg fuel hash rng (st : h_state (hasher_of be nm)) so vo ro id :
  debug_checks cfg = false ->
  code_sk sk -> code_pk pk -> code_sig sg -> sig_params sg = pk_params pk -> pk_params pk = sk_params sk -> bytes hash -> hash <> [] ->
  nbits (order (sk_params sk)) mod 8 <> 0 ->
  (so_strict so = true -> sign_with_hasher (hasher_of be nm) fuel hash sk so rng st = Ret (Err SHashBitLength)) /\
  (vo_strict vo = true -> (vo_low_s vo = true -> bi_val (sig_s sg) <= order (pk_params pk) / 2) -> verify_with_options hash sg pk vo = Ret (Err VHashBitLength)) /\
  (ro_strict ro = true -> recover_with_options sg hash id ro = Ret (Err RHashBitLength)).
Proof.
  intros RB HK HP HS ES EP Hb Hne NB.
  assert (NE : 8 * Z.of_nat (length hash) =? nbits (order (sk_params sk)) = false).
  { apply Z.eqb_neq. intros E. apply NB. rewrite <- E, Z.mul_comm. apply Z.mod_mul. lia. }
  split; [|split].
  - intros S1. unfold sign_with_hasher. destruct hash as [|b0 bs0] eqn:EH; [congruence|]. rewrite <- EH in *.
    rewrite S1, (matches_spec (sk_params sk) (proj1 HK)) by now right. rewrite NE. reflexivity.
  - intros S1 L. rewrite <- EP in NE. destruct (verify_spec (pk_params pk) (proj1 HP) pk sg hash vo HP eq_refl HS ES Hb Hne ltac:(now right)) as (b & -> & _).
    rewrite NE, S1. destruct (vo_low_s vo); [|reflexivity]. cbn [andb negb]. replace (_ <? _) with false; [reflexivity|]. symmetry. apply Z.ltb_ge. now apply L.
  - intros S1. rewrite <- EP, <- ES in NE. unfold recover_with_options. cbv zeta. destruct hash as [|b0 bs0] eqn:EH; [congruence|]. rewrite <- EH in *.
    rewrite S1, (matches_spec (sig_params sg) (proj1 HS)) by now right. rewrite NE. reflexivity.
Qed.

Lemma sign_made_from be nm sk fuel hash o rng (st : h_state (hasher_of be nm)) sg id :
  code_sk sk -> nbits (order (sk_params sk)) < 2 ^ 60 -> bytes hash -> rng_ok rng -> obj nm be st ->
  sign_with_hasher (hasher_of be nm) fuel hash sk o rng st = Ret (Ok (sg, id)) ->
  exists i k, nonce_of_attempt nm (order (sk_params sk)) (bi_val (sk_data sk)) hash o rng i k /\
    signature_of (params_val (sk_params sk)) (so_low_s o) (bi_val (sk_data sk)) (hash_int (order (sk_params sk)) hash) k
      (bi_val (sig_r sg)) (bi_val (sig_s sg)) (recid_u8 id).
Proof.
  intros HK SZ Hb HR Ho EQ. destruct (signed be nm sk HK SZ hash Hb o rng HR fuel st Ho sg id EQ) as (_ & _ & _ & _ & _ & _ & _ & i & k & H1 & _ & H2). eauto.
Qed.
End Proofs.

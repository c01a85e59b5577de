(** Proofs about examples/ethereum/eoa_key_to_address.rs, eoa_gen_vanity_address.rs and examples/randombytes.rs. *)

From Coq Require Import String.
From Verif Require Import Base M_Parity M_Codec M_BigInt M_Random M_Curve M_Ecdsa M_Rlp M_EthTypes M_Tx M_Eoa M_TxSign M_Display M_Examples.
From Verif Require Import S_BigInt S_Curve S_EcModel S_Ecdsa S_Hash S_Codec S_Rlp S_EthTypes S_Tx S_Eoa S_Display S_Examples.
From Verif Require Import P_BigInt1 P_BigInt3 P_Codec P_EthTypes2 P_Display P_Examples.
From Verif Require P_Eoa.
Open Scope Z_scope.
Local Open Scope list_scope.

Section WithCfg.
Context {cfg : digit_cfg}.
(** from the bytes of the key to the address *)
Lemma key_to_address be key : bytes key -> length key = 32%nat ->
  (exists sk pk a, eoa_private_key_new key = Ret (Some sk) /\ eoa_public_key sk = Ret pk /\ eoa_address be pk = Ret a /\ is_addr a /\ key_address key a) \/
  (eoa_private_key_new key = Ret None /\ forall a, ~ key_address key a).
Proof.
  intros B L. destruct (P_Eoa.account_spec key B L) as [H1 H2].
  destruct (Z_le_gt_dec 1 (be_val key)) as [A1|A1]; [destruct (Z_le_gt_dec (be_val key) (e_order SECP256K1 - 1)) as [A2|A2]|].
  - left. destruct (H1 (conj A1 A2)) as (D & sk & pk & ED & E1 & C1 & P1 & V1 & E2 & (M1 & M2 & M3) & CP). exists sk, pk.
    destruct (P_Eoa.address_of_key be D pk _ _ ED (eq_trans M1 P1) CP eq_refl eq_refl) as (E3 & B3 & L3).
    exists (ADDRESS (bi_val (px (pk_data pk))) (bi_val (py (pk_data pk)))). split; [exact E1|]. split; [exact E2|]. split; [exact E3|]. split; [split; assumption|].
    split; [exact B|]. split; [exact L|]. split; [split; assumption|]. exists (bi_val (px (pk_data pk))), (bi_val (py (pk_data pk))). split; [|reflexivity].
    destruct (P_Eoa.secp_fields D ED) as (_ & VD & _). rewrite P1, V1 in M3.
    change (curve_val (d_curve D)) with (e_curve (params_val D)) in M3. change (pt_val (d_base D)) with (e_base (params_val D)) in M3. rewrite VD in M3.
    rewrite <- M3. unfold pt_val. destruct CP as (_ & _ & VP). destruct VP as (_ & _ & _ & N & _).
    destruct (Z.eqb_spec (bi_val (px (pk_data pk))) 0); [|reflexivity]. destruct (Z.eqb_spec (bi_val (py (pk_data pk))) 0); [|reflexivity]. destruct N. split; assumption.
  - right. split; [apply H2; intros [_ K]; exact (K A2)|]. intros a (_ & _ & [_ K] & _). exact (K A2).
  - right. split; [apply H2; intros [K _]; exact (K A1)|]. intros a (_ & _ & [K _] & _). exact (K A1).
Qed.

Lemma key_address_unique key a a' : key_address key a -> key_address key a' -> a' = a.
Proof.
  unfold key_address. generalize (emul (e_curve SECP256K1) (be_val key) (e_base SECP256K1)). generalize (be_val key). generalize (e_order SECP256K1).
  intros n d o (_ & _ & _ & x & y & E & Ha) (_ & _ & _ & x' & y' & E' & Ha'). rewrite E in E'. injection E' as Ex Ey. rewrite Ha, Ha', Ex, Ey. reflexivity.
Qed.
Lemma address_line a : Ret (println (48 :: 120 :: EIP55 a)) = Ret (ascii "0x" ++ EIP55 a ++ newline).
Proof. generalize (EIP55 a). intros l. reflexivity. Qed.
Theorem key_prints be arg key a : given arg key -> key_address key a -> eoa_key_to_address be arg = Ret (ascii "0x" ++ EIP55 a ++ newline).
Proof.
  intros G K. apply given_decode in G as (s & -> & E & B). assert (L : length key = 32%nat) by apply K.
  unfold eoa_key_to_address. cbn [unwrap obind]. rewrite E, L. cbn [Nat.eqb oassert].
  destruct (key_to_address be key B L) as [(sk & pk & a' & -> & E2 & E3 & A & K')|[_ N]]; [|destruct (N a K)].
  cbn [obind unwrap]. rewrite E2. cbn [obind]. rewrite E3. cbn [obind]. rewrite (address_display_spec be a' A). cbn [obind].
  rewrite (key_address_unique key a a' K K'). exact (address_line a).
Qed.
Theorem key_panics be arg : (forall s, arg = Some s -> bytes s) -> (forall key a, given arg key -> ~ key_address key a) -> eoa_key_to_address be arg = Panic.
Proof.
  intros Hb N. destruct arg as [s|]; [|reflexivity]. unfold eoa_key_to_address. cbn [unwrap obind].
  destruct (hex_to_bytes (strip_0x s)) as [key|e] eqn:E; [|reflexivity]. pose proof (decode_given s key (Hb s eq_refl) E) as G.
  destruct (Nat.eqb_spec (length key) 32) as [L|L]; cbn [oassert]; [|reflexivity].
  destruct (key_to_address be key (proj1 G) L) as [(sk & pk & a & _ & _ & _ & _ & K)|[-> _]]; [destruct (N key a G K)|reflexivity].
Qed.

(** * The search for an address *)
Lemma starts_with_iff p : forall s, starts_with s p = true <-> exists r, s = p ++ r.
Proof.
  induction p as [|c p IH]; intros s.
  - cbn [starts_with app]. split; [eauto|]. intros _. now destruct s.
  - destruct s as [|d s]; cbn [starts_with]; [split; [discriminate|intros (r & [=])]|]. rewrite andb_true_iff, IH, Z.eqb_eq. split.
    + intros [-> (r & ->)]. now exists r.
    + intros (r & E). injection E as -> ->. eauto.
Qed.
Lemma found_is key a : bytes key ->
  println (txt "=====================") ++ println (txt "Vanity Address Found!") ++ println (txt "=====================") ++
  println (txt "public address: 0x" ++ EIP55 a) ++ println (txt "private key: 0x" ++ bytes_to_lower_hex key) = found_text key a.
Proof. intros B. rewrite (hex_is key B). unfold found_text, banner, println, newline. rewrite <- !app_assoc. reflexivity. Qed.

(** one turn whose key has the address [a] *)
Lemma turn_step be dbg env prefix est f i count out key a : produces env i key -> key_address key a ->
  vanity_loop be dbg (S f) env prefix est i count out =
  (c <- usize_ck dbg (count + 1) ;;
   out <- (match turn_report (env i) with None => Ret out | Some secs => r <- vanity_report dbg est c secs ;; Ret (out ++ r) end) ;;
   if starts_with (EIP55 a) prefix then Ret (out ++ found_text key a) else vanity_loop be dbg f env prefix est (S i) c out).
Proof.
  intros P K. cbn [vanity_loop]. destruct (usize_ck dbg (count + 1)) as [c| |]; cbn [obind]; try reflexivity.
  destruct (match turn_report (env i) with None => Ret out | Some secs => r <- vanity_report dbg est c secs ;; Ret (out ++ r) end) as [o| |]; cbn [obind]; try reflexivity.
  rewrite P. cbn [obind]. assert (L : length key = 32%nat) by apply K. assert (B : bytes key) by apply K. rewrite L. cbn [Nat.eqb oassert].
  destruct (key_to_address be key B L) as [(sk & pk & a' & -> & E2 & E3 & A & K')|[_ N]]; [|destruct (N a K)].
  cbn [obind unwrap]. rewrite E2. cbn [obind]. rewrite E3. cbn [obind]. rewrite (checksum_spec be a' A). cbn [obind].
  rewrite (key_address_unique key a a' K K').
  destruct (starts_with (EIP55 a) prefix); cbn [negb]; [|reflexivity]. rewrite (found_is key a B). reflexivity.
Qed.
(** if a turn goes on, it has a key and an address *)
Lemma turn_key be dbg env prefix est f i count out y : (forall key, produces env i key -> bytes key) ->
  vanity_loop be dbg (S f) env prefix est i count out = Ret y -> exists key a, produces env i key /\ key_address key a.
Proof.
  intros Hb E. cbn [vanity_loop] in E. destruct (usize_ck dbg (count + 1)) as [c| |]; cbn [obind] in E; try discriminate.
  destruct (match turn_report (env i) with None => Ret out | Some secs => r <- vanity_report dbg est c secs ;; Ret (out ++ r) end) as [o| |]; cbn [obind] in E; try discriminate.
  destruct (turn_random (env i)) as [[key|]| |] eqn:R; cbn [obind] in E; try discriminate. specialize (Hb key R).
  destruct (Nat.eqb_spec (length key) 32) as [L|L]; cbn [oassert] in E; [|discriminate].
  destruct (key_to_address be key Hb L) as [(sk & pk & a & _ & _ & _ & _ & K)|[N _]]; [eauto|]. rewrite N in E. discriminate.
Qed.
Lemma loop_found be dbg env prefix est f : (forall i key, produces env i key -> bytes key) -> forall i count out y,
  vanity_loop be dbg f env prefix est i count out = Ret y ->
  exists j key a z, (i <= j < i + f)%nat /\ produces env j key /\ key_address key a /\ has_prefix prefix a /\ y = z ++ found_text key a /\
    forall k, (i <= k < j)%nat -> exists key' a', produces env k key' /\ key_address key' a' /\ ~ has_prefix prefix a'.
Proof.
  intros Hb. induction f as [|f IH]; intros i count out y E; [discriminate|].
  destruct (turn_key be dbg env prefix est f i count out y (Hb i) E) as (key & a & P & K).
  rewrite (turn_step be dbg env prefix est f i count out key a P K) in E.
  destruct (usize_ck dbg (count + 1)) as [c| |]; cbn [obind] in E; try discriminate.
  destruct (match turn_report (env i) with None => Ret out | Some secs => r <- vanity_report dbg est c secs ;; Ret (out ++ r) end) as [o| |]; cbn [obind] in E; try discriminate.
  destruct (starts_with (EIP55 a) prefix) eqn:S.
  - injection E as <-. exists i, key, a, o. split; [lia|]. split; [exact P|]. split; [exact K|]. split; [now apply starts_with_iff|]. split; [reflexivity|]. intros k Hk. lia.
  - destruct (IH (Datatypes.S i) c o y E) as (j & key' & a' & z & Hj & P' & K' & H' & Ey & Hk). exists j, key', a', z.
    split; [lia|]. split; [exact P'|]. split; [exact K'|]. split; [exact H'|]. split; [exact Ey|]. intros k Hk'.
    destruct (Nat.eq_dec k i) as [->|Nk]; [|apply Hk; lia]. exists key, a. split; [exact P|]. split; [exact K|]. intros H. apply starts_with_iff in H. congruence.
Qed.
Lemma report_line dbg env est i secs out : 0 < est -> 0 < secs -> turn_report (env i) = Some secs -> reports env est i out ->
  100 * Z.of_nat (Datatypes.S i) < 2 ^ 64 ->
  exists o, (r <- vanity_report dbg est (Z.of_nat (Datatypes.S i)) secs ;; Ret (out ++ r)) = Ret o /\ reports env est (Datatypes.S i) o.
Proof.
  intros He Hs T RO Hc. unfold vanity_report, usize_ck. destruct (Z.ltb_spec (Z.of_nat (Datatypes.S i) * 100) (2 ^ 64)); [|lia]. cbn [obind].
  destruct (Z.eqb_spec est 0); [lia|]. destruct (Z.eqb_spec secs 0); [lia|]. cbn [negb oassert obind]. eexists. split; [reflexivity|].
  assert (Q : forall v, 0 <= v < 2 ^ 64 -> numeral 10 (radix_digits 10 20 v []) v).
  { intros v Hv. apply (digits_shown 10 19); [lia|]. split; [lia|]. apply Z.lt_le_trans with (2 ^ 64); [lia|]. vm_compute. discriminate. }
  set (c := Z.of_nat (Datatypes.S i)) in *. assert (Hp : 0 <= c) by lia.
  assert (D1 : 0 <= c * 100 / est <= c * 100) by (split; [apply Z.div_pos; lia|apply Z.div_le_upper_bound; nia]).
  assert (D2 : 0 <= c / secs <= c) by (split; [apply Z.div_pos; lia|apply Z.div_le_upper_bound; nia]).
  unfold println. replace (([10] : list Z)) with newline by reflexivity. rewrite <- !app_assoc.
  assert (B1 : 0 <= c < 2 ^ 64) by lia. assert (B2 : 0 <= c * 100 / est < 2 ^ 64) by lia. assert (B3 : 0 <= c / secs < 2 ^ 64) by lia.
  apply (reports_line env est i out secs _ _ _ RO T (Q c B1) (Q _ B2) (Q _ B3)).
Qed.
Lemma loop_finds be dbg env prefix est j key a : 0 < est -> produces env j key -> key_address key a -> has_prefix prefix a ->
  (forall k, (k < j)%nat -> exists key' a', produces env k key' /\ key_address key' a' /\ ~ has_prefix prefix a') ->
  (forall k secs, turn_report (env k) = Some secs -> 0 < secs) ->
  forall m i f out, reports env est i out -> (i + m = j)%nat -> 100 * Z.of_nat (Datatypes.S j) < 2 ^ 64 -> (m < f)%nat ->
  exists z, vanity_loop be dbg f env prefix est i (Z.of_nat i) out = Ret (z ++ found_text key a) /\ reports env est (Datatypes.S j) z.
Proof.
  intros He P K H Hk Hr. induction m as [|m IH]; intros i f out RO Hi Hc Hf; (destruct f as [|f]; [lia|]).
  all: assert (C : usize_ck dbg (Z.of_nat i + 1) = Ret (Z.of_nat (Datatypes.S i)))
    by (unfold usize_ck; destruct (Z.ltb_spec (Z.of_nat i + 1) (2 ^ 64)); [f_equal; lia|lia]).
  all: assert (R : exists o, (match turn_report (env i) with None => Ret out | Some secs => r <- vanity_report dbg est (Z.of_nat (Datatypes.S i)) secs ;; Ret (out ++ r) end) = Ret o /\ reports env est (Datatypes.S i) o)
    by (destruct (turn_report (env i)) as [secs|] eqn:T; [|exists out; split; [reflexivity|apply reports_quiet; assumption]]; specialize (Hr i secs T);
        apply (report_line dbg env est i secs out); [lia|lia|assumption|assumption|lia]).
  all: destruct R as (o & R & RO').
  - assert (i = j) as -> by lia. rewrite (turn_step be dbg env prefix est f j _ out key a P K), C. cbn [obind]. rewrite R. cbn [obind].
    apply starts_with_iff in H. rewrite H. exists o. split; [reflexivity|exact RO'].
  - destruct (Hk i ltac:(lia)) as (key' & a' & P' & K' & N'). rewrite (turn_step be dbg env prefix est f i _ out key' a' P' K'), C. cbn [obind]. rewrite R. cbn [obind].
    destruct (starts_with (EIP55 a') prefix) eqn:S; [apply starts_with_iff in S; contradiction|]. apply IH; [exact RO'|lia|lia|lia].
Qed.
Lemma prefix_wanted p : wanted p <-> (negb (Nat.eqb (length p) 0) && Nat.ltb (length p) 40)%bool = true /\ forallb prefix_char p = true.
Proof.
  unfold wanted. rewrite andb_true_iff, negb_true_iff, Nat.eqb_neq, Nat.ltb_lt.
  assert (D : (exists vs, digits_of 16 p vs) <-> forallb prefix_char p = true).
  { induction p as [|c p IH]; [split; [reflexivity|exists []; constructor]|]. cbn [forallb]. rewrite andb_true_iff, <- IH.
    assert (Q : prefix_char c = true <-> exists v, is_digit 16 c v).
    { unfold prefix_char, is_digit, alnum_value.
      destruct (Z.leb_spec 48 c), (Z.leb_spec c 57), (Z.leb_spec 97 c), (Z.leb_spec c 102), (Z.leb_spec 65 c), (Z.leb_spec c 70), (Z.leb_spec c 90), (Z.leb_spec c 122);
        cbn [andb orb]; try lia; split; intros HH; try discriminate; try reflexivity; try (eexists; split; [reflexivity|lia]);
        destruct HH as (v & E & V); try discriminate E; injection E as <-; lia. }
    split.
    - intros (vs & H). inversion H; subst. split; [apply Q; eauto|eauto].
    - intros [H (vs & K)]. apply Q in H as (v & H). exists (v :: vs). now constructor. }
  rewrite D. intuition lia.
Qed.
Theorem vanity_sound be dbg fuel env arg y : (forall i key, produces env i key -> bytes key) -> eoa_gen_vanity_address be dbg fuel env arg = Ret y ->
  exists p j key a z, arg = Some p /\ wanted p /\ (j < fuel)%nat /\ produces env j key /\ key_address key a /\ has_prefix p a /\ y = z ++ found_text key a /\
    forall k, (k < j)%nat -> exists key' a', produces env k key' /\ key_address key' a' /\ ~ has_prefix p a'.
Proof.
  intros Hb E. unfold eoa_gen_vanity_address in E. destruct arg as [p|]; [|discriminate]. cbn [unwrap obind] in E.
  destruct (negb (Nat.eqb (length p) 0) && Nat.ltb (length p) 40)%bool eqn:E1; [|discriminate]. destruct (forallb prefix_char p) eqn:E2; [|discriminate].
  cbn [oassert] in E. destruct (usize_ck dbg (32 ^ Z.of_nat (length p))) as [est| |]; cbn [obind] in E; try discriminate.
  destruct (loop_found be dbg env p est fuel Hb 0%nat 0 [] y E) as (j & key & a & z & Hj & P & K & H & Ey & Hk).
  exists p, j, key, a, z. split; [reflexivity|]. split; [apply prefix_wanted; auto|]. split; [lia|]. repeat (split; [assumption|]). intros k ?. apply Hk. lia.
Qed.
Theorem vanity_complete be dbg fuel env p j key a : wanted p -> (length p <= 12)%nat -> produces env j key -> key_address key a -> has_prefix p a ->
  (forall k, (k < j)%nat -> exists key' a', produces env k key' /\ key_address key' a' /\ ~ has_prefix p a') ->
  (forall k secs, turn_report (env k) = Some secs -> 0 < secs) -> 100 * Z.of_nat (Datatypes.S j) < 2 ^ 64 -> (j < fuel)%nat ->
  exists z, eoa_gen_vanity_address be dbg fuel env (Some p) = Ret (z ++ found_text key a) /\ reports env (32 ^ Z.of_nat (length p)) (Datatypes.S j) z.
Proof.
  intros W L P K H Hk Hr Hc Hf. apply prefix_wanted in W as [E1 E2]. unfold eoa_gen_vanity_address. cbn [unwrap obind]. rewrite E1, E2. cbn [oassert].
  assert (B : 0 < 32 ^ Z.of_nat (length p) < 2 ^ 64).
  { split; [apply Z.pow_pos_nonneg; lia|]. apply Z.le_lt_trans with (32 ^ 12); [apply Z.pow_le_mono_r; lia|reflexivity]. }
  assert (U : usize_ck dbg (32 ^ Z.of_nat (length p)) = Ret (32 ^ Z.of_nat (length p))) by (unfold usize_ck; destruct (Z.ltb_spec (32 ^ Z.of_nat (length p)) (2 ^ 64)); [reflexivity|lia]).
  rewrite U. cbn [obind]. apply (loop_finds be dbg env p _ j key a (proj1 B) P K H Hk Hr j 0%nat fuel []); [constructor|lia|lia|lia].
Qed.
(** longer prefixes: in debug builds the estimate overflows; in release builds it is 0 and the first report divides by it *)
Theorem vanity_long be fuel env p : wanted p -> (13 <= length p)%nat -> eoa_gen_vanity_address be true fuel env (Some p) = Panic.
Proof.
  intros W L. apply prefix_wanted in W as [E1 E2]. unfold eoa_gen_vanity_address. cbn [unwrap obind]. rewrite E1, E2. cbn [oassert].
  assert (B : 2 ^ 64 <= 32 ^ Z.of_nat (length p)).
  { apply Z.le_trans with (32 ^ 13); [discriminate|]. apply Z.pow_le_mono_r; lia. }
  unfold usize_ck at 1. destruct (Z.ltb_spec (32 ^ Z.of_nat (length p)) (2 ^ 64)); [lia|]. reflexivity.
Qed.
Lemma loop_report be env p i secs : turn_report (env i) = Some secs ->
  (forall k, (k < i)%nat -> exists key' a', produces env k key' /\ key_address key' a' /\ ~ has_prefix p a') ->
  forall m k f count out, (k + m = i)%nat -> (m < f)%nat -> vanity_loop be false f env p 0 k count out = Panic.
Proof.
  intros T Hk. induction m as [|m IH]; intros k f count out Hm Hf; (destruct f as [|f]; [lia|]).
  - assert (k = i) as -> by lia. cbn [vanity_loop]. unfold usize_ck at 1.
    destruct (count + 1 <? 2 ^ 64); cbn [obind]; rewrite T; unfold vanity_report, usize_ck; (match goal with |- context [?a * 100 <? 2 ^ 64] => destruct (a * 100 <? 2 ^ 64) end); reflexivity.
  - destruct (Hk k ltac:(lia)) as (key' & a' & P' & K' & N'). rewrite (turn_step be false env p 0 f k count out key' a' P' K').
    destruct (usize_ck false (count + 1)) as [c| |] eqn:U; cbn [obind].
    2: reflexivity. 2: (unfold usize_ck in U; destruct (count + 1 <? 2 ^ 64); discriminate).
    destruct (turn_report (env k)) as [secs'|] eqn:T'; cbn [obind].
    + unfold vanity_report, usize_ck. destruct (c * 100 <? 2 ^ 64); reflexivity.
    + destruct (starts_with (EIP55 a') p) eqn:S; [apply starts_with_iff in S; contradiction|]. apply IH; lia.
Qed.
Theorem vanity_long_release be fuel env p i secs : wanted p -> (13 <= length p)%nat -> turn_report (env i) = Some secs -> (i < fuel)%nat ->
  (forall k, (k < i)%nat -> exists key' a', produces env k key' /\ key_address key' a' /\ ~ has_prefix p a') ->
  eoa_gen_vanity_address be false fuel env (Some p) = Panic.
Proof.
  intros W L T Hf Hk. apply prefix_wanted in W as [E1 E2]. unfold eoa_gen_vanity_address. cbn [unwrap obind]. rewrite E1, E2. cbn [oassert].
  assert (B : 32 ^ Z.of_nat (length p) = 2 ^ 64 * 32 ^ (Z.of_nat (length p) - 13) * 2).
  { replace (32 ^ Z.of_nat (length p)) with (32 ^ (13 + (Z.of_nat (length p) - 13))) by (f_equal; lia). rewrite Z.pow_add_r by lia.
    change (32 ^ 13) with (2 ^ 64 * 2). ring. }
  assert (P : 0 < 32 ^ (Z.of_nat (length p) - 13)) by (apply Z.pow_pos_nonneg; lia).
  assert (U : usize_ck false (32 ^ Z.of_nat (length p)) = Ret 0).
  { unfold usize_ck. rewrite B. set (q := 32 ^ (Z.of_nat (length p) - 13)) in *. destruct (Z.ltb_spec (2 ^ 64 * q * 2) (2 ^ 64)); [lia|].
    f_equal. replace (2 ^ 64 * q * 2) with (q * 2 * 2 ^ 64) by ring. apply Z.mod_mul. discriminate. }
  rewrite U. cbn [obind]. apply (loop_report be env p i secs T Hk i 0%nat fuel 0 []); lia.
Qed.
End WithCfg.

Lemma prefix_of_address key a n : key_address key a -> (1 <= n <= 39)%nat -> exists p, wanted p /\ length p = n /\ has_prefix p a.
Proof.
  intros (_ & _ & _ & x & y & _ & ->) Hn. assert (A : is_addr (ADDRESS x y)).
  { unfold ADDRESS. assert (Hm : bytes (to_be 32 x ++ to_be 32 y)) by (apply Forall_app; split; apply to_be_bytes_range).
    destruct (P_Eoa.keccak_digest false _ Hm) as (_ & HB & HL). revert HB HL. generalize (KECCAK256 (to_be 32 x ++ to_be 32 y)). intros d HB HL.
    split; [now apply Forall_skipn|]. rewrite skipn_length, HL. reflexivity. }
  revert A. generalize (ADDRESS x y). intros a A. destruct (EIP55_digits a A) as [D L]. exists (firstn n (EIP55 a)).
  assert (Ln : length (firstn n (EIP55 a)) = n) by (rewrite firstn_length, L; lia).
  split; [|split; [exact Ln|exists (skipn n (EIP55 a)); symmetry; apply firstn_skipn]]. split; [lia|].
  rewrite <- (firstn_skipn n (EIP55 a)) in D. apply Forall2_app_inv_l in D as (v1 & v2 & D & _ & _). eauto.
Qed.
(** * randombytes *)
Lemma parse_digits_spec s : forall acc, 0 <= acc ->
  match parse_digits acc s with
  | Some n => exists vs, digits_of 10 s vs /\ n = fold_left (fun a v => 10 * a + v) vs acc /\ (acc < 2 ^ 32 -> n < 2 ^ 32)
  | None => forall vs, digits_of 10 s vs -> 2 ^ 32 <= fold_left (fun a v => 10 * a + v) vs acc
  end.
Proof.
  assert (Mono : forall s vs, digits_of 10 s vs -> forall acc, 0 <= acc -> acc <= fold_left (fun a v => 10 * a + v) vs acc).
  { clear. intros s vs H. induction H as [|c v s vs [E V] _ IH]; intros acc Ha; cbn [fold_left]; [lia|].
    assert (0 <= v) by (unfold alnum_value in E; destruct ((48 <=? c) && (c <=? 57))%bool eqn:A; [injection E as <-; lia|destruct ((65 <=? c) && (c <=? 90))%bool eqn:A2; [injection E as <-; lia|destruct ((97 <=? c) && (c <=? 122))%bool eqn:A3; [injection E as <-; lia|discriminate]]]).
    specialize (IH (10 * acc + v) ltac:(lia)). lia. }
  induction s as [|c s IH]; intros acc Ha; cbn [parse_digits].
  - exists []. split; [constructor|]. split; [reflexivity|auto].
  - destruct ((48 <=? c) && (c <=? 57))%bool eqn:A.
    + assert (D : is_digit 10 c (c - 48)) by (split; [unfold alnum_value; now rewrite A|lia]).
      cbv zeta. destruct (Z.ltb_spec (10 * acc + (c - 48)) (2 ^ 32)) as [Q|Q].
      * specialize (IH (10 * acc + (c - 48)) ltac:(lia)). destruct (parse_digits (10 * acc + (c - 48)) s) as [n|].
        -- destruct IH as (vs & H1 & H2 & H3). exists ((c - 48) :: vs). split; [now constructor|]. cbn [fold_left]. auto.
        -- intros vs H. inversion H as [|? v ? vs' H1 H2]; subst. cbn [fold_left]. assert (v = c - 48) as -> by (destruct D as [D _]; destruct H1 as [H1 _]; congruence). now apply IH.
      * intros vs H. inversion H as [|? v ? vs' H1 H2]; subst. cbn [fold_left]. assert (v = c - 48) as -> by (destruct D as [D _]; destruct H1 as [H1 _]; congruence).
        pose proof (Mono s vs' H2 (10 * acc + (c - 48)) ltac:(lia)). lia.
    + intros vs H. inversion H as [|? v ? vs' [H1 H3] H2]; subst. exfalso. unfold alnum_value in H1. rewrite A in H1.
      destruct ((65 <=? c) && (c <=? 90))%bool eqn:A2; [injection H1 as <-; lia|]. destruct ((97 <=? c) && (c <=? 122))%bool eqn:A3; [injection H1 as <-; lia|discriminate].
Qed.
Lemma not_plus c s : c <> 43 -> parse_u32 (c :: s) = parse_digits 0 (c :: s).
Proof. intros N. unfold parse_u32. destruct c as [|q|q]; try reflexivity. repeat (destruct q as [q|q|]; try reflexivity). congruence. Qed.
Lemma digits_pos s vs : digits_of 10 s vs -> forall acc, 0 <= acc -> 0 <= fold_left (fun a v => 10 * a + v) vs acc.
Proof.
  intros H. induction H as [|c v s vs [E V] _ IH]; intros acc Ha; cbn [fold_left]; [lia|]. apply IH.
  assert (0 <= v) by (unfold alnum_value in E; destruct ((48 <=? c) && (c <=? 57))%bool eqn:A; [injection E as <-; lia|destruct ((65 <=? c) && (c <=? 90))%bool eqn:A2; [injection E as <-; lia|destruct ((97 <=? c) && (c <=? 122))%bool eqn:A3; [injection E as <-; lia|discriminate]]]).
  lia.
Qed.
Lemma parse_plain t : t <> [] -> match parse_digits 0 t with
  | Some n => exists vs, digits_of 10 t vs /\ n = positional 10 vs /\ 0 <= n < 2 ^ 32
  | None => forall vs, digits_of 10 t vs -> 2 ^ 32 <= positional 10 vs end.
Proof.
  intros _. pose proof (parse_digits_spec t 0 ltac:(lia)) as H. destruct (parse_digits 0 t) as [n|]; [|exact H].
  destruct H as (vs & H1 & H2 & H3). exists vs. split; [exact H1|]. split; [exact H2|]. split; [rewrite H2; apply (digits_pos t vs H1); lia|apply H3; lia].
Qed.
Lemma parse_u32_spec s : match parse_u32 s with Some n => decimal s n /\ 0 <= n < 2 ^ 32 | None => forall n, decimal s n -> 2 ^ 32 <= n end.
Proof.
  destruct s as [|c s].
  - cbn [parse_u32]. intros n (t & vs & [E|E] & N & _); [now subst|discriminate].
  - destruct (Z.eq_dec c 43) as [->|Nc].
    + assert (Q : forall n, decimal (43 :: s) n -> s <> [] /\ exists vs, digits_of 10 s vs /\ n = positional 10 vs).
      { intros n (t & vs & [<-|E] & N & D & V); [inversion D as [|? ? ? ? [A _] _]; subst; discriminate A|]. cbn in E. injection E as ->. eauto. }
      destruct s as [|d s]; [cbn; intros n H; apply Q in H as [H _]; congruence|].
      change (parse_u32 (43 :: d :: s)) with (parse_digits 0 (d :: s)). pose proof (parse_plain (d :: s) ltac:(discriminate)) as P.
      destruct (parse_digits 0 (d :: s)) as [n|].
      * destruct P as (vs & H1 & H2 & H3). split; [|exact H3]. exists (d :: s), vs. split; [now right|]. split; [discriminate|auto].
      * intros n H. apply Q in H as (_ & vs & H & ->). now apply P.
    + rewrite (not_plus c s Nc). pose proof (parse_plain (c :: s) ltac:(discriminate)) as P. destruct (parse_digits 0 (c :: s)) as [n|].
      * destruct P as (vs & H1 & H2 & H3). split; [|exact H3]. exists (c :: s), vs. split; [now left|]. split; [discriminate|auto].
      * intros n (t & vs & [<-|E] & N & D & ->); [now apply P|]. change (ascii "+" ++ t) with (43 :: t) in E. injection E as E _. contradiction.
Qed.
Lemma decimal_unique s n m : decimal s n -> decimal s m -> n = m.
Proof.
  assert (U : forall s vs ws, digits_of 10 s vs -> digits_of 10 s ws -> vs = ws).
  { clear. intros s vs ws H. revert ws. induction H as [|c v s vs [A _] _ IH]; intros ws K; inversion K as [|? w ? ws' [B _] K']; subst; [reflexivity|]. f_equal; [congruence|auto]. }
  assert (N43 : forall s vs, ~ digits_of 10 (43 :: s) vs) by (intros s' vs H; inversion H as [|? ? ? ? [A _] _]; discriminate A).
  intros (t & vs & [->|E] & N & D & ->) (t' & ws & [E'|E'] & N' & D' & ->).
  - subst t'. f_equal. eapply U; eassumption.
  - cbn in E'. subst t. destruct (N43 _ _ D).
  - cbn in E. subst. destruct (N43 _ _ D').
  - subst. cbn in E'. injection E' as ->. f_equal. eapply U; eassumption.
Qed.
Theorem randombytes_prints t o s n bs : decimal s n -> n < 2 ^ 32 -> get_os_random_bytes t o n = Ret (Ok bs) -> bytes bs ->
  randombytes t o (Some s) = Ret (hex bs ++ newline).
Proof.
  intros D L E B. unfold randombytes. cbn [unwrap obind]. pose proof (parse_u32_spec s) as P. destruct (parse_u32 s) as [m|]; [|specialize (P n D); lia].
  destruct P as [P _]. rewrite (decimal_unique s m n P D). cbn [unwrap obind]. rewrite E. cbn [obind]. now rewrite (hex_is bs B).
Qed.
Lemma fmt_int_shows n : - 2 ^ 32 < n < 2 ^ 32 -> shows_int (fmt_int n) n.
Proof.
  intros H. unfold shows_int, fmt_int. destruct (Z.ltb_spec n 0).
  - destruct (digits_shown 10 9 (- n) ltac:(lia)) as [A B]; [split; [lia|]; apply Z.lt_le_trans with (2 ^ 32); [lia|vm_compute; discriminate]|].
    replace (Z.abs n) with (- n) by lia. eexists. split; [exact A|]. split; [exact B|]. reflexivity.
  - destruct (digits_shown 10 9 n ltac:(lia)) as [A B]; [split; [lia|]; apply Z.lt_le_trans with (2 ^ 32); [lia|vm_compute; discriminate]|].
    replace (Z.abs n) with n by lia. eexists. split; [exact A|]. split; [exact B|]. reflexivity.
Qed.
Theorem randombytes_fails t o s n e : decimal s n -> n < 2 ^ 32 -> get_os_random_bytes t o n = Ret (Err e) -> - 2 ^ 31 <= error_number e < 2 ^ 32 ->
  exists m, randombytes t o (Some s) = Ret (ascii "Error: " ++ m ++ newline) /\ shows_random_error e m.
Proof.
  intros D L E R. unfold randombytes. cbn [unwrap obind]. pose proof (parse_u32_spec s) as P. destruct (parse_u32 s) as [m|]; [|specialize (P n D); lia].
  destruct P as [P _]. rewrite (decimal_unique s m n P D). cbn [unwrap obind]. rewrite E. cbn [obind]. exists (random_error_display e).
  split; [unfold println; now rewrite <- app_assoc|]. destruct e; cbn [shows_random_error random_error_display error_number] in *; try reflexivity;
    (eexists; split; [apply fmt_int_shows; lia|reflexivity]).
Qed.
Theorem randombytes_panics t o s : (forall n, decimal s n -> 2 ^ 32 <= n) -> randombytes t o (Some s) = Panic.
Proof.
  intros H. unfold randombytes. cbn [unwrap obind]. pose proof (parse_u32_spec s) as P. destruct (parse_u32 s) as [m|]; [|reflexivity].
  destruct P as [P Q]. specialize (H m P). lia.
Qed.

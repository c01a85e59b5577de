(** The permutation of the model is Keccak-p[1600, 24] of FIPS 202. *)

From Verif Require Import Base M_Word M_Sha3 P_Bits.
From Verif Require S_Sha3.
Open Scope Z_scope.

Notation getb := S_Sha3.A.
Notation tab := S_Sha3.string_of.
Notation lsb := S_Sha3.lsb_bits.

(** ** 64-bit words *)
Definition u64 (v : Z) : Prop := 0 <= v < 2 ^ 64.

Lemma u64_bits v : u64 v <-> (0 <= v /\ forall i, 64 <= i -> Z.testbit v i = false).
Proof.
  unfold u64. split.
  - intros [H1 H2]. split; [assumption|]. intros i Hi. destruct (Z.eq_dec v 0) as [->|]; [apply Z.bits_0|].
    apply Z.bits_above_log2; [assumption|]. apply Z.log2_lt_pow2 in H2; lia.
  - intros [H1 H2]. split; [assumption|].
    destruct (Z.eq_dec v 0) as [->|Hn]; [lia|].
    destruct (Z_lt_le_dec v (2 ^ 64)) as [|Hge]; [assumption|exfalso].
    assert (64 <= Z.log2 v) by (apply Z.log2_le_pow2; lia).
    specialize (H2 (Z.log2 v) ltac:(lia)). rewrite Z.bit_log2 in H2 by lia. discriminate.
Qed.

Lemma u64_0 : u64 0. Proof. unfold u64. lia. Qed.
Lemma u64_lxor a b : u64 a -> u64 b -> u64 (Z.lxor a b).
Proof.
  rewrite !u64_bits. intros [A1 A2] [B1 B2]. split; [apply Z.lxor_nonneg; tauto|].
  intros i Hi. rewrite Z.lxor_spec, A2, B2 by assumption. reflexivity.
Qed.
Lemma u64_land a b : u64 a -> u64 b -> u64 (Z.land a b).
Proof.
  rewrite !u64_bits. intros [A1 A2] [B1 B2]. split; [apply Z.land_nonneg; tauto|].
  intros i Hi. rewrite Z.land_spec, A2 by assumption. reflexivity.
Qed.
Lemma u64_wnot a : u64 a -> u64 (wnot 64 a).
Proof. unfold u64, wnot. lia. Qed.
Lemma u64_rotl a r : 0 <= r <= 64 -> u64 a -> u64 (rotate_left 64 a r).
Proof.
  intros Hr. unfold rotate_left. rewrite !u64_bits. intros [A1 A2].
  split.
  - apply Z.lor_nonneg. split; [apply Z.mod_pos_bound; lia|apply Z.shiftr_nonneg; assumption].
  - intros i Hi. rewrite Z.lor_spec, Z.mod_pow2_bits_high, Z.shiftr_spec, A2 by lia. reflexivity.
Qed.

Lemma testbit_wnot a z : u64 a -> 0 <= z < 64 -> Z.testbit (wnot 64 a) z = negb (Z.testbit a z).
Proof.
  intros Ha Hz. unfold wnot. replace (2 ^ 64 - 1 - a) with (Z.lxor a (Z.ones 64)).
  - rewrite Z.lxor_spec, Z.ones_spec_low by lia. destruct (Z.testbit a z); reflexivity.
  - rewrite Z.lxor_comm. change (2 ^ 64 - 1) with (Z.ones 64).
    rewrite Z.sub_nocarry_ldiff.
    2: { apply Z.bits_inj'. intros n Hn. rewrite Z.ldiff_spec, Z.bits_0, Z.testbit_ones_nonneg by lia.
         destruct (Z.ltb_spec n 64); cbn; [now rewrite andb_false_r|].
         apply u64_bits in Ha. destruct Ha as [_ Ha]. now rewrite Ha. }
    apply Z.bits_inj'. intros n Hn. rewrite Z.ldiff_spec, Z.lxor_spec, Z.testbit_ones_nonneg by lia.
    destruct (Z.ltb_spec n 64); [destruct (Z.testbit a n); reflexivity|].
    apply u64_bits in Ha. destruct Ha as [_ Ha]. now rewrite Ha.
Qed.

Lemma testbit_rotl a r z : u64 a -> 0 < r < 64 -> 0 <= z < 64 ->
  Z.testbit (rotate_left 64 a r) z = Z.testbit a ((z - r) mod 64).
Proof.
  intros Ha Hr Hz. unfold rotate_left. apply u64_bits in Ha. destruct Ha as [A1 A2].
  rewrite Z.lor_spec, Z.mod_pow2_bits_low, Z.shiftl_spec, Z.shiftr_spec by lia.
  destruct (Z_lt_le_dec z r).
  - rewrite Z.testbit_neg_r by lia. cbn [orb]. f_equal.
    apply Z.mod_unique with (-1); lia.
  - rewrite (A2 (z + (64 - r))), orb_false_r by lia. f_equal. symmetry. apply Z.mod_small. lia.
Qed.

(** ** Strings and states *)
Definition str (s : list Z) : list bool := flat_map (lsb 64) s.
Definition st (s : list Z) : Prop := length s = 25%nat /\ Forall u64 s.

Lemma lsb_length n v : length (lsb n v) = n.
Proof. unfold lsb. now rewrite map_length, seq_length. Qed.
Lemma str_length s : length (str s) = (length s * 64)%nat.
Proof. apply flat_map_length_const, lsb_length. Qed.
Lemma lsb_nth n v i : (i < n)%nat -> nth i (lsb n v) false = Z.testbit v (Z.of_nat i).
Proof.
  intros H. unfold lsb. rewrite (nth_indep _ false (Z.testbit v (Z.of_nat 0))) by (rewrite map_length, seq_length; lia).
  rewrite (map_nth (fun i => Z.testbit v (Z.of_nat i))), seq_nth by assumption. reflexivity.
Qed.
Lemma str_nth s k z : (z < 64)%nat -> nth (k * 64 + z) (str s) false = Z.testbit (nth k s 0) (Z.of_nat z).
Proof.
  intros Hz. revert k. induction s as [|v t IH]; intros k.
  - cbn [str flat_map]. destruct (k * 64 + z)%nat, k; now rewrite ?Z.bits_0.
  - unfold str. cbn [flat_map]. destruct k as [|k].
    + rewrite app_nth1 by (rewrite lsb_length; lia). cbn [nth Nat.mul Nat.add]. now apply lsb_nth.
    + rewrite app_nth2 by (rewrite lsb_length; lia). rewrite lsb_length.
      replace (S k * 64 + z - 64)%nat with (k * 64 + z)%nat by lia. cbn [nth]. apply IH.
Qed.

Lemma get_str s x y z : 0 <= x < 5 -> 0 <= y < 5 -> 0 <= z < 64 ->
  getb (str s) x y z = Z.testbit (nth (Z.to_nat (5 * y + x)) s 0) z.
Proof.
  intros Hx Hy Hz. unfold S_Sha3.A.
  replace (Z.to_nat (64 * (5 * y + x) + z)) with (Z.to_nat (5 * y + x) * 64 + Z.to_nat z)%nat by lia.
  rewrite str_nth by lia. f_equal. lia.
Qed.

Lemma get_tab f x y z : 0 <= x < 5 -> 0 <= y < 5 -> 0 <= z < 64 -> getb (tab f) x y z = f x y z.
Proof.
  intros Hx Hy Hz. unfold S_Sha3.A, S_Sha3.string_of.
  set (F := fun i : nat => _). set (n := Z.to_nat (64 * (5 * y + x) + z)).
  rewrite (nth_indep _ false (F 0%nat)) by (rewrite map_length, seq_length; lia).
  rewrite map_nth, seq_nth by lia. unfold F. cbn zeta. cbn [Nat.add].
  replace (Z.of_nat n) with (64 * (5 * y + x) + z) by lia.
  f_equal.
  - rewrite (Z.mul_comm 64), Z.div_add_l, Z.div_small, Z.add_0_r by lia. 
    symmetry. apply Z.mod_unique with y; lia.
  - symmetry. apply Z.div_unique with (64 * x + z); lia.
  - symmetry. apply Z.mod_unique with (5 * y + x); lia.
Qed.

Lemma tab_length f : length (tab f) = 1600%nat.
Proof. unfold S_Sha3.string_of. now rewrite map_length, seq_length. Qed.

Lemma state_ext S T : length S = 1600%nat -> length T = 1600%nat ->
  (forall x y z, 0 <= x < 5 -> 0 <= y < 5 -> 0 <= z < 64 -> getb S x y z = getb T x y z) -> S = T.
Proof.
  intros LS LT H. apply (nth_ext _ _ false false); [congruence|].
  intros i Hi. rewrite LS in Hi.
  set (k := Z.of_nat i) in *. assert (Hk : 0 <= k < 1600) by lia.
  specialize (H ((k / 64) mod 5) (k / 320) (k mod 64)).
  unfold S_Sha3.A in H.
  assert (E : 64 * (5 * (k / 320) + (k / 64) mod 5) + k mod 64 = k).
  { change 320 with (64 * 5). rewrite <- Z.div_div by lia.
    pose proof (Z.div_mod k 64 ltac:(lia)). pose proof (Z.div_mod (k / 64) 5 ltac:(lia)). lia. }
  rewrite E in H. replace (Z.to_nat k) with i in H by lia. apply H.
  - apply Z.mod_pos_bound. lia.
  - split; [apply Z.div_pos; lia|apply Z.div_lt_upper_bound; lia].
  - apply Z.mod_pos_bound. lia.
Qed.

(** a tabulated state equals the string of [s] when the lanes agree *)
Lemma str_tab s f : length s = 25%nat ->
  (forall z, 0 <= z < 64 -> forall k, (k < 25)%nat ->
     Z.testbit (nth k s 0) z = f (Z.of_nat k mod 5) (Z.of_nat k / 5) z) ->
  str s = tab f.
Proof.
  intros L H. apply state_ext; [rewrite str_length, L; reflexivity|apply tab_length|].
  intros x y z Hx Hy Hz. rewrite get_str, get_tab by assumption.
  rewrite H by lia. f_equal.
  - symmetry. apply Z.mod_unique with y; lia.
  - symmetry. apply Z.div_unique with x; lia.
Qed.

Lemma lanes_forall (P : nat -> Prop) : Forall P (seq 0 25) -> forall k, (k < 25)%nat -> P k.
Proof. intros H k Hk. rewrite Forall_forall in H. apply H. apply in_seq. lia. Qed.

Ltac lanes s L :=
  do 25 (destruct s as [|?v s]; [discriminate L|]); destruct s; [|discriminate L].
Ltac u64s :=
  repeat first [assumption | apply u64_lxor | apply u64_land | apply u64_wnot
               | apply u64_rotl; [lia|]].
Ltac forall_inv :=
  repeat match goal with H : Forall u64 (_ :: _) |- _ => inversion H; clear H; subst end.
Ltac all_u64 := repeat (apply Forall_cons; [u64s|]); apply Forall_nil.

(** ** Theta *)
Ltac lane_case := let Z' := fresh in intros k Hk; revert k Hk; apply lanes_forall; cbn [seq].

Lemma theta_spec bc s : length bc = 5%nat -> st s ->
  exists bc' s', theta_steps bc s = (bc', s') /\ length bc' = 5%nat /\ st s' /\ str s' = S_Sha3.theta (str s).
Proof.
  intros Lb [Ls U]. lanes s Ls. do 5 (destruct bc as [|?b bc]; [discriminate Lb|]). destruct bc; [|discriminate Lb].
  forall_inv.
  cbv beta iota zeta delta [theta_steps theta_step1 theta_step2 xor_at nth upd].
  do 2 eexists. split; [reflexivity|]. split; [reflexivity|]. split.
  - split; [reflexivity|]. all_u64.
  - apply str_tab; [reflexivity|]. intros z Hz.
    apply lanes_forall. cbn [seq].
    assert (Hz1 : 0 <= (z - 1) mod 64 < 64) by (apply Z.mod_pos_bound; lia).
    repeat (apply Forall_cons; [|]); [..|apply Forall_nil].
    all: cbn [nth]; match goal with |- _ = xorb (getb _ (Z.of_nat ?k mod 5) (Z.of_nat ?k / 5) _) _ =>
      let x := eval cbv in (Z.of_nat k mod 5) in let y := eval cbv in (Z.of_nat k / 5) in
      change (Z.of_nat k mod 5) with x; change (Z.of_nat k / 5) with y end.
    all: unfold S_Sha3.D, S_Sha3.C;
      repeat match goal with |- context [(?a - 1) mod 5] => let c := eval cbv in ((a - 1) mod 5) in change ((a - 1) mod 5) with c end;
      repeat match goal with |- context [(?a + 1) mod 5] => let c := eval cbv in ((a + 1) mod 5) in change ((a + 1) mod 5) with c end;
      rewrite !get_str by lia;
      repeat match goal with |- context [Z.to_nat ?a] => let c := eval cbv in (Z.to_nat a) in change (Z.to_nat a) with c end;
      cbn [nth];
      rewrite !Z.lxor_spec, testbit_rotl by (try lia; u64s);
      rewrite !Z.lxor_spec, !xorb_assoc; reflexivity.
Qed.

Ltac eval_coords :=
  match goal with |- _ = ?R =>
    match R with context [Z.of_nat ?k mod 5] =>
      let x := eval cbv in (Z.of_nat k mod 5) in let y := eval cbv in (Z.of_nat k / 5) in
      change (Z.of_nat k mod 5) with x; change (Z.of_nat k / 5) with y end end.
Ltac eval_mod5 :=
  repeat match goal with |- context [?a mod 5] =>
    let c := eval cbv in (a mod 5) in change (a mod 5) with c end.
Ltac eval_nat :=
  repeat match goal with |- context [Z.to_nat ?a] =>
    let c := eval cbv in (Z.to_nat a) in change (Z.to_nat a) with c end.

(** ** Rho and pi *)
Lemma mod64 z a b : a mod 64 = b -> (z - a) mod 64 = (z - b) mod 64.
Proof. intros <-. now rewrite Zminus_mod_idemp_r. Qed.

Lemma rho_pi_spec bc s : length bc = 5%nat -> st s ->
  exists bc' s', rho_pi_steps bc s = (bc', s') /\ length bc' = 5%nat /\ st s' /\
    str s' = S_Sha3.pi (S_Sha3.rho (str s)).
Proof.
  intros Lb [Ls U]. lanes s Ls. do 5 (destruct bc as [|?b bc]; [discriminate Lb|]). destruct bc; [|discriminate Lb].
  forall_inv.
  cbv beta iota zeta delta [rho_pi_steps rho_pi nth upd KECCAKF_PILN KECCAKF_ROTC].
  do 2 eexists. split; [reflexivity|]. split; [reflexivity|]. split.
  - split; [reflexivity|]. all_u64.
  - apply str_tab; [reflexivity|]. intros z Hz.
    assert (Hm : forall a, 0 <= (z - a) mod 64 < 64) by (intros; apply Z.mod_pos_bound; lia).
    apply lanes_forall. cbn [seq].
    repeat (apply Forall_cons; [|]); [..|apply Forall_nil].
    all: cbn [nth]; eval_coords; eval_mod5; unfold S_Sha3.rho; rewrite get_tab by lia.
    all: match goal with |- context [S_Sha3.offset ?x ?y] =>
      let c := eval cbv in (S_Sha3.offset x y) in change (S_Sha3.offset x y) with c end.
    all: rewrite get_str by (try lia; apply Hm); eval_nat; cbn [nth].
    1: rewrite Z.sub_0_r, Z.mod_small by lia; reflexivity.
    all: rewrite testbit_rotl by (try lia; assumption); f_equal; symmetry; apply mod64; reflexivity.
Qed.

(** ** Chi *)
Lemma chi_spec bc s : length bc = 5%nat -> st s ->
  exists bc' s', chi_steps bc s = (bc', s') /\ length bc' = 5%nat /\ st s' /\ str s' = S_Sha3.chi (str s).
Proof.
  intros Lb [Ls U]. lanes s Ls. do 5 (destruct bc as [|?b bc]; [discriminate Lb|]). destruct bc; [|discriminate Lb].
  forall_inv.
  cbv beta iota zeta delta [chi_steps chi xor_at firstn skipn app Nat.add nth upd].
  do 2 eexists. split; [reflexivity|]. split; [reflexivity|]. split.
  - split; [reflexivity|]. all_u64.
  - apply str_tab; [reflexivity|]. intros z Hz.
    apply lanes_forall. cbn [seq].
    repeat (apply Forall_cons; [|]); [..|apply Forall_nil].
    all: cbn [nth]; eval_coords; eval_mod5; rewrite !get_str by lia; eval_nat; cbn [nth].
    all: rewrite Z.lxor_spec, Z.land_spec, testbit_wnot by assumption.
    all: rewrite xorb_true_r; reflexivity.
Qed.

(** ** Iota *)
Definition rndc_check : bool :=
  forallb (fun r => forallb (fun z =>
    Bool.eqb (Z.testbit (nth r KECCAKF_RNDC 0) (Z.of_nat z)) (S_Sha3.RC r (Z.of_nat z))) (seq 0 64)) (seq 0 24).
Lemma rndc_ok r z : (r < 24)%nat -> 0 <= z < 64 ->
  Z.testbit (nth r KECCAKF_RNDC 0) z = S_Sha3.RC r z.
Proof.
  intros Hr Hz. assert (E : rndc_check = true) by (vm_compute; reflexivity).
  unfold rndc_check in E. rewrite forallb_forall in E. specialize (E r ltac:(apply in_seq; lia)).
  rewrite forallb_forall in E. specialize (E (Z.to_nat z) ltac:(apply in_seq; lia)).
  rewrite Z2Nat.id in E by lia. now apply Bool.eqb_prop.
Qed.
Lemma rndc_u64 r : u64 (nth r KECCAKF_RNDC 0).
Proof.
  do 24 (destruct r as [|r]; [cbn [nth KECCAKF_RNDC]; unfold u64; lia|]).
  cbn [nth KECCAKF_RNDC]. destruct r; apply u64_0.
Qed.

Lemma iota_spec s r : st s -> (r < 24)%nat ->
  st (xor_at 0 (nth r KECCAKF_RNDC 0) s) /\
  str (xor_at 0 (nth r KECCAKF_RNDC 0) s) = S_Sha3.iota (str s) r.
Proof.
  intros [Ls U] Hr. pose proof (rndc_u64 r) as UR. pose proof (fun z => rndc_ok r z Hr) as RO.
  set (c := nth r KECCAKF_RNDC 0) in *. clearbody c.
  lanes s Ls. forall_inv.
  cbv beta iota zeta delta [xor_at nth upd]. split.
  - split; [reflexivity|]. all_u64.
  - apply str_tab; [reflexivity|]. intros z Hz.
    apply lanes_forall. cbn [seq].
    repeat (apply Forall_cons; [|]); [..|apply Forall_nil].
    all: cbn [nth]; match goal with |- _ = (if (Z.of_nat ?k mod 5 =? 0) && _ then _ else _) =>
      let x := eval cbv in (Z.of_nat k mod 5) in let y := eval cbv in (Z.of_nat k / 5) in
      change (Z.of_nat k mod 5) with x; change (Z.of_nat k / 5) with y end.
    all: cbn [Z.eqb andb Pos.eqb]; rewrite !get_str by lia; eval_nat; cbn [nth].
    1: rewrite Z.lxor_spec, RO by lia; reflexivity.
    all: reflexivity.
Qed.

(** ** The permutation *)
Lemma round_spec bc s r : length bc = 5%nat -> st s -> (r < 24)%nat ->
  exists bc' s', keccak_round r (bc, s) = (bc', s') /\ length bc' = 5%nat /\ st s' /\
    str s' = S_Sha3.Rnd (str s) r.
Proof.
  intros Lb Hs Hr. unfold keccak_round, S_Sha3.Rnd.
  destruct (theta_spec bc s Lb Hs) as (bc1 & s1 & -> & L1 & S1 & <-).
  destruct (rho_pi_spec bc1 s1 L1 S1) as (bc2 & s2 & -> & L2 & S2 & <-).
  destruct (chi_spec bc2 s2 L2 S2) as (bc3 & s3 & -> & L3 & S3 & <-).
  destruct (iota_spec s3 r S3 Hr) as [S4 E4].
  do 2 eexists. split; [reflexivity|]. auto.
Qed.

Lemma fold_pair {B : Type} (I : list Z * list Z -> Prop) (f : nat -> list Z * list Z -> list Z * list Z)
      (v : list Z * list Z -> B) (g : B -> nat -> B) (P : nat -> Prop) :
  (forall r x, P r -> I x -> I (f r x) /\ v (f r x) = g (v x) r) ->
  forall l x, Forall P l -> I x ->
  I (fold_left (fun x r => f r x) l x) /\ v (fold_left (fun x r => f r x) l x) = fold_left g l (v x).
Proof.
  intros H. induction l as [|r l IH]; intros x Hl Hx; cbn [fold_left]; [auto|].
  inversion Hl; subst. destruct (H r x) as [HA HB]; auto.
  rewrite <- HB. apply IH; assumption.
Qed.

Definition kst (x : list Z * list Z) : Prop := length (fst x) = 5%nat /\ st (snd x).

Lemma round_kst r x : (r < 24)%nat -> kst x ->
  kst (keccak_round r x) /\ str (snd (keccak_round r x)) = S_Sha3.Rnd (str (snd x)) r.
Proof.
  intros Hr [H1 H2]. destruct x as [bc s]. cbn [fst snd] in *.
  destruct (round_spec bc s r H1 H2 Hr) as (bc' & s' & E & L & S & R). rewrite E.
  exact (conj (conj L S) R).
Qed.

Lemma rounds_spec bc s : length bc = 5%nat -> st s ->
  let r := fold_left (fun bcs r => keccak_round r bcs) (seq 0 KECCAKF_ROUNDS) (bc, s) in
  kst r /\ str (snd r) = fold_left S_Sha3.Rnd (seq 0 24) (str s).
Proof.
  intros Lb Hs.
  exact (fold_pair kst keccak_round (fun x => str (snd x)) S_Sha3.Rnd (fun r => (r < 24)%nat) round_kst
           (seq 0 24) (bc, s) ltac:(apply Forall_forall; intros r Hr; apply in_seq in Hr; lia) (conj Lb Hs)).
Qed.

(** on a little-endian target *)
Lemma keccakf_le_spec s : st s ->
  st (sha3_keccakf false s) /\ str (sha3_keccakf false s) = S_Sha3.KECCAK_p (str s).
Proof.
  intros Hs. unfold sha3_keccakf, S_Sha3.KECCAK_p.
  destruct (rounds_spec (repeat 0 5) s eq_refl Hs) as [K E].
  destruct (fold_left (fun bcs r => keccak_round r bcs) (seq 0 KECCAKF_ROUNDS) (repeat 0 5, s)) as [bc' s'].
  exact (conj (proj2 K) E).
Qed.

(** The model of SHA-2 computes the functions of FIPS 180-4. *)

From Verif Require Import Base M_Word M_Sha2 S_Sha2 P_BigInt3 P_Bits P_Sha2r.
Open Scope Z_scope.

Lemma fold_combine (rd : Z -> Z -> vars -> vars) (w : list Z) (f : nat -> Z) s n H :
  fold_left (fun v kt => rd (fst kt) (nth (snd kt) w 0) v) (combine (map f (seq s n)) (seq s n)) H =
  fold_left (fun v t => rd (f t) (nth t w 0) v) (seq s n) H.
Proof.
  revert s H. induction n as [|n IH]; intros s H; [reflexivity|]. cbn [seq map combine fold_left fst snd].
  apply IH.
Qed.

(** ** Message schedule *)
Section Schedule.
Variable w : nat.
Variables SS0 SS1 : Z * Z * Z.
Notation sched := (schedule w SS0 SS1).

Lemma schedule_length B n : length (sched B n) = n.
Proof. induction n; [reflexivity|]. cbn [schedule]. rewrite app_length, IHn. cbn [length]. lia. Qed.

Lemma schedule_nth B n : forall i, (i < n)%nat ->
  nth i (sched B n) 0 =
  if Nat.ltb i 16 then nth i B 0
  else ADD w (ADD w (ADD w (Small w SS1 (nth (i - 2) (sched B n) 0)) (nth (i - 7) (sched B n) 0))
       (Small w SS0 (nth (i - 15) (sched B n) 0))) (nth (i - 16) (sched B n) 0).
Proof.
  induction n as [|n IH]; intros i Hi; [lia|].
  cbn [schedule]. set (x := if Nat.ltb n 16 then _ else _).
  destruct (Nat.eq_dec i n) as [->|Hne].
  - rewrite app_nth2, schedule_length, Nat.sub_diag by (rewrite schedule_length; lia).
    cbn [nth]. subst x. destruct (Nat.ltb_spec n 16); [reflexivity|].
    rewrite !app_nth1 by (rewrite schedule_length; lia). reflexivity.
  - rewrite app_nth1 by (rewrite schedule_length; lia). rewrite IH by lia.
    destruct (Nat.ltb_spec i 16); [reflexivity|].
    rewrite !app_nth1 by (rewrite schedule_length; lia). reflexivity.
Qed.

Lemma schedule_prefix B n : forall i m, (i < n)%nat -> (n <= m)%nat ->
  nth i (sched B n) 0 = nth i (sched B m) 0.
Proof.
  intros i m Hi Hm. induction m as [|m IH]; [lia|].
  destruct (Nat.eq_dec n (S m)) as [->|]; [reflexivity|].
  rewrite IH by lia. cbn [schedule]. rewrite app_nth1 by (rewrite schedule_length; lia). reflexivity.
Qed.

(** the in-place expansion *)
Definition xstep (ws : list Z) (i : nat) : list Z :=
  upd i (ADD w (ADD w (ADD w (Small w SS1 (nth (i - 2) ws 0)) (nth (i - 7) ws 0))
             (Small w SS0 (nth (i - 15) ws 0))) (nth (i - 16) ws 0)) ws.

Lemma expand_gen B n k ws : (16 + k <= n)%nat -> length ws = n ->
  (forall i, (i < 16)%nat -> nth i ws 0 = nth i B 0) ->
  let r := fold_left xstep (seq 16 k) ws in
  length r = n /\ forall i, (i < 16 + k)%nat -> nth i r 0 = nth i (sched B n) 0.
Proof.
  intros Hk L H. induction k as [|k IH]; cbn zeta.
  - cbn [seq fold_left]. split; [assumption|]. intros i Hi.
    rewrite schedule_nth by lia. destruct (Nat.ltb_spec i 16); [auto|lia].
  - destruct IH as [I1 I2]; [lia|].
    rewrite seq_S, fold_left_app. cbn [fold_left].
    set (r := fold_left xstep (seq 16 k) ws) in *.
    split; [unfold xstep; now rewrite upd_length|].
    intros i Hi. unfold xstep. rewrite upd_nth by lia.
    destruct (Nat.eqb_spec (16 + k) i) as [<-|Hne].
    + rewrite (schedule_nth B n (16 + k)) by lia. destruct (Nat.ltb_spec (16 + k) 16); [lia|].
      rewrite !I2 by lia. reflexivity.
    + apply I2. lia.
Qed.

Lemma expand_full B n ws : (16 <= n)%nat -> length ws = n ->
  (forall i, (i < 16)%nat -> nth i ws 0 = nth i B 0) ->
  fold_left xstep (seq 16 (n - 16)) ws = sched B n.
Proof.
  intros Hn L H. destruct (expand_gen B n (n - 16) ws) as [A1 A2]; auto; [lia|].
  apply (nth_ext _ _ 0 0); [rewrite schedule_length; exact A1|].
  intros i Hi. apply A2. lia.
Qed.
End Schedule.

(** ** Parsing a byte string *)
Section Parse.
Variable wb : nat.
Hypothesis Hwb : (0 < wb)%nat.
Notation w := (wb * 8)%nat.

Lemma words_of_block P i : bytes P -> (i * (16 * wb) + 16 * wb <= length P)%nat ->
  map be_val (chunks_exact wb (firstn (16 * wb) (skipn (i * (16 * wb)) P))) =
  block w (bits_of_bytes P) i.
Proof.
  intros HP HL. rewrite (chunks_exact_multiple wb 16) by (try assumption; rewrite firstn_length, skipn_length; lia).
  unfold block. rewrite map_map. apply map_seq_ext. intros j Hj.
  rewrite sub_sub by nia.
  replace (i * (16 * w) + j * w)%nat with ((i * (16 * wb) + j * wb) * 8)%nat by nia.
  rewrite sub_bits, Z_of_bits_of_bytes; [reflexivity|].
  apply Forall_firstn', Forall_skipn', HP.
Qed.

Lemma blocks_eq P : bytes P ->
  blocks w (bits_of_bytes P) = map (fun c => map be_val (chunks_exact wb c)) (chunks_exact (16 * wb) P).
Proof.
  intros HP. unfold blocks, chunks_exact at 2. rewrite map_map, bits_of_bytes_length.
  replace (16 * w)%nat with ((16 * wb) * 8)%nat by lia.
  rewrite Nat.div_mul_cancel_r by lia.
  apply map_seq_ext. intros i Hi. symmetry. apply words_of_block; [assumption|].
  pose proof (Nat.mul_div_le (length P) (16 * wb)). nia.
Qed.

(** padding, in bytes *)
Definition pad_bytes (m : list Z) : list Z :=
  let l := Z.of_nat (length m) * 8 in
  [0x80] ++ repeat 0 (Z.to_nat (((14 * Z.of_nat w - (l + 1)) mod (16 * Z.of_nat w) - 7) / 8)) ++ to_be (2 * wb) l.

Lemma pad_k (m : list Z) : let l := Z.of_nat (length m) * 8 in
  exists q, 0 <= q /\ (14 * Z.of_nat w - (l + 1)) mod (16 * Z.of_nat w) = 8 * q + 7 /\ q < 16 * Z.of_nat wb /\
   exists k, Z.of_nat (length m) + 1 + q + 2 * Z.of_nat wb = k * (16 * Z.of_nat wb).
Proof.
  intros l. set (b := Z.of_nat wb). assert (0 < b) by lia.
  set (len := Z.of_nat (length m)) in *.
  pose proof (Z.mod_pos_bound (14 * b - (len + 1)) (16 * b) ltac:(lia)) as B.
  pose proof (Z.div_mod (14 * b - (len + 1)) (16 * b) ltac:(lia)) as D.
  set (q := (14 * b - (len + 1)) mod (16 * b)) in *. set (t := (14 * b - (len + 1)) / (16 * b)) in *.
  exists q. split; [lia|]. split; [|split; [lia|]].
  - replace (Z.of_nat w) with (8 * b) by lia.
    symmetry. apply Z.mod_unique with t; [left; lia|]. unfold l. nia.
  - exists (1 - t). nia.
Qed.

Lemma pad_bits m : bits_of_bytes (m ++ pad_bytes m) = pad w (bits_of_bytes m).
Proof.
  unfold pad, pad_bytes. cbv zeta. rewrite !bits_of_bytes_app, bits_of_bytes_zeros, bits_to_be, bits_of_bytes_length.
  f_equal. rewrite (Nat2Z.inj_mul (length m) 8). change (Z.of_nat 8) with 8.
  change (bits_of_bytes [0x80]) with ([true] ++ repeat false 7).
  rewrite <- app_assoc. f_equal. rewrite app_assoc, <- repeat_app.
  destruct (pad_k m) as (q & Q0 & Q1 & Q2 & _). cbn zeta in Q1. rewrite Q1.
  replace (8 * q + 7 - 7) with (q * 8) by ring. rewrite Z.div_mul by lia.
  replace (2 * wb * 8)%nat with (2 * w)%nat by lia. f_equal. f_equal. lia.
Qed.

Lemma pad_length (m : list Z) : exists k, length (remainder (16 * wb) m ++ pad_bytes m) = (k * (16 * wb))%nat /\ (k = 1 \/ k = 2)%nat.
Proof.
  unfold pad_bytes. rewrite !app_length, repeat_length, to_be_length, remainder_length by lia. cbn [length].
  destruct (pad_k m) as (q & Q0 & Q1 & Q2 & k & Q3). cbn zeta in Q1. rewrite Q1.
  replace (8 * q + 7 - 7) with (q * 8) by ring. rewrite Z.div_mul by lia.
  pose proof (Nat.mod_upper_bound (length m) (16 * wb) ltac:(lia)) as B.
  pose proof (Nat.div_mod (length m) (16 * wb) ltac:(lia)) as D.
  set (r := (length m mod (16 * wb))%nat) in *. set (t := (length m / (16 * wb))%nat) in *.
  exists (Z.to_nat (k - Z.of_nat t)).
  assert (E : Z.of_nat r + 1 + q + 2 * Z.of_nat wb = (k - Z.of_nat t) * (16 * Z.of_nat wb)) by nia.
  assert (0 < k - Z.of_nat t) by nia. assert (k - Z.of_nat t < 3) by nia.
  split; [|lia].
  apply Nat2Z.inj. rewrite Nat2Z.inj_mul, Z2Nat.id by lia. lia.
Qed.

Lemma pad_bytes_range m : bytes (pad_bytes m).
Proof.
  unfold pad_bytes, bytes. rewrite !Forall_app. repeat split.
  - constructor; [unfold byte; lia|constructor].
  - apply Forall_forall. intros x Hx. apply repeat_spec in Hx. subst. unfold byte. lia.
  - apply to_be_bytes_range.
Qed.
End Parse.

Lemma calculate_k_spec l b l_b : 0 <= l -> 0 < l_b -> l_b + 1 <= b -> b < 2 ^ 62 ->
  calculate_k l b l_b = Ret ((b - l_b - (l + 1)) mod b).
Proof.
  intros Hl Hb1 Hb2 Hb3. unfold calculate_k, u64_mul, u64_add, u64_sub.
  pose proof (Z.mod_pos_bound l b ltac:(lia)) as B. pose proof (Z.div_mod l b ltac:(lia)) as D.
  set (r := l mod b) in *. set (t := l / b) in *.
  change (2 ^ 64) with (4 * 2 ^ 62).
  destruct (Z.ltb_spec (2 * b) (4 * 2 ^ 62)); [|lia]. cbn [obind].
  destruct (Z.ltb_spec (r + 1) (4 * 2 ^ 62)); [|lia]. cbn [obind].
  destruct (Z.ltb_spec (r + 1 + l_b) (4 * 2 ^ 62)); [|lia]. cbn [obind].
  destruct (Z.leb_spec 0 (2 * b - (r + 1 + l_b))); [|lia]. cbn [obind].
  destruct (Z.leb_spec b (2 * b - (r + 1 + l_b))).
  - destruct (Z.leb_spec 0 (2 * b - (r + 1 + l_b) - b)); [|lia]. f_equal.
    apply Z.mod_unique with (-t); [left; lia|]. nia.
  - f_equal. apply Z.mod_unique with (-t - 1); [left; lia|]. nia.
Qed.

(** ** Compression *)
Definition sha2_obj (n : nat) (sw : list Z * list Z) : Prop :=
  length (fst sw) = 8%nat /\ length (snd sw) = n.

Notation cmp256 := (compress 32 64 (2, 13, 22) (6, 11, 25) (7, 18, 3) (17, 19, 10)).
Notation cmp512 := (compress 64 80 (28, 34, 39) (14, 18, 41) (1, 8, 7) (19, 61, 6)).

Lemma load_spec blk w (words : list Z) : length words = 16%nat ->
  words = map be_val blk -> (16 <= length w)%nat ->
  let r := firstn 16 (map be_val blk) ++ skipn (length (firstn 16 (map be_val blk))) w in
  length r = length w /\ forall i, (i < 16)%nat -> nth i r 0 = nth i words 0.
Proof.
  intros L E Hw. rewrite <- E, firstn_all2 by lia. cbn zeta. split.
  - rewrite app_length, skipn_length. lia.
  - intros i Hi. apply app_nth1. lia.
Qed.

Lemma compress32_spec blk H w : length blk = 64%nat -> length w = 64%nat ->
  exists w', compress32 blk (vars_list H, w) = (vars_list (cmp256 H (map be_val (chunks_exact 4 blk))), w') /\ length w' = 64%nat.
Proof.
  intros Lb Lw. unfold compress32. set (words := map be_val (chunks_exact 4 blk)).
  assert (Lx : length words = 16%nat).
  { unfold words. rewrite (chunks_exact_multiple 4 16) by (try lia; exact Lb). reflexivity. }
  destruct (load_spec (chunks_exact 4 blk) w words Lx eq_refl ltac:(lia)) as [L1 L2].
  assert (E : expand32 (load32 blk w) = schedule 32 (7, 18, 3) (17, 19, 10) words 64).
  { rewrite <- (expand_full 32 (7, 18, 3) (17, 19, 10) words 64 (load32 blk w));
      [|lia|unfold load32; rewrite L1; exact Lw|exact L2].
    unfold expand32. apply fold_left_ext_in. intros x i _. unfold xstep.
    rewrite <- gamma0_32_eq, <- gamma1_32_eq. reflexivity. }
  rewrite E. exists (schedule 32 (7, 18, 3) (17, 19, 10) words 64).
  split; [|apply schedule_length]. f_equal.
  rewrite (rounds32_gen rnd32 (round 32 (2, 13, 22) (6, 11, 25)) round32_eq H _ finish32 eq_refl).
  rewrite <- K32_eq, fold_combine. unfold compress.
  destruct (fold_left _ _ _) as [[[[[[[a b] c] d] e] f] g] h].
  destruct H as [[[[[[[a' b'] c'] d'] e'] f'] g'] h']. reflexivity.
Qed.

Lemma compress64_spec blk H w : length blk = 128%nat -> length w = 80%nat ->
  exists w', compress64 blk (vars_list H, w) = (vars_list (cmp512 H (map be_val (chunks_exact 8 blk))), w') /\ length w' = 80%nat.
Proof.
  intros Lb Lw. unfold compress64. set (words := map be_val (chunks_exact 8 blk)).
  assert (Lx : length words = 16%nat).
  { unfold words. rewrite (chunks_exact_multiple 8 16) by (try lia; exact Lb). reflexivity. }
  destruct (load_spec (chunks_exact 8 blk) w words Lx eq_refl ltac:(lia)) as [L1 L2].
  assert (E : expand64 (load64 blk w) = schedule 64 (1, 8, 7) (19, 61, 6) words 80).
  { rewrite <- (expand_full 64 (1, 8, 7) (19, 61, 6) words 80 (load64 blk w));
      [|lia|unfold load64; rewrite L1; exact Lw|exact L2].
    unfold expand64. apply fold_left_ext_in. intros x i _. unfold xstep.
    rewrite <- gamma0_64_eq, <- gamma1_64_eq. reflexivity. }
  rewrite E. exists (schedule 64 (1, 8, 7) (19, 61, 6) words 80).
  split; [|apply schedule_length]. f_equal.
  rewrite (rounds64_gen rnd64 (round 64 (28, 34, 39) (14, 18, 41)) round64_eq H _ finish64 eq_refl).
  rewrite <- K64_eq, fold_combine. unfold compress.
  destruct (fold_left _ _ _) as [[[[[[[a b] c] d] e] f] g] h].
  destruct H as [[[[[[[a' b'] c'] d'] e'] f'] g'] h']. reflexivity.
Qed.

(** many blocks *)
Lemma compress_all (n wb nw : nat) (cm : list Z -> list Z * list Z -> list Z * list Z) (cs : vars -> list Z -> vars) :
  (forall blk H w, length blk = n -> length w = nw ->
     exists w', cm blk (vars_list H, w) = (vars_list (cs H (map be_val (chunks_exact wb blk))), w') /\ length w' = nw) ->
  forall bs H w, Forall (fun b => length b = n) bs -> length w = nw ->
  exists w', fold_left (fun sw b => cm b sw) bs (vars_list H, w) =
     (vars_list (fold_left cs (map (fun c => map be_val (chunks_exact wb c)) bs) H), w') /\ length w' = nw.
Proof.
  intros Hc. induction bs as [|b bs IH]; intros H w Hb Hw; cbn [fold_left map].
  - eauto.
  - inversion Hb; subst. destruct (Hc b H w eq_refl eq_refl) as (w1 & -> & L1). now apply IH.
Qed.

Lemma chunks_exact_lengths {A} n (l : list A) : (0 < n)%nat -> Forall (fun b => length b = n) (chunks_exact n l).
Proof.
  intros Hn. unfold chunks_exact. apply Forall_forall. intros x Hx. apply in_map_iff in Hx.
  destruct Hx as (i & <- & Hi). apply in_seq in Hi. rewrite firstn_length, skipn_length.
  pose proof (Nat.mul_div_le (length l) n). nia.
Qed.

Lemma vars_of_list s : length s = 8%nat -> exists H, s = vars_list H.
Proof.
  do 8 (destruct s as [|? s]; [discriminate|]). destruct s; [|discriminate]. intros _.
  exists (z, z0, z1, z2, z3, z4, z5, z6). reflexivity.
Qed.

Lemma digest_core_256 (m : list Z) (s w : list Z) :
  bytes m -> Z.of_nat (length m) * 8 < 2 ^ 64 -> length w = 64%nat ->
  exists H w', sha256_digest m (s, w) = Ret (flat_map (to_be 4) (vars_list H), (vars_list H, w')) /\
    length w' = 64%nat /\ fold_left cmp256 (blocks 32 (pad 32 (bits_of_bytes m))) (initial 32 0) = H.
Proof.
  intros Hm Hl Hw. unfold sha256_digest. rewrite <- IV256_eq.
  destruct (compress_all 64 4 64 compress32 cmp256 compress32_spec (chunks_exact 64 m) (initial 32 0) (repeat 0 (length w)))
    as (w1 & E1 & L1); [apply chunks_exact_lengths; lia|now rewrite repeat_length|].
  rewrite E1.
  unfold u64_mul. destruct (Z.ltb_spec (Z.of_nat (length m) * 8) (2 ^ 64)); [|lia]. cbn [obind].
  rewrite calculate_k_spec by (cbn; lia). cbn [obind].
  pose proof (pad_k 4 ltac:(lia) m) as (q & Q0 & Q1 & Q2 & _). cbn zeta in Q1.
  replace (64 * 8 - 64 - (Z.of_nat (length m) * 8 + 1)) with (14 * Z.of_nat (4 * 8) - (Z.of_nat (length m) * 8 + 1)) by lia.
  change (64 * 8) with (16 * Z.of_nat (4 * 8)). 
  unfold u64_sub. rewrite Q1.
  destruct (Z.leb_spec 0 (8 * q + 7 - 7)); [|lia]. cbn [obind].
  rewrite <- Q1.
  rewrite <- !app_assoc. change ([0x80] ++ repeat 0 (Z.to_nat (((14 * Z.of_nat (4 * 8) - (Z.of_nat (length m) * 8 + 1)) mod (16 * Z.of_nat (4 * 8)) - 7) / 8)) ++ to_be 8 (Z.of_nat (length m) * 8)) with (pad_bytes 4 m).
  destruct (pad_length 4 ltac:(lia) m) as (k & P1 & P2).
  change (16 * 4)%nat with 64%nat in P1. change (64 * 2)%nat with (2 * 64)%nat.
  replace (Nat.eqb (length (remainder 64 m ++ pad_bytes 4 m)) 64 || Nat.eqb (length (remainder 64 m ++ pad_bytes 4 m)) (2 * 64))%bool with true.
  2: { rewrite P1. destruct P2 as [-> | ->]; reflexivity. }
  cbn [oassert].
  match goal with |- context [fold_left _ (chunks_exact 64 (remainder 64 m ++ pad_bytes 4 m)) (vars_list ?H1, w1)] =>
    destruct (compress_all 64 4 64 compress32 cmp256 compress32_spec (chunks_exact 64 (remainder 64 m ++ pad_bytes 4 m)) H1 w1)
      as (w2 & E2 & L2); [apply chunks_exact_lengths; lia|assumption|] end.
  rewrite E2. cbn [fst]. eexists _, w2. split; [reflexivity|]. split; [assumption|].
  rewrite <- fold_left_app, <- map_app, <- chunks_exact_app by lia.
  change (pad 32 (bits_of_bytes m)) with (pad (4 * 8) (bits_of_bytes m)).
  rewrite <- (pad_bits 4) by lia.
  match goal with |- context [blocks 32 ?x] => change (blocks 32 x) with (blocks (4 * 8) x) end.
  rewrite blocks_eq; [reflexivity|lia|].
  apply Forall_app. split; [assumption|apply pad_bytes_range].
  all: lia.
Qed.

Lemma digest_core_512 (m : list Z) (s w : list Z) (IV : vars) :
  bytes m -> Z.of_nat (length m) * 8 < 2 ^ 64 -> length w = 80%nat ->
  exists H w', sha384_512_digest_core m (s, w) (vars_list IV) = Ret (vars_list H, w') /\
    length w' = 80%nat /\ fold_left cmp512 (blocks 64 (pad 64 (bits_of_bytes m))) IV = H.
Proof.
  intros Hm Hl Hw. unfold sha384_512_digest_core.
  destruct (compress_all 128 8 80 compress64 cmp512 compress64_spec (chunks_exact 128 m) IV (repeat 0 (length w)))
    as (w1 & E1 & L1); [apply chunks_exact_lengths; lia|now rewrite repeat_length|].
  rewrite E1.
  unfold u64_mul. destruct (Z.ltb_spec (Z.of_nat (length m) * 8) (2 ^ 64)); [|lia]. cbn [obind].
  rewrite calculate_k_spec by (cbn; lia). cbn [obind].
  pose proof (pad_k 8 ltac:(lia) m) as (q & Q0 & Q1 & Q2 & _). cbn zeta in Q1.
  replace (128 * 8 - 128 - (Z.of_nat (length m) * 8 + 1)) with (14 * Z.of_nat (8 * 8) - (Z.of_nat (length m) * 8 + 1)) by lia.
  change (128 * 8) with (16 * Z.of_nat (8 * 8)). 
  unfold u64_sub. rewrite Q1.
  destruct (Z.leb_spec 0 (8 * q + 7 - 7)); [|lia]. cbn [obind].
  rewrite <- Q1.
  rewrite <- !app_assoc.
  assert (TB : to_be 8 0 ++ to_be 8 (Z.of_nat (length m) * 8) = to_be 16 (Z.of_nat (length m) * 8)).
  { rewrite (to_be_pad 8 8); [reflexivity|]. change (256 ^ Z.of_nat 8) with (2 ^ 64). lia. }
  rewrite TB. change ([0x80] ++ repeat 0 (Z.to_nat (((14 * Z.of_nat (8 * 8) - (Z.of_nat (length m) * 8 + 1)) mod (16 * Z.of_nat (8 * 8)) - 7) / 8)) ++ to_be 16 (Z.of_nat (length m) * 8)) with (pad_bytes 8 m).
  destruct (pad_length 8 ltac:(lia) m) as (k & P1 & P2).
  change (16 * 8)%nat with 128%nat in P1. change (128 * 2)%nat with (2 * 128)%nat.
  replace (Nat.eqb (length (remainder 128 m ++ pad_bytes 8 m)) 128 || Nat.eqb (length (remainder 128 m ++ pad_bytes 8 m)) (2 * 128))%bool with true.
  2: { rewrite P1. destruct P2 as [-> | ->]; reflexivity. }
  cbn [oassert].
  match goal with |- context [fold_left _ (chunks_exact 128 (remainder 128 m ++ pad_bytes 8 m)) (vars_list ?H1, w1)] =>
    destruct (compress_all 128 8 80 compress64 cmp512 compress64_spec (chunks_exact 128 (remainder 128 m ++ pad_bytes 8 m)) H1 w1)
      as (w2 & E2 & L2); [apply chunks_exact_lengths; lia|assumption|] end.
  rewrite E2. eexists _, w2. split; [reflexivity|]. split; [assumption|].
  rewrite <- fold_left_app, <- map_app, <- chunks_exact_app by lia.
  change (pad 64 (bits_of_bytes m)) with (pad (8 * 8) (bits_of_bytes m)).
  rewrite <- (pad_bits 8) by lia.
  match goal with |- context [blocks 64 ?x] => change (blocks 64 x) with (blocks (8 * 8) x) end.
  rewrite blocks_eq; [reflexivity|lia|].
  apply Forall_app. split; [assumption|apply pad_bytes_range].
  all: lia.
Qed.

Lemma bits_flat_to_be n l : bits_of_bytes (flat_map (to_be n) l) = flat_map (bits_of_Z (n * 8)) l.
Proof.
  induction l as [|x t IH]; [reflexivity|]. cbn [flat_map]. now rewrite bits_of_bytes_app, bits_to_be, IH.
Qed.
Lemma flat_to_be_range n l : bytes (flat_map (to_be n) l).
Proof.
  induction l; [constructor|]. cbn [flat_map]. apply Forall_app. split; [apply to_be_bytes_range|assumption].
Qed.

(** ** The hashers *)
Lemma sha256_spec sw m : sha2_obj 64 sw -> bytes m -> 8 * Z.of_nat (length m) < 2 ^ 64 ->
  exists d sw', sha256 sw m = Ret (d, sw') /\ sha2_obj 64 sw' /\ bytes d /\ length d = 32%nat /\
    bits_of_bytes d = SHA256 (bits_of_bytes m).
Proof.
  destruct sw as [s w]. intros [_ Hw] Hm Hl. cbn [snd] in Hw.
  destruct (digest_core_256 m s w Hm ltac:(lia) Hw) as (H & w' & E & L & F).
  unfold sha256. rewrite E. cbn [obind].
  assert (L8 : length (vars_list H) = 8%nat) by (destruct H as [[[[[[[? ?] ?] ?] ?] ?] ?] ?]; reflexivity).
  assert (Ld : length (flat_map (to_be 4) (vars_list H)) = 32%nat).
  { rewrite (flat_map_length_const _ 4) by (intros; apply to_be_length). now rewrite L8. }
  rewrite Ld. cbn [Nat.eqb oassert]. do 2 eexists. split; [reflexivity|].
  split; [split; [exact L8|exact L]|]. split; [apply flat_to_be_range|]. split; [exact Ld|].
  rewrite bits_flat_to_be. unfold SHA256, digest. rewrite F.
  destruct H as [[[[[[[? ?] ?] ?] ?] ?] ?] ?]. reflexivity.
Qed.

Lemma sha512_spec sw m : sha2_obj 80 sw -> bytes m -> 8 * Z.of_nat (length m) < 2 ^ 64 ->
  exists d sw', sha512 sw m = Ret (d, sw') /\ sha2_obj 80 sw' /\ bytes d /\ length d = 64%nat /\
    bits_of_bytes d = SHA512 (bits_of_bytes m).
Proof.
  destruct sw as [s w]. intros [_ Hw] Hm Hl. cbn [snd] in Hw.
  destruct (digest_core_512 m s w (initial 64 0) Hm ltac:(lia) Hw) as (H & w' & E & L & F).
  unfold sha512. rewrite <- IV512_eq, E. cbn [obind fst].
  assert (L8 : length (vars_list H) = 8%nat) by (destruct H as [[[[[[[? ?] ?] ?] ?] ?] ?] ?]; reflexivity).
  assert (Ld : length (flat_map (to_be 8) (vars_list H)) = 64%nat).
  { rewrite (flat_map_length_const _ 8) by (intros; apply to_be_length). now rewrite L8. }
  rewrite Ld. cbn [Nat.eqb oassert]. do 2 eexists. split; [reflexivity|].
  split; [split; [exact L8|exact L]|]. split; [apply flat_to_be_range|]. split; [exact Ld|].
  rewrite bits_flat_to_be. unfold SHA512, digest. rewrite F.
  destruct H as [[[[[[[? ?] ?] ?] ?] ?] ?] ?]. reflexivity.
Qed.

Lemma sha384_spec sw m : sha2_obj 80 sw -> bytes m -> 8 * Z.of_nat (length m) < 2 ^ 64 ->
  exists d sw', sha384 sw m = Ret (d, sw') /\ sha2_obj 80 sw' /\ bytes d /\ length d = 48%nat /\
    bits_of_bytes d = SHA384 (bits_of_bytes m).
Proof.
  destruct sw as [s w]. intros [_ Hw] Hm Hl. cbn [snd] in Hw.
  destruct (digest_core_512 m s w (initial 64 8) Hm ltac:(lia) Hw) as (H & w' & E & L & F).
  unfold sha384. rewrite <- IV384_eq, E. cbn [obind fst].
  assert (L8 : length (vars_list H) = 8%nat) by (destruct H as [[[[[[[? ?] ?] ?] ?] ?] ?] ?]; reflexivity).
  assert (Ld : length (flat_map (to_be 8) (firstn 6 (vars_list H))) = 48%nat).
  { rewrite (flat_map_length_const _ 8) by (intros; apply to_be_length). rewrite firstn_length, L8. reflexivity. }
  rewrite Ld. cbn [Nat.eqb oassert]. do 2 eexists. split; [reflexivity|].
  split; [split; [exact L8|exact L]|]. split; [apply flat_to_be_range|]. split; [exact Ld|].
  rewrite bits_flat_to_be, <- (flat_map_firstn _ 64) by (intros; apply bits_length).
  unfold SHA384, digest. rewrite F.
  destruct H as [[[[[[[? ?] ?] ?] ?] ?] ?] ?]. reflexivity.
Qed.

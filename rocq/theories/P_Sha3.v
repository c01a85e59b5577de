(** The SHA-3 and Keccak hashers compute the functions of FIPS 202. *)

From Verif Require Import Base M_Word M_Sha3 P_BigInt3 P_Bits P_Keccak.
From Verif Require Import S_Sha3.
Open Scope Z_scope.

Notation lbytes := bits_of_bytes_le.
Notation keccakf := sha3_keccakf.

(** ** Bits and bytes *)
Lemma lsb_app a b v : lsb (a + b) v = lsb a v ++ lsb b (v / 2 ^ Z.of_nat a).
Proof.
  unfold lsb_bits. rewrite seq_app, map_app. f_equal.
  replace (0 + a)%nat with (a + 0)%nat by lia. rewrite seq_shift_by, map_map.
  apply map_seq_ext. intros i Hi. rewrite Z.div_pow2_bits by lia. f_equal. lia.
Qed.
Lemma lsb_mod n v : lsb n (v mod 2 ^ Z.of_nat n) = lsb n v.
Proof. unfold lsb_bits. apply map_seq_ext. intros i Hi. apply Z.mod_pow2_bits_low. lia. Qed.

Lemma to_le_S n v : to_le (Datatypes.S n) v = v mod 256 :: to_le n (v / 256).
Proof. unfold to_le. cbn [to_be]. now rewrite rev_app_distr. Qed.
Lemma to_le_length n v : length (to_le n v) = n.
Proof. unfold to_le. now rewrite rev_length, to_be_length. Qed.
Lemma lbytes_to_le n v : lbytes (to_le n v) = lsb (n * 8) v.
Proof.
  revert v. induction n as [|n IH]; intros v; [reflexivity|].
  rewrite to_le_S. unfold bits_of_bytes_le. cbn [flat_map]. fold (lbytes (to_le n (v / 256))). rewrite IH.
  replace (Datatypes.S n * 8)%nat with (8 + n * 8)%nat by lia. rewrite lsb_app.
  change (2 ^ Z.of_nat 8) with 256. f_equal. change 256 with (2 ^ Z.of_nat 8). apply lsb_mod.
Qed.
Lemma lbytes_app a b : lbytes (a ++ b) = lbytes a ++ lbytes b.
Proof. apply flat_map_app. Qed.
Lemma lbytes_length a : length (lbytes a) = (length a * 8)%nat.
Proof. apply flat_map_length_const, lsb_length. Qed.
Lemma lbytes_firstn n a : lbytes (firstn n a) = firstn (n * 8) (lbytes a).
Proof. symmetry. apply flat_map_firstn, lsb_length. Qed.
Lemma lbytes_sub m i k : firstn (k * 8) (skipn (i * 8) (lbytes m)) = lbytes (firstn k (skipn i m)).
Proof. unfold bits_of_bytes_le. rewrite (flat_map_skipn _ 8), (flat_map_firstn _ 8); auto using lsb_length. Qed.
Lemma lbytes_zeros n : lbytes (repeat 0 n) = repeat false (n * 8).
Proof. induction n; [reflexivity|]. cbn [repeat]. unfold bits_of_bytes_le in *. cbn [flat_map]. rewrite IHn. reflexivity. Qed.

Lemma bytes_rev l : bytes l -> bytes (rev l).
Proof. intros H. apply Forall_rev, H. Qed.
Lemma to_le_range n v : bytes (to_le n v).
Proof. apply bytes_rev, to_be_bytes_range. Qed.
Lemma to_le_le_val l : bytes l -> to_le (length l) (le_val l) = l.
Proof.
  intros H. unfold to_le, le_val. rewrite <- (rev_length l), to_be_be_val by (apply bytes_rev, H).
  apply rev_involutive.
Qed.
Lemma le_val_to_le n v : 0 <= v < 256 ^ Z.of_nat n -> le_val (to_le n v) = v.
Proof. intros H. unfold to_le, le_val. rewrite rev_involutive. apply be_val_to_be, H. Qed.
Lemma le_val_bound l : bytes l -> 0 <= le_val l < 256 ^ Z.of_nat (length l).
Proof. intros H. unfold le_val. rewrite <- rev_length. apply be_val_bound, bytes_rev, H. Qed.

(** ** Memory order *)
Lemma swap_u64 v : u64 (swap_bytes v).
Proof.
  unfold swap_bytes. pose proof (le_val_bound (to_be 8 v) (to_be_bytes_range 8 v)) as H.
  rewrite to_be_length in H. exact H.
Qed.
Lemma to_le_swap v : to_le 8 (swap_bytes v) = to_be 8 v.
Proof.
  unfold swap_bytes. pose proof (to_le_le_val (to_be 8 v) (to_be_bytes_range 8 v)) as H.
  rewrite to_be_length in H. exact H.
Qed.
Lemma swap_swap v : u64 v -> swap_bytes (swap_bytes v) = v.
Proof.
  intros H. unfold swap_bytes at 1.
  assert (E : to_be 8 (swap_bytes v) = rev (to_be 8 v)).
  { pose proof (to_le_swap v) as E. unfold to_le in E. apply (f_equal (@rev Z)) in E.
    now rewrite rev_involutive in E. }
  rewrite E. fold (to_le 8 v). apply le_val_to_le. exact H.
Qed.

Definition lanes_of (be : bool) (s : list Z) : list Z := if be then map swap_bytes s else s.

Lemma lanes_st be s : st s -> st (lanes_of be s).
Proof.
  intros [L U]. destruct be; [|split; assumption]. unfold lanes_of. split; [now rewrite map_length|].
  apply Forall_forall. intros x Hx. apply in_map_iff in Hx. destruct Hx as (y & <- & _). apply swap_u64.
Qed.
Lemma lanes_lanes be s : Forall u64 s -> lanes_of be (lanes_of be s) = s.
Proof.
  intros U. destruct be; [|reflexivity]. unfold lanes_of. rewrite map_map.
  rewrite <- (map_id s) at 2. apply map_ext_in. intros x Hx. apply swap_swap.
  rewrite Forall_forall in U. auto.
Qed.
Lemma state_bytes_lanes be s : state_bytes be s = flat_map (to_le 8) (lanes_of be s).
Proof.
  destruct be; [|reflexivity]. unfold state_bytes, lanes_of, to_ne.
  induction s as [|v t IH]; [reflexivity|]. cbn [flat_map map]. now rewrite IH, to_le_swap.
Qed.
Lemma state_bits be s : lbytes (state_bytes be s) = str (lanes_of be s).
Proof.
  rewrite state_bytes_lanes. induction (lanes_of be s) as [|v t IH]; [reflexivity|].
  cbn [flat_map]. rewrite lbytes_app, IH, lbytes_to_le. reflexivity.
Qed.

Lemma keccakf_lanes be s : sha3_keccakf be s = lanes_of be (sha3_keccakf false (lanes_of be s)).
Proof.
  unfold sha3_keccakf, lanes_of. destruct be; [|reflexivity].
  destruct (fold_left _ _ _) as [bc' s']. reflexivity.
Qed.

Lemma keccakf_spec be s : st s ->
  st (sha3_keccakf be s) /\
  lbytes (state_bytes be (sha3_keccakf be s)) = KECCAK_p (lbytes (state_bytes be s)).
Proof.
  intros Hs. destruct (keccakf_le_spec (lanes_of be s) (lanes_st be s Hs)) as [S1 E1].
  rewrite !state_bits, keccakf_lanes. split; [now apply lanes_st|].
  rewrite lanes_lanes by apply S1. exact E1.
Qed.

Opaque KECCAK_p sha3_keccakf.

(** ** Xor of byte strings *)
Lemma zip_xor_length a b : length (zip_xor a b) = length b.
Proof. revert b. induction a; intros [|y b]; cbn [zip_xor length]; auto. Qed.
Lemma zip_xor_nth a b i : (i < length b)%nat -> nth i (zip_xor a b) 0 = Z.lxor (nth i b 0) (nth i a 0).
Proof.
  revert b i. induction a as [|x a IH]; intros b i H.
  - cbn [zip_xor]. destruct i; cbn [nth]; now rewrite Z.lxor_0_r.
  - destruct b as [|y b]; [cbn in H; lia|]. destruct i; cbn [zip_xor nth]; [reflexivity|].
    apply IH. cbn [length] in H. lia.
Qed.
Lemma zip_xor_app a a' b b' : length a = length b -> zip_xor (a ++ a') (b ++ b') = zip_xor a b ++ zip_xor a' b'.
Proof.
  revert b. induction a as [|x a IH]; intros [|y b] H; try discriminate; [reflexivity|].
  cbn [app zip_xor]. f_equal. apply IH. now injection H.
Qed.
Lemma zip_xor_rev a b : length a = length b -> zip_xor (rev a) (rev b) = rev (zip_xor a b).
Proof.
  revert b. induction a as [|x a IH]; intros [|y b] H; try discriminate; [reflexivity|].
  cbn [rev]. injection H as H. rewrite zip_xor_app by (rewrite !rev_length; exact H).
  cbn [zip_xor rev]. now rewrite IH.
Qed.

Lemma byte_lxor x y : byte x -> byte y -> byte (Z.lxor x y).
Proof.
  unfold byte. intros Hx Hy. split; [apply Z.lxor_nonneg; lia|].
  destruct (Z.eq_dec (Z.lxor x y) 0) as [->|]; [lia|].
  assert (0 <= Z.lxor x y) by (apply Z.lxor_nonneg; lia).
  apply (Z.log2_lt_pow2 _ 8); [lia|]. eapply Z.le_lt_trans; [apply Z.log2_lxor; lia|].
  apply Z.max_lub_lt; (destruct (Z.eq_dec x 0) as [->|]; [|]); (destruct (Z.eq_dec y 0) as [->|]; [|]);
    cbn; try lia; apply Z.log2_lt_pow2; lia.
Qed.
Lemma zip_xor_bytes a b : bytes a -> bytes b -> bytes (zip_xor a b).
Proof.
  unfold bytes. intros Ha. revert b. induction Ha as [|x a Hx Ha IH]; intros b Hb; [exact Hb|].
  destruct Hb; [constructor|]. cbn [zip_xor]. constructor; [now apply byte_lxor|auto].
Qed.

Lemma mod_lxor a b n : 0 <= n -> Z.lxor a b mod 2 ^ n = Z.lxor (a mod 2 ^ n) (b mod 2 ^ n).
Proof.
  intros Hn. apply Z.bits_inj'. intros i Hi. rewrite Z.lxor_spec.
  destruct (Z_lt_le_dec i n).
  - rewrite !Z.mod_pow2_bits_low, Z.lxor_spec by lia. reflexivity.
  - rewrite !Z.mod_pow2_bits_high by lia. reflexivity.
Qed.
Lemma div_lxor a b n : 0 <= n -> Z.lxor a b / 2 ^ n = Z.lxor (a / 2 ^ n) (b / 2 ^ n).
Proof. intros Hn. rewrite <- !Z.shiftr_div_pow2 by lia. apply Z.shiftr_lxor. Qed.

Lemma to_be_lxor n a b : to_be n (Z.lxor a b) = zip_xor (to_be n b) (to_be n a).
Proof.
  revert a b. induction n as [|n IH]; intros a b; [reflexivity|]. cbn [to_be].
  rewrite zip_xor_app by now rewrite !to_be_length. cbn [zip_xor].
  change 256 with (2 ^ 8). rewrite div_lxor, mod_lxor, IH by lia. reflexivity.
Qed.
Lemma to_ne_xor be v c : bytes c -> length c = 8%nat ->
  to_ne be (Z.lxor v (from_ne be c)) = zip_xor c (to_ne be v).
Proof.
  intros Hc L. destruct be; cbn [to_ne from_ne].
  - rewrite to_be_lxor. f_equal. rewrite <- L at 1. now apply to_be_be_val.
  - unfold to_le. rewrite to_be_lxor.
    rewrite <- zip_xor_rev by now rewrite !to_be_length.
    fold (to_le 8 (le_val c)). fold (to_le 8 v). f_equal. rewrite <- L at 1. now apply to_le_le_val.
Qed.
Lemma from_ne_u64 be c : bytes c -> length c = 8%nat -> u64 (from_ne be c).
Proof.
  intros Hc L. unfold u64. change (2 ^ 64) with (256 ^ Z.of_nat 8). rewrite <- L.
  destruct be; [apply be_val_bound, Hc|apply le_val_bound, Hc].
Qed.
Lemma to_ne_length be v : length (to_ne be v) = 8%nat.
Proof. destruct be; [apply to_be_length|apply to_le_length]. Qed.
Lemma to_ne_range be v : bytes (to_ne be v).
Proof. destruct be; [apply to_be_bytes_range|apply to_le_range]. Qed.
Lemma to_from_ne be c : bytes c -> length c = 8%nat -> to_ne be (from_ne be c) = c.
Proof.
  intros Hc L. destruct be; cbn [to_ne from_ne]; rewrite <- L at 1; [now apply to_be_be_val|now apply to_le_le_val].
Qed.
Lemma state_bytes_length be s : length (state_bytes be s) = (length s * 8)%nat.
Proof. apply flat_map_length_const. intros. apply to_ne_length. Qed.
Lemma state_bytes_range be s : bytes (state_bytes be s).
Proof.
  induction s; [constructor|]. unfold state_bytes. cbn [flat_map].
  apply Forall_app. split; [apply to_ne_range|assumption].
Qed.

(** ** Chunks of 8 *)
Lemma concat_chunks {A} n k (l : list A) : (0 < n)%nat -> length l = (k * n)%nat ->
  concat (chunks_exact n l) = l.
Proof.
  intros Hn L. rewrite (chunks_exact_multiple n k) by assumption. clear -L. revert l L.
  induction k as [|k IH]; intros l L; cbn [seq map concat].
  - destruct l; [reflexivity|discriminate].
  - transitivity (firstn n l ++ skipn n l); [|apply firstn_skipn]. cbn [Nat.mul skipn]. f_equal.
    rewrite <- (IH (skipn n l)) by (rewrite skipn_length; lia).
    rewrite <- seq_shift, map_map. f_equal. apply map_ext. intros i.
    rewrite skipn_add. reflexivity.
Qed.
Lemma chunks_prop {A} (P : A -> Prop) n (l : list A) : (0 < n)%nat -> Forall P l ->
  Forall (fun c => Forall P c /\ length c = n) (chunks_exact n l).
Proof.
  intros Hn Hl. unfold chunks_exact. apply Forall_forall. intros x Hx. apply in_map_iff in Hx.
  destruct Hx as (i & <- & Hi). apply in_seq in Hi. split.
  - apply Forall_firstn', Forall_skipn', Hl.
  - rewrite firstn_length, skipn_length. pose proof (Nat.mul_div_le (length l) n). nia.
Qed.

Lemma xor_words be ws : forall s, Forall (fun c => bytes c /\ length c = 8%nat) ws -> Forall u64 s ->
  (length ws <= length s)%nat ->
  Forall u64 (zip_xor (map (from_ne be) ws) s) /\
  state_bytes be (zip_xor (map (from_ne be) ws) s) = zip_xor (concat ws) (state_bytes be s).
Proof.
  induction ws as [|c ws IH]; intros s Hw Hs L.
  - cbn [map zip_xor concat]. split; [assumption|reflexivity].
  - inversion Hw as [|? ? [Hc Lc] Hw']; subst. destruct Hs as [|v s Hv Hs]; [cbn in L; lia|].
    cbn [length] in L. destruct (IH s Hw' Hs ltac:(lia)) as [I1 I2].
    cbn [map zip_xor concat]. unfold state_bytes. cbn [flat_map]. fold (state_bytes be s).
    fold (state_bytes be (zip_xor (map (from_ne be) ws) s)).
    split.
    + constructor; [|assumption]. apply u64_lxor; [assumption|now apply from_ne_u64].
    + rewrite zip_xor_app by now rewrite to_ne_length. now rewrite to_ne_xor, I2.
Qed.

(** ** Bits of a xor *)
Lemma xor_bits_app a a' b b' : length a = length a' ->
  xor_bits (a ++ b) (a' ++ b') = xor_bits a a' ++ xor_bits b b'.
Proof.
  unfold xor_bits. revert a'. induction a as [|x a IH]; intros [|y a'] H; try discriminate; [reflexivity|].
  cbn [app combine map]. f_equal. apply IH. now injection H.
Qed.
Lemma lsb_lxor n x y : lsb n (Z.lxor x y) = xor_bits (lsb n x) (lsb n y).
Proof.
  unfold lsb_bits, xor_bits. generalize 0%nat at 1 2 3. induction n as [|n IH]; intros k; [reflexivity|].
  cbn [seq map combine fst snd]. rewrite Z.lxor_spec. f_equal. apply IH.
Qed.
Lemma xor_bits_zeros a : xor_bits a (repeat false (length a)) = a.
Proof.
  unfold xor_bits. induction a; [reflexivity|]. cbn [length repeat combine map fst snd].
  rewrite IHa, xorb_false_r. reflexivity.
Qed.
Lemma lbytes_zip_xor a : forall b, (length a <= length b)%nat ->
  lbytes (zip_xor a b) = xor_bits (lbytes b) (lbytes a ++ repeat false ((length b - length a) * 8)).
Proof.
  induction a as [|x a IH]; intros b L.
  - cbn [zip_xor]. unfold bits_of_bytes_le at 3. cbn [flat_map app length]. rewrite Nat.sub_0_r.
    rewrite <- lbytes_length. symmetry. apply xor_bits_zeros.
  - destruct b as [|y b]; [cbn in L; lia|]. cbn [zip_xor length Nat.sub].
    unfold bits_of_bytes_le. cbn [flat_map]. fold (lbytes (zip_xor a b)). fold (lbytes b). fold (lbytes a).
    rewrite <- app_assoc, xor_bits_app by now rewrite !lsb_length.
    rewrite lsb_lxor, IH by (cbn [length] in L; lia). reflexivity.
Qed.

(** ** Absorbing *)
Definition sstep (S : list bool) (blk : list Z) : list bool :=
  KECCAK_p (xor_bits S (lbytes blk ++ repeat false (1600 - length blk * 8))).

Lemma st_bytes be s : st s -> length (state_bytes be s) = 200%nat.
Proof. intros [L _]. now rewrite state_bytes_length, L. Qed.

Lemma absorb_block_spec be blk s k : st s -> bytes blk -> length blk = (k * 8)%nat -> (length blk <= 200)%nat ->
  st (absorb_block be blk s) /\
  lbytes (state_bytes be (absorb_block be blk s)) = sstep (lbytes (state_bytes be s)) blk.
Proof.
  intros Hs Hb L1 L2. unfold absorb_block.
  pose proof (chunks_prop byte 8 blk ltac:(lia) Hb) as CP.
  assert (LC : length (chunks_exact 8 blk) = k).
  { rewrite (chunks_exact_multiple 8 k) by (try lia; assumption). now rewrite map_length, seq_length. }
  destruct (xor_words be (chunks_exact 8 blk) s CP (proj2 Hs)) as [X1 X2]; [destruct Hs; lia|].
  rewrite (concat_chunks 8 k) in X2 by (try lia; assumption).
  destruct (keccakf_spec be (zip_xor (map (from_ne be) (chunks_exact 8 blk)) s)) as [K1 K2].
  { split; [rewrite zip_xor_length; apply Hs|exact X1]. }
  split; [exact K1|]. rewrite K2, X2. unfold sstep. f_equal.
  pose proof (st_bytes be s Hs) as L200.
  rewrite lbytes_zip_xor by lia. f_equal. f_equal. f_equal. lia.
Qed.

Lemma fold_sim {S B E : Type} (I : S -> Prop) (f : S -> E -> S)
      (v : S -> B) (g : B -> E -> B) (P : E -> Prop) :
  (forall r x, P r -> I x -> I (f x r) /\ v (f x r) = g (v x) r) ->
  forall l x, Forall P l -> I x ->
  I (fold_left f l x) /\ v (fold_left f l x) = fold_left g l (v x).
Proof.
  intros H. induction l as [|r l IH]; intros x Hl Hx; cbn [fold_left]; [auto|].
  inversion Hl; subst. destruct (H r x) as [HA HB]; auto.
  rewrite <- HB. apply IH; assumption.
Qed.

Lemma absorb_all be k bs s : st s ->
  Forall (fun b => bytes b /\ length b = (k * 8)%nat) bs -> (k * 8 <= 200)%nat ->
  st (fold_left (fun s b => absorb_block be b s) bs s) /\
  lbytes (state_bytes be (fold_left (fun s b => absorb_block be b s) bs s)) =
  fold_left sstep bs (lbytes (state_bytes be s)).
Proof.
  intros Hs Hb Hk.
  apply (fold_sim st (fun s b => absorb_block be b s) (fun s => lbytes (state_bytes be s)) sstep
    (fun b => bytes b /\ length b = (k * 8)%nat)); [|assumption|assumption].
  intros b x [B1 B2] Hx. apply (absorb_block_spec be b x k Hx B1 B2). lia.
Qed.

(** ** The last block *)
Lemma xor_iter_spec block suffix : forall sb, (length block < length sb)%nat ->
  xor_iter block suffix sb = Ret (zip_xor (block ++ [suffix]) sb).
Proof.
  induction block as [|b block IH]; intros [|y t] L; cbn [length] in L; try lia.
  - reflexivity.
  - cbn [xor_iter app zip_xor]. rewrite IH by lia. reflexivity.
Qed.

Section Pad.
Variables (rate : nat) (suffix : Z) (sfx : list bool) (e : nat).
Hypothesis Hrate : (2 <= rate <= 200)%nat.
Hypothesis Hsfx : (length sfx + 1 + e = 8)%nat.
Hypothesis He : (1 <= e)%nat.
Hypothesis Hb1 : lsb 8 suffix = sfx ++ [true] ++ repeat false e.
Hypothesis Hb2 : lsb 8 (Z.lxor suffix 0x80) = sfx ++ [true] ++ repeat false (e - 1) ++ [true].
Hypothesis Hbyte : byte suffix.

Definition padb (m : list Z) : list Z :=
  let t := (length m mod rate)%nat in
  if Nat.eqb (t + 1) rate then [Z.lxor suffix 0x80]
  else [suffix] ++ repeat 0 (rate - t - 2) ++ [0x80].

Lemma padb_range m : bytes (padb m).
Proof.
  unfold padb, bytes. destruct (Nat.eqb _ _).
  - constructor; [|constructor]. apply byte_lxor; [assumption|unfold byte; lia].
  - rewrite !Forall_app. repeat split.
    + constructor; [assumption|constructor].
    + apply Forall_forall. intros x Hx. apply repeat_spec in Hx. subst. unfold byte. lia.
    + constructor; [unfold byte; lia|constructor].
Qed.

Lemma padb_length m : (length m mod rate + length (padb m) = rate)%nat.
Proof.
  unfold padb. pose proof (Nat.mod_upper_bound (length m) rate ltac:(lia)).
  destruct (Nat.eqb_spec (length m mod rate + 1) rate); [cbn [length]; lia|].
  rewrite !app_length, repeat_length. cbn [length]. lia.
Qed.

Lemma padb_bits m : lbytes (m ++ padb m) =
  (lbytes m ++ sfx) ++ pad10_1 (rate * 8) (length (lbytes m ++ sfx)).
Proof.
  rewrite lbytes_app, <- app_assoc. f_equal.
  rewrite app_length, lbytes_length. unfold pad10_1, padb.
  pose proof (Nat.mod_upper_bound (length m) rate ltac:(lia)) as B.
  pose proof (Nat.div_mod (length m) rate ltac:(lia)) as D.
  set (t := (length m mod rate)%nat) in *. set (q := (length m / rate)%nat) in *.
  destruct (Nat.eqb_spec (t + 1) rate) as [E|E].
  - assert (J : (- Z.of_nat (length m * 8 + length sfx) - 2) mod Z.of_nat (rate * 8) = Z.of_nat (e - 1)).
    { symmetry. apply Z.mod_unique with (- Z.of_nat q - 1); [left; nia|]. nia. }
    rewrite J, Nat2Z.id. unfold bits_of_bytes_le. cbn [flat_map]. rewrite app_nil_r. exact Hb2.
  - assert (J : (- Z.of_nat (length m * 8 + length sfx) - 2) mod Z.of_nat (rate * 8) =
                Z.of_nat (e + (rate - t - 2) * 8 + 7)).
    { symmetry. apply Z.mod_unique with (- Z.of_nat q - 1); [left; nia|]. nia. }
    rewrite J, Nat2Z.id. rewrite !lbytes_app, lbytes_zeros.
    unfold bits_of_bytes_le. cbn [flat_map]. rewrite !app_nil_r, Hb1.
    change (lsb 8 128) with (repeat false 7 ++ [true]).
    rewrite <- !app_assoc. f_equal. f_equal. rewrite !app_assoc, <- !repeat_app. reflexivity.
Qed.

Lemma last_bytes m sb : length sb = 200%nat ->
  upd (rate - 1) (Z.lxor (nth (rate - 1) (zip_xor (remainder rate m ++ [suffix]) sb) 0) 0x80)
      (zip_xor (remainder rate m ++ [suffix]) sb)
  = zip_xor (remainder rate m ++ padb m) sb.
Proof.
  intros L. pose proof (remainder_length rate m ltac:(lia)) as LR.
  pose proof (Nat.mod_upper_bound (length m) rate ltac:(lia)) as B.
  unfold padb. set (t := (length m mod rate)%nat) in *. set (R := remainder rate m) in *.
  apply (nth_ext _ _ 0 0); [rewrite upd_length, !zip_xor_length; reflexivity|].
  intros i Hi. rewrite upd_length, zip_xor_length, L in Hi.
  rewrite upd_nth by (rewrite zip_xor_length; lia). rewrite !zip_xor_nth by lia.
  destruct (Nat.eqb_spec (rate - 1) i) as [Ei|Ei].
  - subst i. rewrite Z.lxor_assoc. f_equal.
    destruct (Nat.eqb_spec (t + 1) rate) as [Et|Et].
    + rewrite !app_nth2, LR by lia. replace (rate - 1 - t)%nat with 0%nat by lia. reflexivity.
    + rewrite !(app_nth2 R) by lia. rewrite LR.
      rewrite (nth_overflow [suffix]) by (cbn [length]; lia).
      rewrite Z.lxor_0_l. rewrite app_nth2 by (cbn [length]; lia). cbn [length].
      rewrite app_nth2, repeat_length by (rewrite repeat_length; lia).
      replace (rate - 1 - t - 1 - (rate - t - 2))%nat with 0%nat by lia. reflexivity.
  - f_equal. destruct (Nat.ltb_spec i t) as [Hlt|Hge].
    + rewrite !app_nth1 by lia. reflexivity.
    + rewrite !(app_nth2 R) by lia. rewrite LR.
      destruct (Nat.eqb_spec (t + 1) rate) as [Et|Et].
      * rewrite !nth_overflow by (cbn [length]; lia). reflexivity.
      * destruct (Nat.eq_dec i t) as [->|Hne]; [rewrite Nat.sub_diag; reflexivity|].
        rewrite (nth_overflow [suffix]) by (cbn [length]; lia).
        rewrite app_nth2 by (cbn [length]; lia). cbn [length].
        destruct (Nat.ltb_spec (i - t - 1) (rate - t - 2)).
        -- rewrite app_nth1 by (rewrite repeat_length; lia). now rewrite nth_repeat.
        -- rewrite app_nth2, repeat_length by (rewrite repeat_length; lia).
           rewrite nth_overflow by (cbn [length]; lia). reflexivity.
Qed.
End Pad.

Lemma state_words_spec be b : bytes b -> length b = 200%nat ->
  st (state_words be b) /\ state_bytes be (state_words be b) = b.
Proof.
  intros Hb L. unfold state_words.
  pose proof (chunks_prop byte 8 b ltac:(lia) Hb) as CP.
  pose proof (concat_chunks 8 25 b ltac:(lia) L) as CC.
  assert (LC : length (chunks_exact 8 b) = 25%nat).
  { rewrite (chunks_exact_multiple 8 25) by (try lia; assumption). reflexivity. }
  split.
  - split; [now rewrite map_length|]. apply Forall_forall. intros x Hx. apply in_map_iff in Hx.
    destruct Hx as (c & <- & Hc). rewrite Forall_forall in CP. destruct (CP c Hc). now apply from_ne_u64.
  - rewrite <- CC at 2. clear -CP. induction CP as [|c l [H1 H2] _ IH]; [reflexivity|].
    unfold state_bytes in *. cbn [map flat_map concat]. rewrite IH. f_equal. now apply to_from_ne.
Qed.

Lemma fold_map {A B E} (g : A -> B -> A) (h : E -> B) l a :
  fold_left g (map h l) a = fold_left (fun a i => g a (h i)) l a.
Proof. revert a. induction l; intros a'; [reflexivity|]. cbn [map fold_left]. apply IHl. Qed.
Lemma fold_ext {A B} (f g : A -> B -> A) l a :
  (forall x y, In y l -> f x y = g x y) -> fold_left f l a = fold_left g l a.
Proof.
  revert a. induction l as [|y t IH]; intros a H; [reflexivity|]. cbn [fold_left].
  rewrite H by (left; reflexivity). apply IH. intros x z Hz. apply H. now right.
Qed.

(** spec-side: absorbing a byte string *)
Lemma absorb_bytes k P : (0 < k)%nat ->
  absorb (k * 8) (lbytes P) = fold_left sstep (chunks_exact k P) (repeat false 1600).
Proof.
  intros Hk. unfold absorb, chunks_exact.
  rewrite lbytes_length, Nat.div_mul_cancel_r by lia.
  rewrite fold_map. apply fold_ext. intros S i Hi. unfold sstep.
  replace (i * (k * 8))%nat with ((i * k) * 8)%nat by lia. rewrite lbytes_sub.
  assert (L : length (firstn k (skipn (i * k) P)) = k).
  { apply in_seq in Hi. rewrite firstn_length, skipn_length.
    pose proof (Nat.mul_div_le (length P) k). nia. }
  rewrite L. reflexivity.
Qed.

Lemma zeros_bits be n : lbytes (state_bytes be (repeat 0 n)) = repeat false (n * 64).
Proof.
  rewrite state_bits. unfold lanes_of. replace (if be then map swap_bytes (repeat 0 n) else repeat 0 n) with (repeat 0 n).
  - induction n; [reflexivity|]. cbn [repeat]. unfold str in *. cbn [flat_map]. rewrite IHn. reflexivity.
  - destruct be; [|reflexivity]. induction n; [reflexivity|]. cbn [repeat map]. rewrite <- IHn. reflexivity.
Qed.

Lemma slice_to_ok {A} (l : list A) n : (n <= length l)%nat -> slice_to l n = Ret (firstn n l).
Proof.
  intros H. unfold slice_to, slice. cbn [Nat.leb andb]. rewrite (proj2 (Nat.leb_le n (length l)) H).
  cbn [skipn]. now rewrite Nat.sub_0_r.
Qed.
Lemma index_ok (l : list Z) n : (n < length l)%nat -> index l n = Ret (nth n l 0).
Proof. intros H. unfold index. rewrite (nth_error_nth' l 0 H). reflexivity. Qed.

(** ** The digest *)
Lemma sha3_digest_spec be n suffix sfx e s m :
  (8 <= n <= 64)%nat -> (n mod 4 = 0)%nat ->
  (length sfx + 1 + e = 8)%nat -> (1 <= e)%nat ->
  lsb 8 suffix = sfx ++ [true] ++ repeat false e ->
  lsb 8 (Z.lxor suffix 0x80) = sfx ++ [true] ++ repeat false (e - 1) ++ [true] ->
  byte suffix -> length s = 25%nat -> bytes m ->
  exists d s', sha3_hasher be n suffix s m = Ret (d, s') /\ length s' = 25%nat /\ bytes d /\ length d = n /\
    lbytes d = KECCAK (n * 16) (lbytes m ++ sfx) (n * 8).
Proof.
  intros Hn Hn4 H1 H2 H3 H4 H5 Ls Hm. unfold sha3_hasher, sha3_digest. cbv zeta. rewrite Ls.
  change KECCAKF_WIDTH_BYTE_SIZE with 200%nat.
  rewrite (proj2 (Nat.leb_le (2 * n) 200)) by lia. cbn [oassert].
  set (rate := (200 - 2 * n)%nat).
  assert (Hr : (72 <= rate <= 184)%nat) by (unfold rate; lia).
  assert (exists k, rate = (k * 8)%nat) as [k Hk].
  { exists (25 - n / 4)%nat. unfold rate. pose proof (Nat.div_mod n 4 ltac:(lia)). lia. }
  replace (Nat.eqb (rate mod 8) 0) with true
    by (symmetry; apply Nat.eqb_eq; rewrite Hk; apply Nat.mod_mul; lia).
  cbn [oassert].
  assert (S0 : st (repeat 0 25)).
  { split; [apply repeat_length|]. apply Forall_forall. intros x Hx. apply repeat_spec in Hx. subst. apply u64_0. }
  destruct (absorb_all be k (chunks_exact rate m) (repeat 0 25) S0) as [A1 A2]; [|lia|].
  { rewrite Hk. apply chunks_prop; [lia|exact Hm]. }
  set (s1 := fold_left (fun s b => absorb_block be b s) (chunks_exact rate m) (repeat 0 25)) in *.
  clearbody s1. pose proof (st_bytes be s1 A1) as L200.
  set (sb := state_bytes be s1) in *.
  assert (SB : bytes sb) by apply state_bytes_range. clearbody sb.
  pose proof (remainder_length rate m ltac:(lia)) as LR.
  pose proof (Nat.mod_upper_bound (length m) rate ltac:(lia)) as MB.
  assert (E1 : match remainder rate m with
               | [] => t <- index sb 0 ;; Ret (upd 0 (Z.lxor t suffix) sb)
               | _ => xor_iter (remainder rate m) suffix sb
               end = Ret (zip_xor (remainder rate m ++ [suffix]) sb)).
  { destruct (remainder rate m) as [|b r] eqn:ER.
    - destruct sb as [|y t]; [discriminate|]. reflexivity.
    - apply xor_iter_spec. rewrite L200, LR. lia. }
  rewrite E1. cbn [obind].
  rewrite index_ok by (rewrite zip_xor_length; lia). cbn [obind].
  rewrite (last_bytes rate suffix sfx e ltac:(lia) H1 H2 m sb L200).
  set (P := padb rate suffix m).
  assert (HP : bytes P) by (apply (padb_range rate suffix sfx e); try assumption; lia).
  assert (LP : (length (remainder rate m ++ P) = rate)%nat)
    by (rewrite app_length, LR; apply (padb_length rate suffix sfx e); lia).
  set (blk := remainder rate m ++ P) in *.
  assert (HB : bytes blk).
  { apply Forall_app. split; [|exact HP]. apply Forall_skipn', Hm. }
  assert (HZ : bytes (zip_xor blk sb)) by now apply zip_xor_bytes.
  destruct (state_words_spec be (zip_xor blk sb) HZ) as [W1 W2]; [now rewrite zip_xor_length|].
  destruct (keccakf_spec be _ W1) as [K1 K2]. rewrite W2 in K2.
  set (s2 := sha3_keccakf be (state_words be (zip_xor blk sb))) in *. clearbody s2.
  pose proof (st_bytes be s2 K1) as L2.
  rewrite slice_to_ok by lia. cbn [obind].
  assert (LD : length (firstn n (state_bytes be s2)) = n) by (rewrite firstn_length; lia).
  rewrite LD, Nat.eqb_refl. cbn [oassert].
  do 2 eexists. split; [reflexivity|]. split; [apply K1|]. split; [apply Forall_firstn', state_bytes_range|].
  split; [exact LD|].
  rewrite lbytes_firstn, K2. unfold KECCAK. cbv zeta.
  replace (1600 - n * 16)%nat with (rate * 8)%nat by (unfold rate; lia).
  rewrite (Nat.div_small (n * 8)) by (unfold rate; lia). cbn [Nat.add squeeze]. rewrite app_nil_r.
  rewrite firstn_firstn, Nat.min_l by (unfold rate; lia). f_equal.
  rewrite <- (padb_bits rate suffix sfx e) by (try assumption; lia). fold P.
  rewrite absorb_bytes, chunks_exact_app by lia. fold blk.
  rewrite fold_left_app.
  rewrite (chunks_exact_multiple rate 1 blk) by lia. cbn [seq map Nat.mul skipn].
  rewrite firstn_all2 by lia. cbn [fold_left].
  rewrite (zeros_bits be 25) in A2. change (25 * 64)%nat with 1600%nat in A2. rewrite <- A2.
  unfold sstep. f_equal. rewrite lbytes_zip_xor by lia. f_equal. f_equal. f_equal. lia.
Qed.

Ltac use_digest := intros; apply sha3_digest_spec with (e := 5%nat) || apply sha3_digest_spec with (e := 7%nat).

Lemma sha3_hasher_spec be n s m : In n [28; 32; 48; 64]%nat -> length s = 25%nat -> bytes m ->
  exists d s', sha3_hasher be n KECCAK_DELIMITER_SUFFIX_SHA3 s m = Ret (d, s') /\ length s' = 25%nat /\ bytes d /\ length d = n /\
    lbytes d = SHA3 (n * 8) (lbytes m).
Proof.
  intros Hn Ls Hm. unfold SHA3. replace (2 * (n * 8))%nat with (n * 16)%nat by lia.
  apply sha3_digest_spec with (e := 5%nat); try assumption; try reflexivity; try lia.
  - cbn in Hn. lia.
  - cbn in Hn. destruct Hn as [<-|[<-|[<-|[<-|[]]]]]; reflexivity.
  - unfold byte, KECCAK_DELIMITER_SUFFIX_SHA3. lia.
Qed.

Lemma keccak256_spec be s m : length s = 25%nat -> bytes m ->
  exists d s', keccak256 be s m = Ret (d, s') /\ length s' = 25%nat /\ bytes d /\ length d = 32%nat /\
    lbytes d = Keccak_256 (lbytes m).
Proof.
  intros Ls Hm. unfold keccak256, Keccak_256. rewrite <- (app_nil_r (lbytes m)).
  apply sha3_digest_spec with (e := 7%nat); try assumption; try reflexivity; try (cbn [length]; lia).
  unfold byte, KECCAK_DELIMITER_SUFFIX_KECCAK. lia.
Qed.

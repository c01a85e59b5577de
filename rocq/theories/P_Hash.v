(** Proofs about the hashers and HMAC. *)

From Verif Require Import Base M_Word M_Sha2 M_Sha3 M_Hmac S_Hash P_BigInt3 P_Bits P_Keccak.
From Verif Require Import P_Sha2 P_Sha3.
From Verif Require S_Sha2 S_Sha3.
Open Scope Z_scope.

Lemma octets_flat {A} (f : A -> list bool) l : (forall x, length (f x) = 8%nat) ->
  octets (flat_map f l) = map f l.
Proof.
  intros H. unfold octets. rewrite (flat_map_length_const f 8), Nat.div_mul by (auto; lia).
  apply (nth_ext _ _ [] []); rewrite map_length, seq_length; [now rewrite map_length|].
  intros i Hi. rewrite (nth_indep _ [] ((fun i => firstn 8 (skipn (i * 8) (flat_map f l))) 0%nat))
    by (rewrite map_length, seq_length; exact Hi).
  rewrite (map_nth (fun i => firstn 8 (skipn (i * 8) (flat_map f l)))), seq_nth by assumption. cbn [Nat.add].
  rewrite (flat_map_skipn f 8) by assumption. change 8%nat with (1 * 8)%nat at 1.
  rewrite (flat_map_firstn f 8) by assumption.
  clear -Hi. revert i Hi. induction l as [|x t IH]; intros i Hi; [cbn in Hi; lia|].
  destruct i; cbn [skipn firstn flat_map map nth]; [apply app_nil_r|]. apply IH. cbn [length] in Hi. lia.
Qed.

Lemma bytes_of_bits_of_bytes d : bytes d -> bytes_of_bits (S_Sha2.bits_of_bytes d) = d.
Proof.
  intros Hd. unfold bytes_of_bits, S_Sha2.bits_of_bytes. rewrite octets_flat by apply bits_length.
  rewrite map_map. rewrite <- (map_id d) at 2. apply map_ext_in. intros x Hx.
  rewrite Z_of_bits_of_Z. unfold bytes in Hd. rewrite Forall_forall in Hd. apply Z.mod_small. apply Hd, Hx.
Qed.
Lemma rev_lsb n v : rev (S_Sha3.lsb_bits n v) = S_Sha2.bits_of_Z n v.
Proof.
  revert v. induction n as [|n IH]; intros v; [reflexivity|].
  replace (S n) with (1 + n)%nat by lia. rewrite lsb_app, rev_app_distr, IH.
  rewrite Nat.add_comm, bits_app. f_equal.
Qed.
Lemma bytes_of_bits_of_bytes_le d : bytes d -> bytes_of_bits_le (S_Sha3.bits_of_bytes_le d) = d.
Proof.
  intros Hd. unfold bytes_of_bits_le, S_Sha3.bits_of_bytes_le. rewrite octets_flat by apply lsb_length.
  rewrite map_map. rewrite <- (map_id d) at 2. apply map_ext_in. intros x Hx.
  rewrite rev_lsb, Z_of_bits_of_Z. unfold bytes in Hd. rewrite Forall_forall in Hd. apply Z.mod_small. apply Hd, Hx.
Qed.

(** every hasher, in any state, computes its hash function *)
Lemma hasher_spec n be (st : h_state (hasher_of be n)) m :
  obj n be st -> bytes m -> fits n (length m) ->
  exists st', h_digest (hasher_of be n) st m = Ret (HASH n m, st') /\ obj n be st' /\
    bytes (HASH n m) /\ length (HASH n m) = out_len n.
Proof.
  intros Ho Hm Hf.
  assert (G2 : forall (f : list bool -> list bool) d, bytes d -> S_Sha2.bits_of_bytes d = f (S_Sha2.bits_of_bytes m) -> d = on_bytes f m).
  { intros f d Hd E. unfold on_bytes. rewrite <- E. now rewrite bytes_of_bits_of_bytes. }
  assert (G3 : forall (f : list bool -> list bool) d, bytes d -> S_Sha3.bits_of_bytes_le d = f (S_Sha3.bits_of_bytes_le m) -> d = on_bytes_le f m).
  { intros f d Hd E. unfold on_bytes_le. rewrite <- E. now rewrite bytes_of_bits_of_bytes_le. }
  destruct n; cbn [obj hasher_of h_state h_digest HASH out_len fits] in *.
  - destruct (sha256_spec st m Ho Hm Hf) as (d & st' & E & O & D & L & S).
    rewrite <- (G2 _ _ D S). exists st'. auto.
  - destruct (sha384_spec st m Ho Hm Hf) as (d & st' & E & O & D & L & S).
    rewrite <- (G2 _ _ D S). exists st'. auto.
  - destruct (sha512_spec st m Ho Hm Hf) as (d & st' & E & O & D & L & S).
    rewrite <- (G2 _ _ D S). exists st'. auto.
  - destruct (sha3_hasher_spec be 28 st m ltac:(cbn; tauto) Ho Hm) as (d & st' & E & O & D & L & S).
    rewrite <- (G3 S_Sha3.SHA3_224 _ D S). exists st'. auto.
  - destruct (sha3_hasher_spec be 32 st m ltac:(cbn; tauto) Ho Hm) as (d & st' & E & O & D & L & S).
    rewrite <- (G3 S_Sha3.SHA3_256 _ D S). exists st'. auto.
  - destruct (sha3_hasher_spec be 48 st m ltac:(cbn; tauto) Ho Hm) as (d & st' & E & O & D & L & S).
    rewrite <- (G3 S_Sha3.SHA3_384 _ D S). exists st'. auto.
  - destruct (sha3_hasher_spec be 64 st m ltac:(cbn; tauto) Ho Hm) as (d & st' & E & O & D & L & S).
    rewrite <- (G3 S_Sha3.SHA3_512 _ D S). exists st'. auto.
  - destruct (keccak256_spec be st m Ho Hm) as (d & st' & E & O & D & L & S).
    rewrite <- (G3 S_Sha3.Keccak_256 _ D S). exists st'. auto.
Qed.

Lemma block_len_eq be n : INPUT_BLOCK_BYTE_LENGTH (hasher_of be n) = block_len n.
Proof. destruct n; reflexivity. Qed.
Lemma out_len_eq be n : OUTPUT_BYTE_LENGTH (hasher_of be n) = out_len n.
Proof. destruct n; reflexivity. Qed.
Lemma out_block n : (out_len n <= block_len n)%nat.
Proof. destruct n; cbn; lia. Qed.
Lemma new_obj be n : obj n be (h_new (hasher_of be n)).
Proof. destruct n; cbn [obj hasher_of h_new]; first [reflexivity | split; reflexivity]. Qed.
Lemma fits_le n a b : (a <= b)%nat -> fits n b -> fits n a.
Proof. destruct n; cbn [fits]; auto; lia. Qed.

(** ** History *)
Lemma digest_all_spec n be ms : forall st, obj n be st ->
  Forall (fun m => bytes m /\ fits n (length m)) ms ->
  exists st', digest_all (hasher_of be n) st ms = Ret st' /\ obj n be st'.
Proof.
  induction ms as [|m ms IH]; intros st Ho Hm; cbn [digest_all]; [eauto|].
  inversion Hm as [|? ? [H1 H2] H3]; subst.
  destruct (hasher_spec n be st m Ho H1 H2) as (st1 & -> & O1 & _). cbn [obind]. now apply IH.
Qed.

Lemma history_spec n be ms m :
  Forall (fun m => bytes m /\ fits n (length m)) ms -> bytes m -> fits n (length m) ->
  exists st d st1 st2,
    digest_all (hasher_of be n) (h_new (hasher_of be n)) ms = Ret st /\
    h_digest (hasher_of be n) st m = Ret (d, st1) /\
    h_digest (hasher_of be n) (h_new (hasher_of be n)) m = Ret (d, st2) /\
    length d = OUTPUT_BYTE_LENGTH (hasher_of be n).
Proof.
  intros Hms Hm Hf. destruct (digest_all_spec n be ms _ (new_obj be n) Hms) as (st & E & O).
  destruct (hasher_spec n be st m O Hm Hf) as (st1 & E1 & _ & _ & L).
  destruct (hasher_spec n be _ m (new_obj be n) Hm Hf) as (st2 & E2 & _).
  exists st, (HASH n m), st1, st2. rewrite out_len_eq. auto.
Qed.

(** ** HMAC *)
Lemma zip_xor_pad k p B : (length k <= B)%nat ->
  zip_xor k (repeat p B) = xor_pad (k ++ repeat 0 (B - length k)) p.
Proof.
  revert B. induction k as [|x k IH]; intros B L.
  - cbn [zip_xor app length]. rewrite Nat.sub_0_r. clear L. unfold xor_pad.
    induction B; [reflexivity|]. cbn [repeat map]. now rewrite <- IHB, Z.lxor_0_l.
  - destruct B as [|B]; [cbn in L; lia|]. cbn [length repeat zip_xor app Nat.sub]. unfold xor_pad. cbn [map].
    fold (xor_pad (k ++ repeat 0 (B - length k)) p). rewrite IH by (cbn [length] in L; lia).
    now rewrite Z.lxor_comm.
Qed.
Lemma repeat_bytes p n : byte p -> bytes (repeat p n).
Proof. intros H. apply Forall_forall. intros x Hx. apply repeat_spec in Hx. now subst. Qed.

Lemma hmac_spec n be key text (st : h_state (hasher_of be n)) :
  obj n be st -> bytes key -> bytes text -> fits n (length key) ->
  fits n (block_len n + length text) -> fits n (block_len n + out_len n) ->
  exists st', hmac (hasher_of be n) key text st = Ret (HMAC (HASH n) (block_len n) key text, st') /\ obj n be st' /\
    bytes (HMAC (HASH n) (block_len n) key text) /\
    length (HMAC (HASH n) (block_len n) key text) = out_len n.
Proof.
  intros Ho Hk Ht F1 F2 F3. unfold hmac. cbv zeta. rewrite block_len_eq.
  set (B := block_len n) in *.
  assert (K : exists k0 st1,
    (match Nat.compare (length key) B with
     | Lt => Ret (key ++ repeat 0 (B - length key), st)
     | Eq => Ret (key, st)
     | Gt => h_digest (hasher_of be n) st key end) = Ret (k0, st1) /\ obj n be st1 /\ bytes k0 /\
     (length k0 <= B)%nat /\ k0 ++ repeat 0 (B - length k0) = key_block (HASH n) B key).
  { unfold key_block. destruct (Nat.compare_spec (length key) B) as [E|E|E].
    - exists key, st. destruct (Nat.ltb_spec B (length key)); [lia|]. repeat split; auto.
    - exists (key ++ repeat 0 (B - length key)), st. destruct (Nat.ltb_spec B (length key)); [lia|].
      split; [reflexivity|]. split; [assumption|].
      split; [apply Forall_app; split; [assumption|apply repeat_bytes; unfold byte; lia]|].
      rewrite app_length, repeat_length. split; [lia|].
      replace (B - (length key + (B - length key)))%nat with 0%nat by lia. now rewrite app_nil_r.
    - destruct (hasher_spec n be st key Ho Hk F1) as (st1 & E1 & O1 & D1 & L1).
      exists (HASH n key), st1. destruct (Nat.ltb_spec B (length key)); [|lia].
      split; [exact E1|]. split; [assumption|]. split; [assumption|]. split; [|reflexivity].
      rewrite L1. apply out_block. }
  destruct K as (k0 & st1 & -> & O1 & B0 & L0 & EK). cbn [obind].
  assert (XP : forall p, byte p -> bytes (zip_xor k0 (repeat p B)) /\ length (zip_xor k0 (repeat p B)) = B /\
             zip_xor k0 (repeat p B) = xor_pad (key_block (HASH n) B key) p).
  { intros p Hp. split; [apply zip_xor_bytes; [assumption|now apply repeat_bytes]|].
    split; [now rewrite zip_xor_length, repeat_length|]. rewrite <- EK. now apply zip_xor_pad. }
  destruct (XP 0x36 ltac:(unfold byte; lia)) as (P1 & P2 & P3).
  destruct (XP 0x5c ltac:(unfold byte; lia)) as (Q1 & Q2 & Q3).
  destruct (hasher_spec n be st1 (zip_xor k0 (repeat 0x36 B) ++ text) O1) as (st2 & -> & O2 & D2 & L2).
  { apply Forall_app. auto. }
  { rewrite app_length, P2. exact F2. }
  cbn [obind]. rewrite P3 in *.
  destruct (hasher_spec n be st2 (zip_xor k0 (repeat 0x5c B) ++ HASH n (xor_pad (key_block (HASH n) B key) 54 ++ text)) O2)
    as (st3 & E3 & O3 & D3 & L3).
  { apply Forall_app. auto. }
  { rewrite app_length, Q2, L2. exact F3. }
  rewrite E3. unfold HMAC. rewrite Q3 in *. exists st3. auto.
Qed.

(** ** As stated in Prop_Hash *)
Lemma full n be (st : h_state (hasher_of be n)) m : obj n be st -> bytes m -> fits n (length m) ->
  exists st', h_digest (hasher_of be n) st m = Ret (HASH n m, st').
Proof. intros H1 H2 H3. destruct (hasher_spec n be st m H1 H2 H3) as (st' & E & _). eauto. Qed.
Lemma bound61 k : Z.of_nat k < 2 ^ 61 -> 8 * Z.of_nat k < 2 ^ 64.
Proof. lia. Qed.
Lemma sha256_full be (st : h_state (hasher_of be Sha256)) m :
  obj Sha256 be st -> bytes m -> Z.of_nat (length m) < 2 ^ 61 ->
  exists st', h_digest (hasher_of be Sha256) st m = Ret (on_bytes S_Sha2.SHA256 m, st').
Proof. intros H1 H2 H3. exact (full Sha256 be st m H1 H2 (bound61 _ H3)). Qed.
Lemma sha384_full be (st : h_state (hasher_of be Sha384)) m :
  obj Sha384 be st -> bytes m -> Z.of_nat (length m) < 2 ^ 61 ->
  exists st', h_digest (hasher_of be Sha384) st m = Ret (on_bytes S_Sha2.SHA384 m, st').
Proof. intros H1 H2 H3. exact (full Sha384 be st m H1 H2 (bound61 _ H3)). Qed.
Lemma sha512_full be (st : h_state (hasher_of be Sha512)) m :
  obj Sha512 be st -> bytes m -> Z.of_nat (length m) < 2 ^ 61 ->
  exists st', h_digest (hasher_of be Sha512) st m = Ret (on_bytes S_Sha2.SHA512 m, st').
Proof. intros H1 H2 H3. exact (full Sha512 be st m H1 H2 (bound61 _ H3)). Qed.
Lemma sha3_224_full be (st : h_state (hasher_of be Sha3_224)) m : obj Sha3_224 be st -> bytes m ->
  exists st', h_digest (hasher_of be Sha3_224) st m = Ret (on_bytes_le S_Sha3.SHA3_224 m, st').
Proof. intros H1 H2. exact (full Sha3_224 be st m H1 H2 I). Qed.
Lemma sha3_256_full be (st : h_state (hasher_of be Sha3_256)) m : obj Sha3_256 be st -> bytes m ->
  exists st', h_digest (hasher_of be Sha3_256) st m = Ret (on_bytes_le S_Sha3.SHA3_256 m, st').
Proof. intros H1 H2. exact (full Sha3_256 be st m H1 H2 I). Qed.
Lemma sha3_384_full be (st : h_state (hasher_of be Sha3_384)) m : obj Sha3_384 be st -> bytes m ->
  exists st', h_digest (hasher_of be Sha3_384) st m = Ret (on_bytes_le S_Sha3.SHA3_384 m, st').
Proof. intros H1 H2. exact (full Sha3_384 be st m H1 H2 I). Qed.
Lemma sha3_512_full be (st : h_state (hasher_of be Sha3_512)) m : obj Sha3_512 be st -> bytes m ->
  exists st', h_digest (hasher_of be Sha3_512) st m = Ret (on_bytes_le S_Sha3.SHA3_512 m, st').
Proof. intros H1 H2. exact (full Sha3_512 be st m H1 H2 I). Qed.
Lemma keccak256_full be (st : h_state (hasher_of be Keccak256)) m : obj Keccak256 be st -> bytes m ->
  exists st', h_digest (hasher_of be Keccak256) st m = Ret (on_bytes_le S_Sha3.Keccak_256 m, st').
Proof. intros H1 H2. exact (full Keccak256 be st m H1 H2 I). Qed.
Lemma hmac_full n be key text (st : h_state (hasher_of be n)) :
  obj n be st -> bytes key -> bytes text -> fits n (length key) -> fits n (block_len n + length text) ->
  exists st', hmac (hasher_of be n) key text st = Ret (HMAC (HASH n) (block_len n) key text, st').
Proof.
  intros H1 H2 H3 H4 H5. destruct (hmac_spec n be key text st H1 H2 H3 H4 H5) as (st' & E & _); [|eauto].
  destruct n; cbn; lia.
Qed.

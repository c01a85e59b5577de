(** Proofs about addresses, storage keys, nonces and encoder histories. *)

From Verif Require Import Base M_Codec M_BigInt M_BigText M_Hmac M_Rlp M_EthTypes S_Codec S_BigInt S_Hash S_Rlp S_EthTypes.
From Verif Require Import P_Codec P_BigInt3 P_BigInt4 P_BigProp P_Hash P_Rlp P_Rlp2 P_EthTypes.
Open Scope Z_scope.

Lemma calls_ok {cfg : digit_cfg} cs : forall it outs rest, Forall call_ok cs -> due cs it = Some (outs, rest) ->
  run_calls cs it = Ret (outs, rest).
Proof.
  induction cs as [|[t v|] cs IH]; intros it outs rest H D; cbn [due run_calls] in *.
  - now injection D as <- <-.
  - inversion H; subst. destruct (RLP_of t v) as [s|] eqn:E; [|discriminate].
    rewrite (enc_type t v s it) by assumption. cbn [obind]. now apply IH.
  - inversion H; subst. destruct (due cs []) as [[o r]|] eqn:E; [|discriminate]. injection D as <- <-.
    unfold take_data. rewrite (IH [] o r) by assumption. reflexivity.
Qed.

(** ** EIP-55 *)
Lemma nibbles_eq bs : S_EthTypes.nibbles bs = P_Codec.nibbles bs.
Proof. induction bs as [|b bs IH]; [reflexivity|]. cbn [P_Codec.nibbles]. rewrite <- IH. reflexivity. Qed.
Lemma hex_digit_eq d : hex_digit d = lower_hex_digit d.
Proof. unfold hex_digit, lower_hex_digit. destruct (d <? 10); lia. Qed.

Definition nibble (n : Z) : Prop := 0 <= n < 16.
Lemma eip_loop ns : forall ms acc, Forall nibble ns -> Forall nibble ms ->
  eip_55_loop (combine (map lower_hex_digit ns) (map lower_hex_digit ms)) acc =
  Ret (acc ++ map (fun '(d, x) => if 8 <=? x then HEX_digit d else hex_digit d) (combine ns ms)).
Proof.
  induction ns as [|n ns IH]; intros ms acc Hn Hm; cbn [map combine eip_55_loop]; [now rewrite app_nil_r|].
  destruct ms as [|m ms]; cbn [map combine eip_55_loop]; [now rewrite app_nil_r|].
  inversion Hn as [|? ? Hn1 Hn2]; inversion Hm as [|? ? Hm1 Hm2]; subst. unfold nibble in *.
  assert (A : acc ++ (if 8 <=? m then HEX_digit n else hex_digit n) :: map (fun '(d, x) => if 8 <=? x then HEX_digit d else hex_digit d) (combine ns ms) =
              (acc ++ [if 8 <=? m then HEX_digit n else hex_digit n]) ++ map (fun '(d, x) => if 8 <=? x then HEX_digit d else hex_digit d) (combine ns ms)).
  { now rewrite <- app_assoc. }
  rewrite A.
  assert (E : (55 <? lower_hex_digit m) = (8 <=? m)).
  { unfold lower_hex_digit. destruct (Z.ltb_spec m 10), (Z.leb_spec 8 m); [apply Z.ltb_lt|apply Z.ltb_ge|apply Z.ltb_lt|]; lia. }
  rewrite E. rewrite <- !IH by assumption. rewrite <- hex_digit_eq. unfold HEX_digit, hex_digit. destruct (Z.ltb_spec n 10).
  - assert (((48 <=? 48 + n) && (48 + n <=? 57))%bool = true) as -> by (apply andb_true_iff; split; apply Z.leb_le; lia).
    now destruct (8 <=? m).
  - assert (((48 <=? 87 + n) && (87 + n <=? 57))%bool = false) as -> by (apply andb_false_iff; right; apply Z.leb_gt; lia).
    assert (((97 <=? 87 + n) && (87 + n <=? 102))%bool = true) as -> by (apply andb_true_iff; split; apply Z.leb_le; lia).
    replace (87 + n - 32) with (55 + n) by lia. now destruct (8 <=? m).
Qed.

Definition is_addr (a : list Z) : Prop := bytes a /\ length a = 20%nat.

Lemma hex_of_bytes a : bytes a -> bytes_to_lower_hex a = map hex_digit (S_EthTypes.nibbles a).
Proof.
  intros H. rewrite bytes_to_lower_hex_spec by assumption. rewrite <- nibbles_eq. apply map_ext. intros. now rewrite hex_digit_eq.
Qed.
Lemma keccak_facts be m : bytes m ->
  exists st' : h_state (hasher_of be Keccak256), h_digest (hasher_of be Keccak256) (h_new (hasher_of be Keccak256)) m = Ret (HASH Keccak256 m, st') /\ bytes (HASH Keccak256 m) /\ length (HASH Keccak256 m) = 32%nat.
Proof.
  intros Hm. destruct (hasher_spec Keccak256 be (h_new (hasher_of be Keccak256)) m) as (st & E & _ & B & L); auto.
  - apply new_obj.
  - exact I.
  - exists st. auto.
Qed.
Lemma combine_40 (a h : list Z) : length a = 20%nat -> length h = 32%nat -> length (combine (P_Codec.nibbles a) (P_Codec.nibbles h)) = 40%nat.
Proof. intros La Lh. rewrite combine_length, !nibbles_length, La, Lh. reflexivity. Qed.

Lemma checksum_spec be a : is_addr a -> to_checksummed_hex be a = Ret (EIP55 a).
Proof.
  intros [Ha La]. unfold to_checksummed_hex, eip_55_checksum_encode, EIP55.
  pose proof (bytes_lower_hex a Ha) as Hb. rewrite (hex_of_bytes a Ha) in Hb.
  destruct (keccak_facts be _ Hb) as (st & Ed & Bd & Ld). rewrite (hex_of_bytes a Ha), Ed. cbn [obind].
  set (h := HASH Keccak256 _) in *. clearbody h. clear Ed Hb.
  rewrite (hex_of_bytes h Bd).
  assert (E : forall l, map hex_digit l = map lower_hex_digit l) by (intros; apply map_ext; intros; apply hex_digit_eq).
  rewrite !E, !nibbles_eq. rewrite eip_loop by (apply nibbles_range; assumption). cbn [obind app].
  rewrite map_length, combine_40 by assumption. reflexivity.
Qed.
Lemma address_display_spec be a : is_addr a -> address_display be a = Ret (48 :: 120 :: EIP55 a).
Proof. intros H. unfold address_display. now rewrite checksum_spec. Qed.

Lemma HEX_value d : nibble d -> is_digit 16 (HEX_digit d) d /\ is_digit 16 (hex_digit d) d.
Proof.
  unfold nibble, is_digit, HEX_digit, hex_digit, alnum_value. intros H.
  destruct (Z.ltb_spec d 10);
    repeat match goal with |- context [?x <=? ?y] => destruct (Z.leb_spec x y); try lia end; cbn [andb];
    split; (split; [f_equal; lia|lia]).
Qed.
Lemma EIP55_digits a : is_addr a -> digits_of 16 (EIP55 a) (S_EthTypes.nibbles a) /\ length (EIP55 a) = 40%nat.
Proof.
  intros [Ha La]. unfold EIP55. pose proof (bytes_lower_hex a Ha) as Hb. rewrite (hex_of_bytes a Ha) in Hb.
  destruct (keccak_facts false _ Hb) as (st & _ & Bd & Ld). set (h := HASH Keccak256 _) in *. clearbody h.
  rewrite (nibbles_eq a), (nibbles_eq h). split; [|rewrite map_length; now apply combine_40].
  pose proof (nibbles_range a Ha) as Rn. assert (L : (length (P_Codec.nibbles a) <= length (P_Codec.nibbles h))%nat) by (rewrite !nibbles_length; lia).
  revert L. generalize (P_Codec.nibbles h). induction Rn as [|n ns Hn Hns IH]; intros [|m ms] L; cbn [combine map length] in *; try lia; [constructor|constructor|].
  constructor; [|apply IH; lia]. destruct (HEX_value n Hn). now destruct (8 <=? m).
Qed.

Lemma zero_digits s n : digits_of 16 s (repeat 0 n) -> s = repeat 48 n.
Proof.
  revert s. induction n as [|n IH]; intros s H; inversion H as [|c v s' vs' [Hc _] Hs]; subst; [reflexivity|]. cbn [repeat]. f_equal; [|now apply IH].
  unfold alnum_value in Hc. repeat match type of Hc with context [?x <=? ?y] => destruct (Z.leb_spec x y); try lia end; cbn [andb] in Hc; try discriminate Hc; assert (forall a b : Z, Some a = Some b -> a = b) as SI by congruence; apply SI in Hc; lia.
Qed.
Lemma address_null_spec be : (bytes address_null /\ length address_null = 20%nat) /\
  address_display be address_null = Ret (48 :: 120 :: repeat 48 40).
Proof.
  assert (A : is_addr address_null) by (split; [apply Forall_forall; intros x Hx; apply repeat_spec in Hx; subst; unfold byte; lia|reflexivity]).
  split; [exact A|]. rewrite address_display_spec by exact A. destruct (EIP55_digits _ A) as [H _]. clear A. generalize dependent (EIP55 address_null). intros t H.
  rewrite (zero_digits t 40); [reflexivity|exact H].
Qed.

Lemma is_digit_byte s vs : digits_of 16 s vs -> bytes s.
Proof.
  induction 1 as [|c v s vs [H _] _ IH]; constructor; [|exact IH]. unfold alnum_value in H. unfold byte.
  repeat match type of H with context [?x <=? ?y] => destruct (Z.leb_spec x y); try lia end; cbn [andb] in H; discriminate.
Qed.
Lemma digits_of_length r s vs : digits_of r s vs -> length s = length vs.
Proof. induction 1; cbn [length]; congruence. Qed.
Lemma digits_of_fun r s vs vs' : digits_of r s vs -> digits_of r s vs' -> vs = vs'.
Proof.
  intros H. revert vs'. induction H as [|c v s vs [H1 _] _ IH]; intros vs' H'; inversion H' as [|? v' ? vs1 [H2 _] H3]; subst; [reflexivity|].
  rewrite H1 in H2. injection H2 as <-. f_equal. now apply IH.
Qed.

Lemma positional_inj a b : length a = length b -> Forall nibble a -> Forall nibble b -> positional 16 a = positional 16 b -> a = b.
Proof.
  assert (Bd : forall l, Forall nibble l -> 0 <= positional 16 l < 16 ^ Z.of_nat (length l)).
  { induction 1 as [|x l Hx Hl IH]; [cbn; lia|]. rewrite positional_cons. cbn [length]. rewrite Nat2Z.inj_succ, Z.pow_succ_r by lia. unfold nibble in Hx. nia. }
  revert b. induction a as [|x a IH]; intros [|y b] L Ha Hb E; try discriminate; [reflexivity|].
  inversion Ha as [|? ? Hx Ha']; inversion Hb as [|? ? Hy Hb']; subst. cbn [length] in L. injection L as L.
  rewrite !positional_cons, L in E. pose proof (Bd a Ha') as B1. pose proof (Bd b Hb') as B2. rewrite L in B1.
  assert (x = y) by nia. subst y. f_equal. apply IH; auto. lia.
Qed.

Lemma hex_to_bytes_iff s a : bytes s -> (hex_to_bytes s = Ok a <-> (bytes a /\ digits_of 16 s (S_EthTypes.nibbles a))).
Proof.
  intros Hs. destruct (hex_to_bytes_spec s Hs) as (H1 & H2 & H3). rewrite nibbles_eq. split.
  - intros E. destruct (Nat.even (length s)) eqn:Ev; [|rewrite H1 in E by reflexivity; discriminate].
    assert (D : exists vs, digits_of 16 s vs).
    { assert (D : (exists vs, digits_of 16 s vs) \/ ~ exists vs, digits_of 16 s vs).
      { clear. induction s as [|c s IH]; [left; exists []; constructor|].
        destruct (alnum_value c) as [v|] eqn:Ev.
        - destruct (Z_lt_dec v 16) as [Hv|Hv].
          + destruct IH as [[vs D]|D]; [left; exists (v :: vs); constructor; [split; assumption|exact D]|].
            right. intros (vs & D'). inversion D' as [|? v' ? vs' _ D2]; subst. apply D. eauto.
          + right. intros (vs & D'). inversion D' as [|? v' ? vs' [E1 E2] _]; subst. rewrite Ev in E1. injection E1 as ->. contradiction.
        - right. intros (vs & D'). inversion D' as [|? v' ? vs' [E1 _] _]; subst. rewrite Ev in E1. discriminate. }
      destruct D as [D|D]; [exact D|]. rewrite H2 in E; [discriminate|reflexivity|]. intros vs Dv. apply D. eauto. }
    destruct D as (vs & D). destruct (H3 vs eq_refl D) as (bs & E' & Bb & L & V). rewrite E' in E. injection E as ->.
    split; [exact Bb|].
    assert (V2 : vs = P_Codec.nibbles a); [|now rewrite <- V2].
    pose proof (nibbles_range a Bb) as R. pose proof (nibbles_positional a) as P. pose proof (nibbles_length a) as NL.
    pose proof (digits_of_length _ _ _ D) as DL.
    apply (positional_inj vs (P_Codec.nibbles a)); [lia| |exact R|congruence].
    clear -D. induction D as [|c v s vs [H1 H2] _ IH]; constructor; [|exact IH]. unfold alnum_value in H1.
    repeat match type of H1 with context [?x <=? ?y] => destruct (Z.leb_spec x y); try lia end; cbn [andb] in H1; try discriminate; injection H1 as <-; unfold nibble; lia.
  - intros [Ha D]. pose proof (digits_of_length _ _ _ D) as DL. rewrite nibbles_length in DL.
    destruct (H3 (P_Codec.nibbles a)) as (bs & -> & Bb & L & V); [rewrite DL; apply even_double|exact D|].
    f_equal. apply be_val_inj; auto; [lia|]. rewrite V. apply nibbles_positional.
Qed.

(** ** Parsing of addresses and storage keys *)
Lemma array_try_from_iff n bs a : array_try_from n bs = Some a <-> bs = a /\ length a = n.
Proof.
  unfold array_try_from. destruct (Nat.eqb_spec (length bs) n); split; [intros [= <-]; auto|intros [-> _]; reflexivity|discriminate|intros [-> E]; contradiction].
Qed.
Lemma try_from_iff n (from : list Z -> option (list Z)) s a :
  from = (fun hex => match hex_to_bytes hex with Ok bs => array_try_from n bs | Err _ => None end) -> bytes s ->
  (match s with
   | 48 :: 120 :: s' => match from s' with Some a => Ok a | None => Err PInvalidInput end
   | _ => Err PInvalidInput
   end = Ok a <-> (bytes a /\ length a = n) /\ exists hex, s = 48 :: 120 :: hex /\ digits_of 16 hex (S_EthTypes.nibbles a)).
Proof.
  intros -> Hs. split.
  - intros E.
    assert (exists s', s = 48 :: 120 :: s') as (s' & ->).
    { destruct s as [|x [|y s']]; try discriminate;
      repeat match type of E with
      | context [match ?x with _ => _ end] => is_var x; destruct x; try discriminate
      end; eauto. }
    assert (Hs' : bytes s') by (inversion Hs as [|? ? _ H1]; inversion H1; assumption).
    destruct (hex_to_bytes s') as [bs|] eqn:Eb; [|discriminate].
    destruct (array_try_from n bs) as [a'|] eqn:Ea; [|discriminate]. injection E as ->.
    apply array_try_from_iff in Ea. destruct Ea as [-> L]. apply hex_to_bytes_iff in Eb; [|exact Hs'].
    destruct Eb as [Ba D]. split; [auto|]. exists s'. auto.
  - intros [[Ba L] (hex & -> & D)].
    assert (E : hex_to_bytes hex = Ok a) by (apply hex_to_bytes_iff; [eapply is_digit_byte; exact D|auto]).
    rewrite E. assert (array_try_from n a = Some a) as -> by (apply array_try_from_iff; auto). reflexivity.
Qed.
Lemma address_try_from_iff s a : bytes s -> (address_try_from s = Ok a <->
  is_addr a /\ exists hex, s = 48 :: 120 :: hex /\ digits_of 16 hex (S_EthTypes.nibbles a)).
Proof. exact (try_from_iff 20 address_from_hex s a eq_refl). Qed.
Lemma storage_key_try_from_iff s a : bytes s -> (storage_key_try_from s = Ok a <->
  (bytes a /\ length a = 32%nat) /\ exists hex, s = 48 :: 120 :: hex /\ digits_of 16 hex (S_EthTypes.nibbles a)).
Proof. exact (try_from_iff 32 storage_key_from_hex s a eq_refl). Qed.

Lemma address_text_roundtrip be a : is_addr a ->
  exists t, address_display be a = Ret t /\ address_try_from t = Ok a.
Proof.
  intros H. rewrite (address_display_spec be a H). eexists. split; [reflexivity|].
  destruct (EIP55_digits a H) as [D _]. apply address_try_from_iff.
  - repeat constructor; try (unfold byte; lia). eapply is_digit_byte. exact D.
  - split; [exact H|]. eexists. split; [reflexivity|exact D].
Qed.
Lemma storage_key_text_roundtrip a : bytes a -> length a = 32%nat -> storage_key_try_from (storage_key_display a) = Ok a.
Proof.
  intros Ha La. unfold storage_key_display. rewrite hex_of_bytes by assumption.
  assert (D : digits_of 16 (map hex_digit (S_EthTypes.nibbles a)) (S_EthTypes.nibbles a)).
  { rewrite nibbles_eq. pose proof (nibbles_range a Ha) as R. induction R as [|n ns Hn Hns IH]; cbn [map]; constructor; [now apply HEX_value|exact IH]. }
  apply storage_key_try_from_iff; [|split; [auto|]; eexists; split; [reflexivity|exact D]].
  repeat constructor; try (unfold byte; lia). eapply is_digit_byte. exact D.
Qed.
Lemma storage_key_display_spec a : bytes a -> storage_key_display a = 48 :: 120 :: map hex_digit (S_EthTypes.nibbles a).
Proof. intros Ha. unfold storage_key_display. now rewrite hex_of_bytes. Qed.

(** ** Nonces *)
Lemma nonce_from_iff n v : 0 <= n < 2 ^ 64 -> (nonce_from_u64 n = Some v <-> v = n /\ n <> 2 ^ 64 - 1) /\
  (nonce_try_from n = Ok v <-> v = n /\ n <> 2 ^ 64 - 1).
Proof.
  intros H. unfold nonce_try_from, nonce_from_u64. destruct (Z.eqb_spec n (2 ^ 64 - 1)).
  - split; split; try discriminate; intros [_ ?]; contradiction.
  - split; split; try (intros [= <-]; auto); intros [-> _]; reflexivity.
Qed.
(** whatever the decoder accepts as a nonce is in range; the value 2^64-1 is rejected in
    every encoding *)
Lemma decode_nonce_range d v : bytes (snd d) -> decode_nonce d = Ret (Ok v) -> 0 <= v < 2 ^ 64 - 1.
Proof.
  intros Hb. unfold decode_nonce, decode_u64. destruct (negb _); [discriminate|].
  destruct (Nat.ltb_spec 8 (length (snd d))); [discriminate|]. cbn [rbind].
  rewrite be_val_zeros. unfold nonce_try_from, nonce_from_u64.
  destruct (Z.eqb_spec (be_val (snd d)) (2 ^ 64 - 1)); cbn [map_err rbind]; [discriminate|].
  intros [= <-]. pose proof (be_val_bound (snd d) Hb) as B.
  assert (256 ^ Z.of_nat (length (snd d)) <= 256 ^ 8) by (apply Z.pow_le_mono_r; lia).
  change (256 ^ 8) with (2 ^ 64) in *. lia.
Qed.
Lemma decode_nonce_iff d v : bytes (snd d) -> (decode_nonce d = Ret (Ok v) <->
  fst d = SingleValue /\ (length (snd d) <= 8)%nat /\ v = be_val (snd d) /\ v <> 2 ^ 64 - 1).
Proof.
  intros Hb. unfold decode_nonce, decode_u64. destruct (fst d); cbn [item_type_eqb negb rbind].
  2: { split; [discriminate|]. intros (? & _); discriminate. }
  destruct (Nat.ltb_spec 8 (length (snd d))); cbn [rbind]; [split; [discriminate|intros (_ & ? & _); lia]|].
  rewrite be_val_zeros. unfold nonce_try_from, nonce_from_u64.
  destruct (Z.eqb_spec (be_val (snd d)) (2 ^ 64 - 1)) as [E|E]; cbn [map_err rbind].
  - split; [discriminate|]. intros (_ & _ & -> & ?). contradiction.
  - split; [intros [= <-]; auto|]. intros (_ & _ & -> & _). reflexivity.
Qed.

(** ** Text of Wei and chain ids *)
Lemma wei_text {cfg : digit_cfg} x : wf x -> 0 <= bi_val x ->
  exists t r, wei_display x = Ret t /\ wei_try_from t = Ret (Ok r) /\ wf r /\ bi_val r = bi_val x.
Proof. exact (P_BigProp.display_roundtrip x). Qed.
Lemma chain_id_text {cfg : digit_cfg} x : wf x -> 0 <= bi_val x ->
  exists t r, chain_id_display x = Ret t /\ bu_try_from t = Ret (Ok r) /\ wf r /\ bi_val r = bi_val x.
Proof. exact (P_BigProp.display_roundtrip x). Qed.
Lemma chain_id_of_spec {cfg : digit_cfg} c : exists n, In (n, c) registered /\ returns (chain_id_of c) n.
Proof.
  exists (chain_u64 c). split; [destruct c; cbn; tauto|].
  unfold chain_id_of, bu_from_uint. apply (P_BigInt3.from_u128_spec (chain_u64 c) Positive). destruct c; cbn; lia.
Qed.
Lemma chain_id_of_inj {cfg : digit_cfg} c n : In (n, c) registered -> returns (chain_id_of c) n.
Proof.
  intros H. destruct (chain_id_of_spec c) as (m & M & R). replace n with m; [exact R|].
  destruct c; cbn in H, M; repeat match goal with H : _ \/ _ |- _ => destruct H end; congruence || contradiction.
Qed.

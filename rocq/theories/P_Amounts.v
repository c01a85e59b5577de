(** Proofs about amounts, chain ids, addresses and storage keys as they are built from texts and numbers. *)

From Verif Require Import Base M_Codec M_BigInt M_BigText M_Hmac M_Rlp M_EthTypes S_Codec S_BigInt S_Hash S_Rlp S_EthTypes.
From Verif Require Import P_Codec P_BigInt3 P_BigInt4 P_BigProp P_BigText2 P_EthTypes2.
Open Scope Z_scope.

Lemma from_hex_iff n (from : list Z -> option (list Z)) s a :
  from = (fun h => match hex_to_bytes h with Ok bs => array_try_from n bs | Err _ => None end) -> bytes s ->
  (from s = Some a <-> (bytes a /\ length a = n) /\ digits_of 16 s (S_EthTypes.nibbles a)).
Proof.
  intros -> Hs. split.
  - destruct (hex_to_bytes s) as [bs|] eqn:E; [|discriminate]. intros A. apply array_try_from_iff in A. destruct A as [-> L].
    apply hex_to_bytes_iff in E; [|exact Hs]. tauto.
  - intros [[B L] D]. assert (E : hex_to_bytes s = Ok a) by (apply hex_to_bytes_iff; auto). rewrite E. apply array_try_from_iff. auto.
Qed.
Lemma address_from_hex_iff s a : bytes s -> (address_from_hex s = Some a <-> (bytes a /\ length a = 20%nat) /\ digits_of 16 s (S_EthTypes.nibbles a)).
Proof. exact (from_hex_iff 20 address_from_hex s a eq_refl). Qed.
Lemma storage_key_from_hex_iff s a : bytes s -> (storage_key_from_hex s = Some a <-> (bytes a /\ length a = 32%nat) /\ digits_of 16 s (S_EthTypes.nibbles a)).
Proof. exact (from_hex_iff 32 storage_key_from_hex s a eq_refl). Qed.
Lemma from_bytes_iff bs a : (address_from_bytes bs = Some a <-> a = bs /\ length bs = 20%nat) /\ (storage_key_from_bytes bs = Some a <-> a = bs /\ length bs = 32%nat).
Proof. unfold address_from_bytes, storage_key_from_bytes. rewrite !array_try_from_iff. unfold ADDRESS_DATA_BYTE_LENGTH, STORAGE_KEY_DATA_BYTE_LENGTH. split; split; intros [-> ?]; auto. Qed.

Section WithCfg.
Context {cfg : digit_cfg}.

Lemma decimal_exact s v :
  ((exists r, wei_from_decimal s = Ret (Ok r) /\ wf r /\ bi_val r = v) <-> reads_as 10 s v) /\
  ((forall w, ~ reads_as 10 s w) -> wei_from_decimal s = Ret (Err PInvalidInput)).
Proof. unfold wei_from_decimal, bu_from_str_radix. apply from_str_radix_exact; [lia|left; lia]. Qed.
Lemma decimal_accepts s v : denotes 10 s v -> exists r, wei_from_decimal s = Ret (Ok r) /\ wf r /\ bi_val r = v.
Proof. intros D. apply radix_accepts; [lia|exact D]. Qed.
Lemma hex_exact s v : bytes s ->
  ((exists r, wei_from_hex s = Ret (Ok r) /\ wf r /\ bi_val r = v) <-> denotes 16 s v /\ Nat.even (digit_count s) = true /\ forall u, s <> 45 :: u) /\
  exists res, wei_from_hex s = Ret res.
Proof. exact (bu_hex_exact s v). Qed.
Lemma text_exact s v : bytes s ->
  ((exists r, wei_try_from s = Ret (Ok r) /\ wf r /\ bi_val r = v) <->
   (exists t, s = 48 :: 120 :: t /\ denotes 16 t v /\ Nat.even (digit_count t) = true /\ forall u, t <> 45 :: u) \/
   ((forall t, s <> 48 :: 120 :: t) /\ reads_as 10 s v)) /\
  exists res, wei_try_from s = Ret res.
Proof. exact (bu_try_from_exact s v). Qed.
Lemma wei_bytes w : wf w -> 0 <= bi_val w -> exists l, wei_to_be_bytes w = Ret l /\ minimal_be l (bi_val w).
Proof. intros W P. destruct (bi_to_be_bytes_spec w W) as (l & E & M). rewrite Z.abs_eq in M by exact P. exists l. auto. Qed.
Lemma chain_id_value n : 0 <= n < 2 ^ 64 -> returns (chain_id_from_u64 n) n.
Proof. intros H. unfold chain_id_from_u64, bu_from_uint. apply (from_u128_spec n Positive). lia. Qed.
(** What is written is what is sent: the amount with the value of a decimal numeral is encoded as that value. *)
Lemma decimal_sent s v b it : denotes 10 s v -> 0 <= v -> RLP (Str (BE v)) = Some b ->
  exists w, wei_from_decimal s = Ret (Ok w) /\ encode_wei w it = Ret (it ++ b).
Proof.
  intros D P R. destruct (decimal_accepts s v D) as (w & E & W & V). exists w. split; [exact E|]. unfold encode_wei.
  apply P_EthTypes.big_enc; [split; [exact W|lia]|]. rewrite V. exact R.
Qed.
Lemma hex_sent s v b it : bytes s -> denotes 16 s v -> Nat.even (digit_count s) = true -> (forall u, s <> 45 :: u) -> 0 <= v -> RLP (Str (BE v)) = Some b ->
  exists w, wei_from_hex s = Ret (Ok w) /\ encode_wei w it = Ret (it ++ b).
Proof.
  intros Hs D EV NM P R. destruct (proj2 (proj1 (hex_exact s v Hs)) (conj D (conj EV NM))) as (w & E & W & V). exists w. split; [exact E|]. unfold encode_wei.
  apply P_EthTypes.big_enc; [split; [exact W|lia]|]. rewrite V. exact R.
Qed.
Lemma chain_id_sent n b it : 0 <= n < 2 ^ 64 -> RLP (Str (BE n)) = Some b ->
  exists c, chain_id_from_u64 n = Ret c /\ encode_chain_id c it = Ret (it ++ b).
Proof.
  intros H R. destruct (chain_id_value n H) as (c & E & W & V). exists c. split; [exact E|]. unfold encode_chain_id.
  apply P_EthTypes.big_enc; [split; [exact W|lia]|]. rewrite V. exact R.
Qed.
Lemma decimal_refuted : exists w v, (forall u, ~ denotes 10 [49; 97] u) /\ wei_from_decimal [49; 97] = Ret (Ok w) /\ bi_val w = 20 /\ wei_from_decimal [45; 55] = Ret (Ok v) /\ bi_val v = -7.
Proof.
  assert (N : forall u, ~ denotes 10 [49; 97] u).
  { intros u H. inversion H as [|? vs Hne Hd| |]; subst.
    inversion Hd as [|? ? ? ? _ Hd']; subst. inversion Hd' as [|? ? ? ? [E1 E2] _]; subst. injection E1 as <-. lia. }
  assert (R1 : reads_as 10 [49; 97] 20).
  { apply (Read_plain 10 [49; 97] [1; 10]); [discriminate|]. repeat constructor. }
  assert (R2 : reads_as 10 [45; 55] (-7)).
  { apply (Read_minus 10 [55] [7]); [discriminate|]. repeat constructor. }
  destruct (proj2 (proj1 (decimal_exact _ _)) R1) as (w & E1 & _ & V1). destruct (proj2 (proj1 (decimal_exact _ _)) R2) as (v & E2 & _ & V2).
  exists w, v. auto.
Qed.
End WithCfg.

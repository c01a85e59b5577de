(** Property C81: amounts, chain ids, addresses and storage keys as they are built from texts, numbers and bytes.

    What a text writes ([denotes]; [reads_as] is the looser rule the code follows) and the digits of a text ([digits_of]) are
    in S_Codec.v, the shortest big-endian bytes ([minimal_be]) in S_BigInt.v, [RLP] and [BE] in S_Rlp.v. *)

From Verif Require Import Base M_Codec M_BigInt M_BigText M_Rlp M_EthTypes S_Codec S_BigInt S_Rlp S_EthTypes.
From Verif Require P_Amounts.
Open Scope Z_scope.

(** * C81 *)
(** Every decimal numeral is read as the number it writes. *)
Theorem C81_decimal_accepted : forall (cfg : digit_cfg) s v, denotes 10 s v -> exists r, wei_from_decimal s = Ret (Ok r) /\ wf r /\ bi_val r = v.
Proof. exact @P_Amounts.decimal_accepts. Qed.
Print Assumptions C81_decimal_accepted.
(** What is accepted, exactly: more than decimal numerals. Missing: that the rest is refused, which is false, see the next theorem. *)
Theorem C81_decimal_partial : forall (cfg : digit_cfg) s v,
  ((exists r, wei_from_decimal s = Ret (Ok r) /\ wf r /\ bi_val r = v) <-> reads_as 10 s v) /\
  ((forall w, ~ reads_as 10 s w) -> wei_from_decimal s = Ret (Err PInvalidInput)).
Proof. exact @P_Amounts.decimal_exact. Qed.
Print Assumptions C81_decimal_partial.
(** "1a" is taken for the amount 20, "-7" for a negative amount. *)
Theorem C81_decimal_refuted : forall cfg : digit_cfg, exists w v, (forall u, ~ denotes 10 [49; 97] u) /\ wei_from_decimal [49; 97] = Ret (Ok w) /\ bi_val w = 20 /\
  wei_from_decimal [45; 55] = Ret (Ok v) /\ bi_val v = -7.
Proof. exact @P_Amounts.decimal_refuted. Qed.
Print Assumptions C81_decimal_refuted.
(** Hexadecimal: an even number of digits, with or without a plus sign; never a panic. *)
Theorem C81_hex_exactly : forall (cfg : digit_cfg) s v, bytes s ->
  ((exists r, wei_from_hex s = Ret (Ok r) /\ wf r /\ bi_val r = v) <-> denotes 16 s v /\ Nat.even (digit_count s) = true /\ forall u, s <> 45 :: u) /\
  exists res, wei_from_hex s = Ret res.
Proof. exact @P_Amounts.hex_exact. Qed.
Print Assumptions C81_hex_exactly.
(** With "0x" in front it is hexadecimal, without it is decimal. *)
Theorem C81_text_exactly : forall (cfg : digit_cfg) s v, bytes s ->
  ((exists r, wei_try_from s = Ret (Ok r) /\ wf r /\ bi_val r = v) <->
   (exists t, s = 48 :: 120 :: t /\ denotes 16 t v /\ Nat.even (digit_count t) = true /\ forall u, t <> 45 :: u) \/
   ((forall t, s <> 48 :: 120 :: t) /\ reads_as 10 s v)) /\
  exists res, wei_try_from s = Ret res.
Proof. exact @P_Amounts.text_exact. Qed.
Print Assumptions C81_text_exactly.
(** The bytes of an amount that is not negative are the shortest that write it. *)
Theorem C81_bytes : forall (cfg : digit_cfg) w, wf w -> 0 <= bi_val w -> exists l, wei_to_be_bytes w = Ret l /\ minimal_be l (bi_val w).
Proof. exact @P_Amounts.wei_bytes. Qed.
Print Assumptions C81_bytes.
(** A chain id made from a number is that number. *)
Theorem C81_chain_id : forall (cfg : digit_cfg) n, 0 <= n < 2 ^ 64 -> returns (chain_id_from_u64 n) n.
Proof. exact @P_Amounts.chain_id_value. Qed.
Print Assumptions C81_chain_id.
(** What is written is what is sent: the encoding of the amount or chain id is that of the number that was given. *)
Theorem C81_decimal_sent : forall (cfg : digit_cfg) s v b it, denotes 10 s v -> 0 <= v -> RLP (Str (BE v)) = Some b ->
  exists w, wei_from_decimal s = Ret (Ok w) /\ encode_wei w it = Ret (it ++ b).
Proof. exact @P_Amounts.decimal_sent. Qed.
Print Assumptions C81_decimal_sent.
Theorem C81_hex_sent : forall (cfg : digit_cfg) s v b it, bytes s -> denotes 16 s v -> Nat.even (digit_count s) = true -> (forall u, s <> 45 :: u) ->
  0 <= v -> RLP (Str (BE v)) = Some b ->
  exists w, wei_from_hex s = Ret (Ok w) /\ encode_wei w it = Ret (it ++ b).
Proof. exact @P_Amounts.hex_sent. Qed.
Print Assumptions C81_hex_sent.
Theorem C81_chain_id_sent : forall (cfg : digit_cfg) n b it, 0 <= n < 2 ^ 64 -> RLP (Str (BE n)) = Some b ->
  exists c, chain_id_from_u64 n = Ret c /\ encode_chain_id c it = Ret (it ++ b).
Proof. exact @P_Amounts.chain_id_sent. Qed.
Print Assumptions C81_chain_id_sent.
(** Addresses and storage keys: exactly 40 and 64 hexadecimal digits in any case, exactly 20 and 32 bytes, and these bytes. *)
Theorem C81_address_hex : forall s a, bytes s ->
  (address_from_hex s = Some a <-> (bytes a /\ length a = 20%nat) /\ digits_of 16 s (nibbles a)).
Proof. exact @P_Amounts.address_from_hex_iff. Qed.
Print Assumptions C81_address_hex.
Theorem C81_storage_key_hex : forall s a, bytes s ->
  (storage_key_from_hex s = Some a <-> (bytes a /\ length a = 32%nat) /\ digits_of 16 s (nibbles a)).
Proof. exact @P_Amounts.storage_key_from_hex_iff. Qed.
Print Assumptions C81_storage_key_hex.
Theorem C81_from_bytes : forall bs a,
  (address_from_bytes bs = Some a <-> a = bs /\ length bs = 20%nat) /\ (storage_key_from_bytes bs = Some a <-> a = bs /\ length bs = 32%nat).
Proof. exact @P_Amounts.from_bytes_iff. Qed.
Print Assumptions C81_from_bytes.

(** 1000000007 in decimal and "3b9aca07" in hexadecimal: both are sent as 84 3b 9a ca 07. *)
Example C81_witness : denotes 10 [49; 48; 48; 48; 48; 48; 48; 48; 48; 55] 1000000007 /\ denotes 16 [51; 98; 57; 97; 99; 97; 48; 55] 1000000007 /\
  Nat.even (digit_count [51; 98; 57; 97; 99; 97; 48; 55]) = true /\ RLP (Str (BE 1000000007)) = Some [0x84; 0x3b; 0x9a; 0xca; 0x07].
Proof.
  split; [|split; [|split; reflexivity]].
  - apply (Den_plain 10 [49; 48; 48; 48; 48; 48; 48; 48; 48; 55] [1; 0; 0; 0; 0; 0; 0; 0; 0; 7]); [discriminate|]. repeat constructor.
  - apply (Den_plain 16 [51; 98; 57; 97; 99; 97; 48; 55] [3; 11; 9; 10; 12; 10; 0; 7]); [discriminate|]. repeat constructor.
Qed.
Example C81_address_witness : address_from_hex (repeat 65 40) = Some (repeat 170 20) /\ address_from_hex (repeat 65 38) = None.
Proof. split; vm_compute; reflexivity. Qed.

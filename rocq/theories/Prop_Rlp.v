(** Properties C39-C43, C53, C56 (RLP), C52 (addresses as text): RLP and the Ethereum types.

    [RLP] (S_Rlp.v) is the serialisation of the Yellow Paper, appendix B.  [dbg] says
    whether the build has debug assertions and overflow checks; every theorem is for
    both unless it says otherwise.  Data is shorter than 2^63 bytes, which Rust
    guarantees for every slice. *)

From Verif Require Import Base M_Codec M_BigInt M_BigText M_Hmac M_Rlp M_EthTypes S_Codec S_BigInt S_Hash S_Rlp S_EthTypes.
From Verif Require Import P_BigInt3 P_BigInt4 P_BigProp P_Rlp P_Rlp2 P_EthTypes P_EthTypes2 P_Rlp3.
From Verif Require P_RlpInj.
Open Scope Z_scope.

(** * C39 *)
Theorem C39_roundtrip : forall dbg i e, item_bytes i -> RLP i = Some e -> Z.of_nat (length e) < 2 ^ 63 ->
  encode encode_tree i = Ret e /\
  decode dbg (decode_tree dbg (S (length e))) e = Ret (Ok i).
Proof. exact @tree_roundtrip. Qed.
Print Assumptions C39_roundtrip.

(** ["cat", [[], "a"], 60 bytes] *)
Definition tree1 : item := Lst [Str [0x63; 0x61; 0x74]; Lst [Lst []; Str [0x61]]; Str (repeat 7 60)].
Example C39_witness : item_bytes tree1 /\
  RLP tree1 = Some ([0xf8; 69; 0x83; 0x63; 0x61; 0x74; 0xc2; 0xc0; 0x61; 0xb8; 60] ++ repeat 7 60).
Proof. split; [|reflexivity]. cbn. repeat split; repeat constructor; unfold byte; lia. Qed.

(** * C40 *)
(** A byte string on which decoding panics in a debug build; and one for which decoding
    the items of the list panics in every build. *)
Theorem C40_no_panic_refuted :
  (exists data, bytes data /\ length data = 9%nat /\ decode_data true data = Panic) /\
  (exists data, bytes data /\ length data = 10%nat /\
     forall dbg, decode dbg (decode_tree dbg (S (length data))) data = Panic) /\
  (exists data, bytes data /\ length data = 1%nat /\ forall cfg : digit_cfg, decode true (dec true (TVec Tu64)) data = Panic).
Proof.
  split; [|split].
  - exists (0xbf :: repeat 0xff 8). split; [repeat constructor; unfold byte; lia|]. split; reflexivity.
  - exists (0xc9 :: 0xbf :: repeat 0xff 8). split; [repeat constructor; unfold byte; lia|]. split; [reflexivity|]. intros []; vm_compute; reflexivity.
  - exists [0x80]. split; [repeat constructor; unfold byte; lia|]. split; [reflexivity|]. intros []; vm_compute; reflexivity.
Qed.
Print Assumptions C40_no_panic_refuted.

(** The panics occur only for those headers: on every other byte string, decoding any
    tree returns a tree or an error.  Missing from C40: the excluded strings. *)
Theorem C40_tree_no_panic_partial : forall dbg data, bytes data -> Z.of_nat (length data) < 2 ^ 63 -> overflow_free data ->
  (exists i, decode dbg (decode_tree dbg (S (length data))) data = Ret (Ok i)) \/
  decode dbg (decode_tree dbg (S (length data))) data = Ret (Err InvalidFormat).
Proof. exact @tree_no_panic. Qed.
Print Assumptions C40_tree_no_panic_partial.

(** Decoding as a typed value: also not in a debug build for a type that contains a
    Vec (whose decoder asserts that it is given a list). *)
Theorem C40_typed_no_panic_partial : forall (cfg : digit_cfg) dbg t data, dbg = false \/ no_vec t = true ->
  bytes data -> Z.of_nat (length data) < 2 ^ 63 -> overflow_free data ->
  exists r, decode dbg (dec dbg t) data = Ret r.
Proof. exact @typed_no_panic. Qed.
Print Assumptions C40_typed_no_panic_partial.

(** The outermost header: exactly when it panics. *)
Theorem C40_data_panics_iff : forall dbg data, bytes data -> Z.of_nat (length data) < 2 ^ 63 ->
  (decode_data dbg data = Panic <-> dbg = true /\ overflowing_header data).
Proof. exact @decode_data_panic_iff. Qed.
Print Assumptions C40_data_panics_iff.

Example C40_witness : overflow_free [0xc3; 0xbf; 0xff; 0xff] /\
  decode true (decode_tree true 5) [0xc3; 0xbf; 0xff; 0xff] = Ret (Err InvalidFormat).
Proof.
  split; [|reflexivity]. intros pre suf E (b & l & rest & _ & L & _ & ->).
  apply (f_equal (@length Z)) in E. rewrite app_length in E. cbn [length] in E. rewrite app_length, L in E. lia.
Qed.

(** * C41 *)
(** Non-canonical encodings are accepted: a byte below 128 with a header, a long header
    for a short payload, a length with leading zeros, and integers with leading zeros. *)
Theorem C41_canonical_refuted : forall cfg : digit_cfg, forall dbg,
  (decode dbg (decode_tree dbg 3) [0x81; 0x05] = Ret (Ok (Str [0x05])) /\ RLP (Str [0x05]) = Some [0x05]) /\
  (decode dbg (decode_tree dbg 4) [0xb8; 0x01; 0x81] = Ret (Ok (Str [0x81])) /\ RLP (Str [0x81]) = Some [0x81; 0x81]) /\
  (decode dbg (decode_tree dbg 4) [0xf9; 0x00; 0x00] = Ret (Ok (Lst [])) /\ RLP (Lst []) = Some [0xc0]) /\
  (decode dbg (dec dbg Tu64) [0x82; 0x00; 0x05] = Ret (Ok 5) /\ encode (enc Tu64) 5 = Ret [0x05]).
Proof. intros [] []; vm_compute; repeat split. Qed.
Print Assumptions C41_canonical_refuted.

(** What is accepted, exactly: [lax_rlp] differs from RLP only in that headers need not
    be the shortest.  Missing from C41: uniqueness of the header. *)
Theorem C41_accepted_partial : forall dbg i data, bytes data -> Z.of_nat (length data) < 2 ^ 63 ->
  (decode dbg (decode_tree dbg (S (length data))) data = Ret (Ok i) <-> lax_rlp i data).
Proof. exact @accepts_iff. Qed.
Print Assumptions C41_accepted_partial.

(** * C42 *)
(** [dec]/[enc] t: the trait implementations for the type t; [item_of t v]: its RLP item. *)
Theorem C42_typed_roundtrip : forall (cfg : digit_cfg) dbg t (v : den t) s, ok t v ->
  RLP (item_of t v) = Some s -> Z.of_nat (length s) < 2 ^ 63 ->
  encode (enc t) v = Ret s /\ exists v', decode dbg (dec dbg t) s = Ret (Ok v') /\ same t v v'.
Proof. exact @typed_roundtrip. Qed.
Print Assumptions C42_typed_roundtrip.

(** The byte string of an integer: no leading zero, and its value. *)
Theorem C42_minimal_integers : forall n, 0 <= n ->
  bytes (BE n) /\ be_val (BE n) = n /\ (BE n = [] \/ hd 0 (BE n) <> 0).
Proof. exact @BE_minimal. Qed.
Print Assumptions C42_minimal_integers.

(** A vector of vectors of numbers, and an access list. *)
Example C42_witness : ok (cfg:=U8) (TVec (TVec Tu64)) [[0; 5]; [1000]] /\
  RLP (item_of (cfg:=U8) (TVec (TVec Tu64)) [[0; 5]; [1000]]) = Some [0xc7; 0xc2; 0x80; 0x05; 0xc3; 0x82; 0x03; 0xe8] /\
  ok (cfg:=U8) TAccessList [{| ali_address := repeat 1 20; ali_storage_keys := [repeat 2 32] |}].
Proof.
  split; [|split]; [repeat constructor; cbn; lia|vm_compute; reflexivity|].
  repeat constructor; unfold byte; cbn; lia.
Qed.

(** * C43 *)
Theorem C43_truncated_trailing : forall B dbg (d : decoding_item -> outcome (result RlpDataDecodingError B)) i e,
  item_bytes i -> RLP i = Some e -> Z.of_nat (length e) < 2 ^ 63 ->
  (forall p x, e = p ++ x -> x <> [] -> decode dbg d p = Ret (Err InvalidFormat)) /\
  (forall x, x <> [] -> bytes x -> Z.of_nat (length (e ++ x)) < 2 ^ 63 -> decode dbg d (e ++ x) = Ret (Err InvalidFormat)).
Proof. exact @rlp_cut. Qed.
Print Assumptions C43_truncated_trailing.

(** The same for everything the decoder accepts, canonical or not. *)
Theorem C43_accepted_trailing : forall A B dbg (d : decoding_item -> outcome (result RlpDataDecodingError A))
  (d' : decoding_item -> outcome (result RlpDataDecodingError B)) data x v,
  bytes (data ++ x) -> Z.of_nat (length (data ++ x)) < 2 ^ 63 -> x <> [] ->
  decode dbg d data = Ret (Ok v) -> decode dbg d' (data ++ x) = Ret (Err InvalidFormat).
Proof. exact @decode_trailing. Qed.
Print Assumptions C43_accepted_trailing.
Theorem C43_accepted_truncated : forall A B dbg (d : decoding_item -> outcome (result RlpDataDecodingError A))
  (d' : decoding_item -> outcome (result RlpDataDecodingError B)) data x v,
  bytes (data ++ x) -> Z.of_nat (length (data ++ x)) < 2 ^ 63 -> x <> [] ->
  decode dbg d (data ++ x) = Ret (Ok v) -> decode dbg d' data = Ret (Err InvalidFormat).
Proof. exact @decode_truncated. Qed.
Print Assumptions C43_accepted_truncated.
Example C43_witness : RLP (Str [0x80]) = Some [0x81; 0x80] /\ decode true decode_vec_u8 [0x81] = Ret (Err InvalidFormat) /\
  decode true decode_vec_u8 [0x81; 0x80; 0x00] = Ret (Err InvalidFormat).
Proof. repeat split. Qed.

(** * C53 *)
Theorem C53_constructors : forall n v, 0 <= n < 2 ^ 64 ->
  (nonce_from_u64 n = Some v <-> v = n /\ n <> 2 ^ 64 - 1) /\
  (nonce_try_from n = Ok v <-> v = n /\ n <> 2 ^ 64 - 1).
Proof. exact @nonce_from_iff. Qed.
Print Assumptions C53_constructors.
Theorem C53_decoding : forall d v, bytes (snd d) -> (decode_nonce d = Ret (Ok v) <->
  fst d = SingleValue /\ (length (snd d) <= 8)%nat /\ v = be_val (snd d) /\ v <> 2 ^ 64 - 1).
Proof. exact @decode_nonce_iff. Qed.
Print Assumptions C53_decoding.
Theorem C53_decoded_range : forall d v, bytes (snd d) -> decode_nonce d = Ret (Ok v) -> 0 <= v < 2 ^ 64 - 1.
Proof. exact @decode_nonce_range. Qed.
Print Assumptions C53_decoded_range.
Example C53_witness : nonce_from_u64 (2 ^ 64 - 1) = None /\ nonce_from_u64 (2 ^ 64 - 2) = Some (2 ^ 64 - 2) /\
  decode_nonce (SingleValue, repeat 0xff 8) = Ret (Err InvalidFormat).
Proof. repeat split. Qed.

(** * C52, text *)
Theorem C52_display : forall be a, bytes a /\ length a = 20%nat -> address_display be a = Ret (48 :: 120 :: EIP55 a).
Proof. exact @address_display_spec. Qed.
Print Assumptions C52_display.
Theorem C52_text_roundtrip : forall be a, bytes a /\ length a = 20%nat ->
  exists t, address_display be a = Ret t /\ address_try_from t = Ok a.
Proof. exact @address_text_roundtrip. Qed.
Print Assumptions C52_text_roundtrip.
(** the null address, 0x0000000000000000000000000000000000000000 *)
Theorem C52_null : forall be, (bytes address_null /\ length address_null = 20%nat) /\ address_display be address_null = Ret (48 :: 120 :: repeat 48 40).
Proof. exact @address_null_spec. Qed.
Print Assumptions C52_null.
(** what is parsed: "0x" and 40 hexadecimal digits, in any case *)
Theorem C52_parse : forall s a, bytes s -> (address_try_from s = Ok a <->
  (bytes a /\ length a = 20%nat) /\ exists hex, s = 48 :: 120 :: hex /\ digits_of 16 hex (nibbles a)).
Proof. exact @address_try_from_iff. Qed.
Print Assumptions C52_parse.
Theorem C52_storage_key_parse : forall s a, bytes s -> (storage_key_try_from s = Ok a <->
  (bytes a /\ length a = 32%nat) /\ exists hex, s = 48 :: 120 :: hex /\ digits_of 16 hex (nibbles a)).
Proof. exact @storage_key_try_from_iff. Qed.
Print Assumptions C52_storage_key_parse.
Theorem C52_storage_key_roundtrip : forall a, bytes a -> length a = 32%nat -> storage_key_try_from (storage_key_display a) = Ok a.
Proof. exact @storage_key_text_roundtrip. Qed.
Print Assumptions C52_storage_key_roundtrip.

(** EIP-55, first test case: 0x5aAeb6053F3E94C9b9A09f33669435E7Ef1BeAed *)
Example C52_witness :
  address_display false [0x5a; 0xae; 0xb6; 0x05; 0x3f; 0x3e; 0x94; 0xc9; 0xb9; 0xa0; 0x9f; 0x33; 0x66; 0x94; 0x35; 0xe7; 0xef; 0x1b; 0xea; 0xed] =
  Ret [48; 120; 53; 97; 65; 101; 98; 54; 48; 53; 51; 70; 51; 69; 57; 52; 67; 57; 98; 57; 65; 48; 57; 102; 51; 51; 54; 54; 57; 52; 51; 53; 69; 55; 69; 102; 49; 66; 101; 65; 101; 100].
Proof. vm_compute. reflexivity. Qed.

(** * C56, RLP encoder *)
Theorem C56_rlp_encoder_reuse : forall (cfg : digit_cfg) cs it outs rest, Forall call_ok cs -> due cs it = Some (outs, rest) ->
  run_calls cs it = Ret (outs, rest).
Proof. exact @calls_ok. Qed.
Print Assumptions C56_rlp_encoder_reuse.
Example C56_rlp_witness : due (cfg:=U8) [CEncode Tu64 5; CEncode TBytes [0x80]; CTake; CTake; CEncode Tu64 0; CTake] [] =
  Some ([[0x05; 0x81; 0x80]; []; [0x80]], []).
Proof. reflexivity. Qed.

(** * C57 *)
Theorem C57_wei_display_roundtrip : forall (cfg : digit_cfg) x, wf x -> 0 <= bi_val x ->
  exists t r, wei_display x = Ret t /\ wei_try_from t = Ret (Ok r) /\ wf r /\ bi_val r = bi_val x.
Proof. exact @wei_text. Qed.
Print Assumptions C57_wei_display_roundtrip.
(** there is no parser for ChainId, its text is parsed as a BigUint *)
Theorem C57_chain_id_display_roundtrip : forall (cfg : digit_cfg) x, wf x -> 0 <= bi_val x ->
  exists t r, chain_id_display x = Ret t /\ bu_try_from t = Ret (Ok r) /\ wf r /\ bi_val r = bi_val x.
Proof. exact @chain_id_text. Qed.
Print Assumptions C57_chain_id_display_roundtrip.

(** * C58 *)
Theorem C58_chain_ids : forall (cfg : digit_cfg) c, exists n, In (n, c) registered /\ returns (chain_id_of c) n.
Proof. exact @chain_id_of_spec. Qed.
Print Assumptions C58_chain_ids.
Theorem C58_chain_ids_unique : forall (cfg : digit_cfg) c n, In (n, c) registered -> returns (chain_id_of c) n.
Proof. exact @chain_id_of_inj. Qed.
Print Assumptions C58_chain_ids_unique.

(** * C65

    No encoding is the beginning of another, and different trees have different encodings: a stream of encodings can be
    cut into items in one way only. *)
Theorem C65_self_delimiting : forall i j a b u v, item_bytes i -> item_bytes j -> RLP i <> None -> RLP j <> None ->
  encode encode_tree i = Ret a -> encode encode_tree j = Ret b -> a ++ u = b ++ v -> i = j /\ u = v.
Proof. exact @P_RlpInj.encode_prefix_free. Qed.
Print Assumptions C65_self_delimiting.
Example C65_witness : item_bytes tree1 /\ RLP tree1 <> None /\ exists a, encode encode_tree tree1 = Ret a /\ length a = 71%nat.
Proof. split; [apply C39_witness|]. split; [rewrite (proj2 C39_witness); discriminate|]. eexists. split; [vm_compute; reflexivity|reflexivity]. Qed.

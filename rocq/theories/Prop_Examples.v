(** Property C77: the programs in examples/ print what they say they print.

    Read beside S_Examples.v ([given]: how bytes are given on the command line, [json_text], [wire], [reads_tx], [key_address],
    [decimal], [has_prefix], [found_text]) and S_Display.v ([shows_transaction], [hex]).  A result [Panic] is the program
    stopping with an error message and an exit code that is not 0. *)

From Coq Require Import String.
From Verif Require Import Base M_Parity M_BigInt M_Random M_Rlp M_EthTypes M_Tx M_TxSign M_Display M_Examples.
From Verif Require Import S_BigInt S_Curve S_Hash S_Codec S_Rlp S_EthTypes S_Tx S_RlpRead S_Eoa S_Display S_Examples.
From Verif Require Import Prop_Tx.
From Verif Require P_Rlp3 P_Examples P_ExJson P_ExTx P_ExKey.
Open Scope Z_scope.
Local Open Scope list_scope.

(** * From a private key to the address *)
Theorem C77_key : forall (cfg : digit_cfg) be arg key a, given arg key -> key_address key a ->
  eoa_key_to_address be arg = Ret (ascii "0x" ++ EIP55 a ++ newline).
Proof. exact @P_ExKey.key_prints. Qed.
Print Assumptions C77_key.
Theorem C77_key_else : forall (cfg : digit_cfg) be arg, (forall s, arg = Some s -> bytes s) ->
  (forall key a, given arg key -> ~ key_address key a) -> eoa_key_to_address be arg = Panic.
Proof. exact @P_ExKey.key_panics. Qed.
Print Assumptions C77_key_else.
Definition key1 : list Z := repeat 0 31 ++ [1].
Example C77_key_witness : exists a, key_address key1 a /\ given (Some (ascii "0x" ++ repeat 48 63 ++ [49])) key1.
Proof.
  assert (B : bytes key1) by (unfold key1; cbn [repeat app]; repeat constructor; unfold byte; lia).
  eexists. split.
  - split; [exact B|]. split; [reflexivity|]. change (be_val key1) with 1. split; [split; [discriminate|]; intros K; vm_compute in K; discriminate|].
    eexists _, _. split; [|reflexivity]. vm_compute. reflexivity.
  - split; [exact B|]. exists (repeat 48 63 ++ [49]). split; [|now right]. unfold spells, key1. cbn [repeat app flat_map].
    repeat (constructor; [split; [reflexivity|reflexivity]|]). constructor.
Qed.

(** * From RLP to JSON *)
(** Bytes that are the encoding of a tree, perhaps with longer headers than needed, are printed as JSON of that tree. *)
Theorem C77_rlp : forall dbg arg i data, given arg data -> Z.of_nat (length data) < 2 ^ 63 -> lax_rlp i data ->
  exists t, rlp_decoder dbg arg = Ret (t ++ newline) /\ json_text i t.
Proof. exact P_ExJson.rlp_decoder_tree. Qed.
Print Assumptions C77_rlp.
(** A JSON text is that of one tree. *)
Theorem C77_json_unique : forall i j t, json_text i t -> json_text j t -> i = j.
Proof. exact P_ExJson.json_unique. Qed.
Print Assumptions C77_json_unique.
(** Other bytes are refused, as long as no length in them overflows (see C40). *)
Theorem C77_rlp_else : forall dbg arg data, given arg data -> Z.of_nat (length data) < 2 ^ 63 -> (forall i, ~ lax_rlp i data) -> overflow_free data ->
  rlp_decoder dbg arg = Ret (ascii "Decoding failed: Invalid format" ++ newline).
Proof. exact P_ExTx.rlp_decoder_refuses. Qed.
Print Assumptions C77_rlp_else.
Theorem C77_rlp_nohex : forall dbg s t, bytes s -> (forall data, ~ given (Some s) data) ->
  s = ascii "0x" ++ t \/ (forall u, s <> ascii "0x" ++ u) /\ s = t ->
  rlp_decoder dbg (Some s) = Ret (ascii "invalid hex input: " ++ (if Nat.even (length t) then ascii "Invalid char found" else ascii "Not 1-byte aligned") ++ newline).
Proof. exact P_ExJson.rlp_decoder_nohex. Qed.
Print Assumptions C77_rlp_nohex.
Example C77_rlp_witness : forall dbg, let i := Lst [Str [1; 171]; Lst []] in
  given (Some (ascii "c48201aBc0")) [196; 130; 1; 171; 192] /\ lax_rlp i [196; 130; 1; 171; 192] /\
  rlp_decoder dbg (Some (ascii "c48201aBc0")) = Ret ([91; 10; 32; 32] ++ [34] ++ ascii "0x01ab" ++ [34] ++ [44; 10; 32; 32; 91; 93; 10; 93] ++ newline).
Proof.
  intros dbg i. split; [|split].
  - split; [repeat constructor; unfold byte; lia|]. eexists. split; [|now left]. unfold spells. cbn [flat_map app ascii list_ascii_of_string map].
    repeat (constructor; [split; reflexivity|]). constructor.
  - apply (lax_list [196] _ [130; 1; 171; 192]); [apply (header_list 4); lia|].
    apply (lax_cons _ [130; 1; 171] _ [192]); [apply (lax_str [130] [1; 171]); [apply (header_str 2); lia|repeat constructor; unfold byte; lia]|].
    apply (lax_cons _ [192] _ []); [apply (lax_list [192] _ []); [apply (header_list 0); lia|constructor]|constructor].
  - destruct dbg; vm_compute; reflexivity.
Qed.

(** * From the bytes of a transaction to its fields *)
(** What a transaction is broadcast as is printed as that transaction; EIP-155 is below. *)
Theorem C77_tx : forall (cfg : digit_cfg) be dbg arg t w, tx_ok t -> wire t = Some w -> Z.of_nat (length w) < 2 ^ 63 -> given arg w ->
  match t with TLegacy t => tl_v t < 35 | T155 _ => False | _ => True end ->
  exists x, tx_decoder be dbg arg = Ret (x ++ newline) /\ shows_transaction t x.
Proof. exact @P_ExTx.tx_decoder_wire. Qed.
Print Assumptions C77_tx.
(** An EIP-155 transaction is printed with half its chain id (C48), *)
Theorem C77_tx_155_partial : forall (cfg : digit_cfg) be dbg arg t w y, tx_ok_155 t -> RLP (tx_item_155 t) = Some w -> Z.of_nat (length w) < 2 ^ 63 -> given arg w ->
  bi_val (t155_v t) = 35 + 2 * bi_val (p155_chain_id (t155_payload t)) + parity y ->
  exists x u, tx_decoder be dbg arg = Ret (x ++ newline) /\ shows_transaction (T155 u) x /\ tx_same_but_chain_155 t u /\
    bi_val (p155_chain_id (t155_payload u)) = bi_val (p155_chain_id (t155_payload t)) / 2.
Proof. exact @P_ExTx.tx_decoder_155. Qed.
Print Assumptions C77_tx_155_partial.
(** so never as the transaction itself, unless the chain id is 0. *)
Theorem C77_tx_155_refuted : forall (cfg : digit_cfg) be dbg arg t w y x, tx_ok_155 t -> RLP (tx_item_155 t) = Some w -> Z.of_nat (length w) < 2 ^ 63 -> given arg w ->
  bi_val (t155_v t) = 35 + 2 * bi_val (p155_chain_id (t155_payload t)) + parity y -> 1 <= bi_val (p155_chain_id (t155_payload t)) ->
  transaction_display be (T155 t) = Ret x -> tx_decoder be dbg arg <> Ret (x ++ newline).
Proof. exact @P_ExTx.tx_decoder_155_wrong. Qed.
Print Assumptions C77_tx_155_refuted.
(** On any bytes: a transaction is printed exactly if the bytes read as one (with this chain id). *)
Theorem C77_tx_any : forall (cfg : digit_cfg) be dbg arg data t, given arg data -> Z.of_nat (length data) < 2 ^ 63 -> reads_tx data t ->
  tx_ok t /\ exists x, tx_decoder be dbg arg = Ret (x ++ newline) /\ shows_transaction t x.
Proof. exact @P_ExTx.tx_decoder_any. Qed.
Print Assumptions C77_tx_any.
Theorem C77_tx_else : forall (cfg : digit_cfg) be dbg arg data, given arg data -> Z.of_nat (length data) < 2 ^ 63 -> (forall t, ~ reads_tx data t) ->
  tx_decoder be dbg arg = Panic.
Proof. exact @P_ExTx.tx_decoder_not. Qed.
Print Assumptions C77_tx_else.
Theorem C77_tx_nohex : forall (cfg : digit_cfg) be dbg arg, (forall s, arg = Some s -> bytes s) -> (forall data, ~ given arg data) -> tx_decoder be dbg arg = Panic.
Proof. exact @P_ExTx.tx_decoder_nohex. Qed.
Print Assumptions C77_tx_nohex.
Example C77_tx_witness : forall cfg : digit_cfg,
  (forall t, t = TLegacy tx_legacy1 \/ t = T155 tx_155_1 \/ t = T2930 tx_2930_1 \/ t = T1559 tx_1559_1 ->
     tx_ok t /\ exists w, wire t = Some w /\ (length w < 300)%nat /\ given (Some (hex w)) w) /\
  tl_v tx_legacy1 = 28 /\ bi_val (t155_v tx_155_1) = 35 + 2 * bi_val (p155_chain_id (t155_payload tx_155_1)) + parity Even /\
  bi_val (p155_chain_id (t155_payload tx_155_1)) = 1.
Proof.
  intros cfg. split; [|split; [reflexivity|split; destruct cfg; reflexivity]].
  intros t [->|[->|[->| ->]]]; (split; [cbn [tx_ok]; unfold tx_ok_legacy, payload_ok_legacy, tx_ok_155, payload_ok_155, tx_ok_2930, payload_ok_2930, tx_ok_1559, payload_ok_1559; fields|]).
  all: match goal with |- exists w, wire ?t = _ /\ _ => assert (E : exists w, wire t = Some w /\ (length w < 300)%nat /\ forallb (fun b => (0 <=? b) && (b <? 256))%bool w = true)
         by (destruct cfg; (eexists; split; [vm_compute; reflexivity|split; [cbn; lia|reflexivity]])) end.
  all: destruct E as (w & E & L & B); exists w; split; [exact E|]; split; [exact L|]; apply P_ExTx.given_hex, Forall_forall; intros b Hb;
    rewrite forallb_forall in B; specialize (B b Hb); unfold byte; lia.
Qed.

(** * The search for an address with a prefix *)
(** What is printed last is a key from the source of randomness, its address, and that has the prefix; it is the first such key. *)
Theorem C77_vanity : forall (cfg : digit_cfg) be dbg fuel env arg y, (forall i key, produces env i key -> bytes key) -> eoa_gen_vanity_address be dbg fuel env arg = Ret y ->
  exists p j key a z, arg = Some p /\ wanted p /\ (j < fuel)%nat /\ produces env j key /\ key_address key a /\ has_prefix p a /\ y = z ++ found_text key a /\
    forall k, (k < j)%nat -> exists key' a', produces env k key' /\ key_address key' a' /\ ~ has_prefix p a'.
Proof. exact @P_ExKey.vanity_sound. Qed.
Print Assumptions C77_vanity.
(** With a prefix of up to 12 characters the search ends when such a key comes, if the earlier ones are keys. *)
Theorem C77_vanity_found_partial : forall (cfg : digit_cfg) be dbg fuel env p j key a, wanted p -> (length p <= 12)%nat -> produces env j key -> key_address key a -> has_prefix p a ->
  (forall k, (k < j)%nat -> exists key' a', produces env k key' /\ key_address key' a' /\ ~ has_prefix p a') ->
  (forall k secs, turn_report (env k) = Some secs -> 0 < secs) -> 100 * Z.of_nat (S j) < 2 ^ 64 -> (j < fuel)%nat ->
  exists z, eoa_gen_vanity_address be dbg fuel env (Some p) = Ret (z ++ found_text key a) /\ reports env (32 ^ Z.of_nat (length p)) (S j) z.
Proof. exact @P_ExKey.vanity_complete. Qed.
Print Assumptions C77_vanity_found_partial.
(** With longer ones, which are accepted, it panics: at once in debug builds, at the first report in release builds. *)
Theorem C77_vanity_refuted : forall (cfg : digit_cfg) be fuel env p, wanted p -> (13 <= length p)%nat ->
  eoa_gen_vanity_address be true fuel env (Some p) = Panic /\
  forall i secs, turn_report (env i) = Some secs -> (i < fuel)%nat ->
    (forall k, (k < i)%nat -> exists key' a', produces env k key' /\ key_address key' a' /\ ~ has_prefix p a') ->
    eoa_gen_vanity_address be false fuel env (Some p) = Panic.
Proof.
  intros cfg be fuel env p W L. split; [exact (P_ExKey.vanity_long be fuel env p W L)|].
  intros i secs. exact (P_ExKey.vanity_long_release be fuel env p i secs W L).
Qed.
Print Assumptions C77_vanity_refuted.
(** key 1 is found at the first turn under the first letters of its address, whatever they are *)
Example C77_vanity_witness : forall (cfg : digit_cfg) be dbg, exists a p, key_address key1 a /\ wanted p /\ length p = 3%nat /\ has_prefix p a /\ wanted (repeat 65 13) /\
  exists z, eoa_gen_vanity_address be dbg 1 (fun _ => mkTurn None (Ret (Ok key1))) (Some p) = Ret (z ++ found_text key1 a).
Proof.
  intros cfg be dbg. destruct C77_key_witness as (a & K & _). destruct (P_ExKey.prefix_of_address key1 a 3 K ltac:(lia)) as (p & W & L & H).
  exists a, p. split; [exact K|]. split; [exact W|]. split; [exact L|]. split; [exact H|]. split.
  - split; [cbn; lia|]. exists (repeat 10 13). cbn [repeat]. repeat (constructor; [split; reflexivity|]). constructor.
  - destruct (C77_vanity_found_partial cfg be dbg 1 (fun _ => mkTurn None (Ret (Ok key1))) p 0 key1 a W) as (z & E & _); [..|exists z; exact E]; try assumption; try reflexivity; try lia; try discriminate.
Qed.

(** * Random bytes *)
Theorem C77_randombytes : forall t o s n bs, decimal s n -> n < 2 ^ 32 -> get_os_random_bytes t o n = Ret (Ok bs) -> bytes bs ->
  randombytes t o (Some s) = Ret (hex bs ++ newline).
Proof. exact P_ExKey.randombytes_prints. Qed.
Print Assumptions C77_randombytes.
Theorem C77_randombytes_error : forall t o s n e, decimal s n -> n < 2 ^ 32 -> get_os_random_bytes t o n = Ret (Err e) -> - 2 ^ 31 <= error_number e < 2 ^ 32 ->
  exists m, randombytes t o (Some s) = Ret (ascii "Error: " ++ m ++ newline) /\ shows_random_error e m.
Proof. exact P_ExKey.randombytes_fails. Qed.
Print Assumptions C77_randombytes_error.
Theorem C77_randombytes_else : forall t o s, (forall n, decimal s n -> 2 ^ 32 <= n) -> randombytes t o (Some s) = Panic.
Proof. exact P_ExKey.randombytes_panics. Qed.
Print Assumptions C77_randombytes_else.
Example C77_randombytes_witness : decimal (ascii "+012") 12 /\
  randombytes Linux (fun _ n => mkReply (Z.of_nat n) (repeat 171 n) 0) (Some (ascii "2")) = Ret (ascii "abab" ++ newline) /\
  randombytes Linux (fun _ n => mkReply (-1) [] 5) (Some (ascii "2")) = Ret (ascii "Error: getrandom failed with errno 5" ++ newline).
Proof.
  split; [|split; reflexivity]. exists (ascii "012"), [0; 1; 2]. split; [now right|]. split; [discriminate|]. split; [|reflexivity].
  cbn. repeat (constructor; [split; reflexivity|]). constructor.
Qed.
Example C77_error_witness : shows_random_error (LinuxGetRandom 5) (ascii "getrandom failed with errno 5") /\
  rlp_decoder true (Some (ascii "0x123")) = Ret (ascii "invalid hex input: Not 1-byte aligned" ++ newline) /\
  rlp_decoder true (Some (ascii "12g4")) = Ret (ascii "invalid hex input: Invalid char found" ++ newline).
Proof.
  split; [|split; reflexivity]. exists (ascii "5"). split; [|reflexivity]. exists (ascii "5"). split; [exists [5]; repeat split; try discriminate; repeat constructor; lia|].
  split; [discriminate|reflexivity].
Qed.

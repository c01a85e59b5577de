(** Property C82: from the texts a user types to the bytes of the signed transaction.

    The fields of a transaction ([legacy_fields], [eip_2930_fields], [eip_1559_fields], [signature_fields], [access_entry]) are in S_Send.v, what a
    text writes ([denotes], [digits_of]) in S_Codec.v, [RLP] and [BE] in S_Rlp.v, [KECCAK256] and [identifies] (recovery from the
    transaction gives the key back) in S_Eoa.v. *)

From Verif Require Import Base M_Codec M_BigInt M_Curve M_Hmac M_Random M_Ecdsa M_Rfc6979 M_Rlp M_EthTypes M_Tx M_Eoa M_TxSign.
From Verif Require Import S_Codec S_BigInt S_Curve S_Ecdsa S_Rfc6979 S_Sign S_Hash S_Rlp S_EthTypes S_Tx S_Eoa S_Send.
From Verif Require P_Send P_SendLive P_Eip155.
From Coq Require Import Permutation.
Open Scope Z_scope.

(** * C82 *)
(** The amounts are decimal numerals, the destination is "0x" and forty digits. The setters may come in any order. If signing returns,
    the signature verifies over the fields that were asked for, the transaction names the signer, and its bytes are those of the fields
    and the signature. *)
Theorem C82_legacy : forall (cfg : digit_cfg) be fuel rng D sk pk, secp256k1 = Ret D -> code_sk sk -> sk_params sk = D -> public_key_of sk = Ret pk -> rng_ok rng ->
  forall nonce gas tg vg ta va hex a data,
  0 <= nonce < 2 ^ 64 - 1 -> 0 <= gas < 2 ^ 64 -> denotes 10 tg vg -> 0 <= vg ->
  denotes 10 ta va -> 0 <= va -> digits_of 16 hex (nibbles a) -> bytes a -> length a = 20%nat -> bytes data ->
  exists w1 w3, nonce_from_u64 nonce = Some nonce /\
    wei_from_decimal tg = Ret (Ok w1) /\ wei_from_decimal ta = Ret (Ok w3) /\ address_try_from (48 :: 120 :: hex) = Ok a /\
  forall calls, Permutation calls [SetNonce nonce; SetGasPrice w1; SetGasLimit gas; SetDestination a; SetAmount w3; SetData data] ->
  exists p, fst (take_and_build KLegacy (builder_after calls)) = Ok (PLegacy p) /\
  forall o body t, so_zero o = false -> RLP (Lst (legacy_fields nonce vg gas a va data)) = Some body -> sign_payload be fuel rng (PLegacy p) sk o = Ret (Ok t) ->
  exists t' sg y, t = TLegacy t' /\ 0 <= y <= 1 /\ sig_params sg = D /\
    1 <= bi_val (sig_r sg) <= e_order SECP256K1 - 1 /\ 1 <= bi_val (sig_s sg) <= e_order SECP256K1 - 1 /\ (so_low_s o = true -> bi_val (sig_s sg) <= e_order SECP256K1 / 2) /\
    verify (KECCAK256 body) sg pk = Ret (Ok true) /\ identifies be D t pk /\
    forall s, RLP (Lst (legacy_fields nonce vg gas a va data ++ signature_fields (27 + y) (bi_val (sig_r sg)) (bi_val (sig_s sg)))) = Some s ->
      Z.of_nat (length s) < 2 ^ 63 -> encode encode_transaction_legacy t' = Ret s.
Proof. exact @P_Send.sent_legacy. Qed.
Print Assumptions C82_legacy.
(** The same with a chain id. *)
Theorem C82_eip_155 : forall (cfg : digit_cfg) be fuel rng D sk pk, secp256k1 = Ret D -> code_sk sk -> sk_params sk = D -> public_key_of sk = Ret pk -> rng_ok rng ->
  forall chain nonce gas tg vg ta va hex a data,
  0 <= chain < 2 ^ 64 -> 0 <= nonce < 2 ^ 64 - 1 -> 0 <= gas < 2 ^ 64 -> denotes 10 tg vg -> 0 <= vg ->
  denotes 10 ta va -> 0 <= va -> digits_of 16 hex (nibbles a) -> bytes a -> length a = 20%nat -> bytes data ->
  exists c w1 w3, chain_id_from_u64 chain = Ret c /\ nonce_from_u64 nonce = Some nonce /\
    wei_from_decimal tg = Ret (Ok w1) /\ wei_from_decimal ta = Ret (Ok w3) /\ address_try_from (48 :: 120 :: hex) = Ok a /\
  forall calls, Permutation calls [SetChainId c; SetNonce nonce; SetGasPrice w1; SetGasLimit gas; SetDestination a; SetAmount w3; SetData data] ->
  exists p, fst (take_and_build K155 (builder_after calls)) = Ok (P155 p) /\
  forall o body t, so_zero o = false -> RLP (Lst (legacy_fields nonce vg gas a va data ++ signature_fields chain 0 0)) = Some body -> sign_payload be fuel rng (P155 p) sk o = Ret (Ok t) ->
  exists t' sg y, t = T155 t' /\ 0 <= y <= 1 /\ sig_params sg = D /\
    1 <= bi_val (sig_r sg) <= e_order SECP256K1 - 1 /\ 1 <= bi_val (sig_s sg) <= e_order SECP256K1 - 1 /\ (so_low_s o = true -> bi_val (sig_s sg) <= e_order SECP256K1 / 2) /\
    verify (KECCAK256 body) sg pk = Ret (Ok true) /\ identifies be D t pk /\
    forall s, RLP (Lst (legacy_fields nonce vg gas a va data ++ signature_fields (35 + 2 * chain + y) (bi_val (sig_r sg)) (bi_val (sig_s sg)))) = Some s ->
      Z.of_nat (length s) < 2 ^ 63 -> encode encode_transaction_eip_155 t' = Ret s.
Proof. exact @P_Send.sent_155. Qed.
Print Assumptions C82_eip_155.
(** The same for EIP-2930, without an access list. *)
Theorem C82_eip_2930 : forall (cfg : digit_cfg) be fuel rng D sk pk, secp256k1 = Ret D -> code_sk sk -> sk_params sk = D -> public_key_of sk = Ret pk -> rng_ok rng ->
  forall chain nonce gas tg vg ta va hex a data,
  0 <= chain < 2 ^ 64 -> 0 <= nonce < 2 ^ 64 - 1 -> 0 <= gas < 2 ^ 64 -> denotes 10 tg vg -> 0 <= vg ->
  denotes 10 ta va -> 0 <= va -> digits_of 16 hex (nibbles a) -> bytes a -> length a = 20%nat -> bytes data ->
  exists c w1 w3, chain_id_from_u64 chain = Ret c /\ nonce_from_u64 nonce = Some nonce /\
    wei_from_decimal tg = Ret (Ok w1) /\ wei_from_decimal ta = Ret (Ok w3) /\ address_try_from (48 :: 120 :: hex) = Ok a /\
  forall calls, Permutation calls [SetChainId c; SetNonce nonce; SetGasPrice w1; SetGasLimit gas; SetDestination a; SetAmount w3; SetData data] ->
  exists p, fst (take_and_build K2930 (builder_after calls)) = Ok (P2930 p) /\
  forall o body t, so_zero o = false -> RLP (Lst (eip_2930_fields chain nonce vg gas a va data [])) = Some body -> sign_payload be fuel rng (P2930 p) sk o = Ret (Ok t) ->
  exists t' sg y, t = T2930 t' /\ 0 <= y <= 1 /\ sig_params sg = D /\
    1 <= bi_val (sig_r sg) <= e_order SECP256K1 - 1 /\ 1 <= bi_val (sig_s sg) <= e_order SECP256K1 - 1 /\ (so_low_s o = true -> bi_val (sig_s sg) <= e_order SECP256K1 / 2) /\
    verify (KECCAK256 (1 :: body)) sg pk = Ret (Ok true) /\ identifies be D t pk /\
    forall s, RLP (Lst (eip_2930_fields chain nonce vg gas a va data [] ++ signature_fields y (bi_val (sig_r sg)) (bi_val (sig_s sg)))) = Some s ->
      Z.of_nat (length s) < 2 ^ 63 -> transaction_eip_2930_encode t' = Ret (1 :: s).
Proof. exact @P_Send.sent_2930. Qed.
Print Assumptions C82_eip_2930.
(** The same for EIP-1559, without an access list. *)
Theorem C82_eip_1559 : forall (cfg : digit_cfg) be fuel rng D sk pk, secp256k1 = Ret D -> code_sk sk -> sk_params sk = D -> public_key_of sk = Ret pk -> rng_ok rng ->
  forall chain nonce gas tp vp tf vf ta va hex a data,
  0 <= chain < 2 ^ 64 -> 0 <= nonce < 2 ^ 64 - 1 -> 0 <= gas < 2 ^ 64 -> denotes 10 tp vp -> 0 <= vp -> denotes 10 tf vf -> 0 <= vf ->
  denotes 10 ta va -> 0 <= va -> digits_of 16 hex (nibbles a) -> bytes a -> length a = 20%nat -> bytes data ->
  exists c w1 w2 w3, chain_id_from_u64 chain = Ret c /\ nonce_from_u64 nonce = Some nonce /\
    wei_from_decimal tp = Ret (Ok w1) /\ wei_from_decimal tf = Ret (Ok w2) /\ wei_from_decimal ta = Ret (Ok w3) /\ address_try_from (48 :: 120 :: hex) = Ok a /\
  forall calls, Permutation calls [SetChainId c; SetNonce nonce; SetMaxPriorityFee w1; SetMaxFee w2; SetGasLimit gas; SetDestination a; SetAmount w3; SetData data] ->
  exists p, fst (take_and_build K1559 (builder_after calls)) = Ok (P1559 p) /\
  forall o body t, so_zero o = false -> RLP (Lst (eip_1559_fields chain nonce vp vf gas a va data [])) = Some body -> sign_payload be fuel rng (P1559 p) sk o = Ret (Ok t) ->
  exists t' sg y, t = T1559 t' /\ 0 <= y <= 1 /\ sig_params sg = D /\
    1 <= bi_val (sig_r sg) <= e_order SECP256K1 - 1 /\ 1 <= bi_val (sig_s sg) <= e_order SECP256K1 - 1 /\ (so_low_s o = true -> bi_val (sig_s sg) <= e_order SECP256K1 / 2) /\
    verify (KECCAK256 (2 :: body)) sg pk = Ret (Ok true) /\ identifies be D t pk /\
    forall s, RLP (Lst (eip_1559_fields chain nonce vp vf gas a va data [] ++ signature_fields y (bi_val (sig_r sg)) (bi_val (sig_s sg)))) = Some s ->
      Z.of_nat (length s) < 2 ^ 63 -> transaction_eip_1559_encode t' = Ret (2 :: s).
Proof. exact @P_Send.sent_1559. Qed.
Print Assumptions C82_eip_1559.
(** EIP-2930 with an access list. *)
Theorem C82_eip_2930_access : forall (cfg : digit_cfg) be fuel rng D sk pk, secp256k1 = Ret D -> code_sk sk -> sk_params sk = D -> public_key_of sk = Ret pk -> rng_ok rng ->
  forall chain nonce gas tg vg ta va hex a data access_list,
  0 <= chain < 2 ^ 64 -> 0 <= nonce < 2 ^ 64 - 1 -> 0 <= gas < 2 ^ 64 -> denotes 10 tg vg -> 0 <= vg ->
  denotes 10 ta va -> 0 <= va -> digits_of 16 hex (nibbles a) -> bytes a -> length a = 20%nat -> bytes data -> Forall access_entry_ok access_list ->
  exists c w1 w3, chain_id_from_u64 chain = Ret c /\ nonce_from_u64 nonce = Some nonce /\
    wei_from_decimal tg = Ret (Ok w1) /\ wei_from_decimal ta = Ret (Ok w3) /\ address_try_from (48 :: 120 :: hex) = Ok a /\
  forall calls, Permutation calls [SetChainId c; SetNonce nonce; SetGasPrice w1; SetGasLimit gas; SetDestination a; SetAmount w3; SetData data; SetAccessList (map (fun e => {| ali_address := fst e; ali_storage_keys := snd e |}) access_list)] ->
  exists p, fst (take_and_build K2930 (builder_after calls)) = Ok (P2930 p) /\
  forall o body t, so_zero o = false -> RLP (Lst (eip_2930_fields chain nonce vg gas a va data access_list)) = Some body -> sign_payload be fuel rng (P2930 p) sk o = Ret (Ok t) ->
  exists t' sg y, t = T2930 t' /\ 0 <= y <= 1 /\ sig_params sg = D /\
    1 <= bi_val (sig_r sg) <= e_order SECP256K1 - 1 /\ 1 <= bi_val (sig_s sg) <= e_order SECP256K1 - 1 /\ (so_low_s o = true -> bi_val (sig_s sg) <= e_order SECP256K1 / 2) /\
    verify (KECCAK256 (1 :: body)) sg pk = Ret (Ok true) /\ identifies be D t pk /\
    forall s, RLP (Lst (eip_2930_fields chain nonce vg gas a va data access_list ++ signature_fields y (bi_val (sig_r sg)) (bi_val (sig_s sg)))) = Some s ->
      Z.of_nat (length s) < 2 ^ 63 -> transaction_eip_2930_encode t' = Ret (1 :: s).
Proof. exact @P_Send.sent_2930_access. Qed.
Print Assumptions C82_eip_2930_access.
(** EIP-1559 with an access list. *)
Theorem C82_eip_1559_access : forall (cfg : digit_cfg) be fuel rng D sk pk, secp256k1 = Ret D -> code_sk sk -> sk_params sk = D -> public_key_of sk = Ret pk -> rng_ok rng ->
  forall chain nonce gas tp vp tf vf ta va hex a data access_list,
  0 <= chain < 2 ^ 64 -> 0 <= nonce < 2 ^ 64 - 1 -> 0 <= gas < 2 ^ 64 -> denotes 10 tp vp -> 0 <= vp -> denotes 10 tf vf -> 0 <= vf ->
  denotes 10 ta va -> 0 <= va -> digits_of 16 hex (nibbles a) -> bytes a -> length a = 20%nat -> bytes data -> Forall access_entry_ok access_list ->
  exists c w1 w2 w3, chain_id_from_u64 chain = Ret c /\ nonce_from_u64 nonce = Some nonce /\
    wei_from_decimal tp = Ret (Ok w1) /\ wei_from_decimal tf = Ret (Ok w2) /\ wei_from_decimal ta = Ret (Ok w3) /\ address_try_from (48 :: 120 :: hex) = Ok a /\
  forall calls, Permutation calls [SetChainId c; SetNonce nonce; SetMaxPriorityFee w1; SetMaxFee w2; SetGasLimit gas; SetDestination a; SetAmount w3; SetData data; SetAccessList (map (fun e => {| ali_address := fst e; ali_storage_keys := snd e |}) access_list)] ->
  exists p, fst (take_and_build K1559 (builder_after calls)) = Ok (P1559 p) /\
  forall o body t, so_zero o = false -> RLP (Lst (eip_1559_fields chain nonce vp vf gas a va data access_list)) = Some body -> sign_payload be fuel rng (P1559 p) sk o = Ret (Ok t) ->
  exists t' sg y, t = T1559 t' /\ 0 <= y <= 1 /\ sig_params sg = D /\
    1 <= bi_val (sig_r sg) <= e_order SECP256K1 - 1 /\ 1 <= bi_val (sig_s sg) <= e_order SECP256K1 - 1 /\ (so_low_s o = true -> bi_val (sig_s sg) <= e_order SECP256K1 / 2) /\
    verify (KECCAK256 (2 :: body)) sg pk = Ret (Ok true) /\ identifies be D t pk /\
    forall s, RLP (Lst (eip_1559_fields chain nonce vp vf gas a va data access_list ++ signature_fields y (bi_val (sig_r sg)) (bi_val (sig_s sg)))) = Some s ->
      Z.of_nat (length s) < 2 ^ 63 -> transaction_eip_1559_encode t' = Ret (2 :: s).
Proof. exact @P_Send.sent_1559_access. Qed.
Print Assumptions C82_eip_1559_access.
(** The example of EIP-155, from the texts to the published bytes: key 0x46..46, nonce 9, 20 gwei, 21000 gas, one ether, to 0x35..35. *)
Theorem C82_published_example : forall (cfg : digit_cfg) be rng, rng_ok rng -> exists D sk c w1 w3 p F,
  secp256k1 = Ret D /\ eoa_private_key_new (repeat 0x46 32) = Ret (Some sk) /\ code_sk sk /\ sk_params sk = D /\
  chain_id_of EthereumMainnet = Ret c /\ nonce_try_from 9 = Ok 9 /\ wei_try_from [50; 48; 48; 48; 48; 48; 48; 48; 48; 48; 48] = Ret (Ok w1) /\ wei_try_from (49 :: repeat 48 18) = Ret (Ok w3) /\
  address_try_from (48 :: 120 :: concat (repeat [51; 53] 20)) = Ok (repeat 0x35 20) /\
  fst (take_and_build K155 (builder_after [SetChainId c; SetNonce 9; SetGasPrice w1; SetGasLimit 21000; SetDestination (repeat 0x35 20); SetAmount w3])) = Ok (P155 p) /\
  forall fuel, (F <= fuel)%nat -> exists t, sign_payload be fuel rng (P155 p) sk (mkSO true true false false) = Ret (Ok (T155 t)) /\
    bi_val (t155_v t) = 37 /\ bi_val (t155_r t) = 0x28ef61340bd939bc2195fe537567866003e1a15d3c71ff63e1590620aa636276 /\ bi_val (t155_s t) = 0x67cbe9d8997f761aecb703304b3800ccf555c9f3dc64214b297fb1966a3b6d83 /\ encode encode_transaction_eip_155 t = Ret ([0xf8; 0x6c; 0x09; 0x85; 0x04; 0xa8; 0x17; 0xc8; 0x00; 0x82; 0x52; 0x08; 0x94] ++ repeat 0x35 20 ++
  [0x88; 0x0d; 0xe0; 0xb6; 0xb3; 0xa7; 0x64; 0x00; 0x00; 0x80; 0x25; 0xa0] ++ to_be 32 0x28ef61340bd939bc2195fe537567866003e1a15d3c71ff63e1590620aa636276 ++ [0xa0] ++ to_be 32 0x67cbe9d8997f761aecb703304b3800ccf555c9f3dc64214b297fb1966a3b6d83).
Proof. exact @P_Eip155.eip155_example. Qed.
Print Assumptions C82_published_example.
(** Its texts meet the hypotheses of the theorems above, and what they sign has an encoding. *)
Example C82_case : denotes 10 (49 :: repeat 48 18) 1000000000000000000 /\ denotes 10 [50; 48; 48; 48; 48; 48; 48; 48; 48; 48; 48] 20000000000 /\
  digits_of 16 (concat (repeat [51; 53] 20)) (nibbles (repeat 0x35 20)) /\ bytes (repeat 0x35 20) /\ Forall access_entry_ok [(repeat 1 20, [repeat 2 32; repeat 3 32])] /\
  (exists b, RLP (Lst (legacy_fields 9 20000000000 21000 (repeat 0x35 20) 1000000000000000000 [])) = Some b) /\
  (exists b, RLP (Lst (eip_1559_fields 1 9 1 20000000000 21000 (repeat 0x35 20) 1000000000000000000 [] [(repeat 1 20, [repeat 2 32; repeat 3 32])])) = Some b).
Proof. exact @P_Eip155.case155. Qed.

(** Signing a transaction never panics, ... *)
Theorem C82_no_panic : forall (cfg : digit_cfg) be rng D sk, secp256k1 = Ret D -> code_sk sk -> sk_params sk = D -> rng_ok rng ->
  forall p m, payload_ok p -> PREIMAGE p = Some m -> forall o fuel, sign_payload be fuel rng p sk o <> Panic.
Proof. exact @P_SendLive.tx_no_panic. Qed.
Print Assumptions C82_no_panic.
(** ... and returns exactly if some attempt has no randomness or a nonce that can sign, after attempts whose nonces cannot; ... *)
Theorem C82_returns_exactly : forall (cfg : digit_cfg) be rng D sk, secp256k1 = Ret D -> code_sk sk -> sk_params sk = D -> rng_ok rng ->
  forall p m, payload_ok p -> PREIMAGE p = Some m -> forall o, (so_zero o = false -> hash_int (e_order SECP256K1) (KECCAK256 m) <> 0) ->
  let attempt := nonce_of_attempt Sha256 (e_order SECP256K1) (bi_val (sk_data sk)) (KECCAK256 m) o rng in
  let signs k := ecdsa_sign SECP256K1 (bi_val (sk_data sk)) (hash_int (e_order SECP256K1) (KECCAK256 m)) k in
  (exists fuel r, sign_payload be fuel rng p sk o = Ret r) <->
  exists i, (forall j, (j < i)%nat -> exists k, attempt j k /\ signs k = None) /\ (no_randomness o rng i \/ exists k, attempt i k /\ signs k <> None).
Proof. exact @P_SendLive.tx_returns. Qed.
Print Assumptions C82_returns_exactly.
(** ... without additional random data, if the nonce of RFC 6979 can sign. *)
Theorem C82_deterministic_exactly : forall (cfg : digit_cfg) be rng D sk, secp256k1 = Ret D -> code_sk sk -> sk_params sk = D -> rng_ok rng ->
  forall p m, payload_ok p -> PREIMAGE p = Some m -> forall o, (so_zero o = false -> hash_int (e_order SECP256K1) (KECCAK256 m) <> 0) -> so_extra o = false ->
  (exists fuel r, sign_payload be fuel rng p sk o = Ret r) <->
  exists k, RFC6979 Sha256 (e_order SECP256K1) (bi_val (sk_data sk)) (KECCAK256 m) [] k /\
    ecdsa_sign SECP256K1 (bi_val (sk_data sk)) (hash_int (e_order SECP256K1) (KECCAK256 m)) k <> None.
Proof. exact @P_SendLive.tx_returns_deterministic. Qed.
Print Assumptions C82_deterministic_exactly.

(** Model of the functions take_and_sign_with_options of src/blockchain/ethereum/transaction/types. *)

From Verif Require Import Base M_Parity M_BigInt M_BigText M_Curve M_Hmac M_Random M_Ecdsa M_Rfc6979 M_Rlp M_EthTypes M_Tx M_Eoa.
Open Scope Z_scope.

(** builder.rs:15-20, TransactionBuildingError::SigningError, the only error of the functions below *)
Inductive signing_failure := SigningError (e : signing_error).

(** A signed transaction. *)
Inductive transaction := TLegacy (t : TransactionLegacy) | T155 (t : TransactionEip155) | T2930 (t : TransactionEip2930) | T1559 (t : TransactionEip1559).

Section WithCfg.
Context {cfg : digit_cfg}.

(** The bytes of the RLP list of a transaction (for EIP-2930 and EIP-1559 without the type), and reading them, for each type. *)
Definition encode_transaction (t : transaction) : outcome (list Z) :=
  match t with
  | TLegacy t => encode encode_transaction_legacy t
  | T155 t => encode encode_transaction_eip_155 t
  | T2930 t => encode encode_transaction_eip_2930 t
  | T1559 t => encode encode_transaction_eip_1559 t
  end.
Definition decode_transaction (dbg : bool) (k : payload_kind) (data : list Z) : outcome (result RlpDataDecodingError transaction) :=
  match k with
  | KLegacy => r <- decode dbg (decode_transaction_legacy dbg) data ;; Ret (res_map TLegacy r)
  | K155 => r <- decode dbg (decode_transaction_eip_155 dbg) data ;; Ret (res_map T155 r)
  | K2930 => r <- decode dbg (decode_transaction_eip_2930 dbg) data ;; Ret (res_map T2930 r)
  | K1559 => r <- decode dbg (decode_transaction_eip_1559 dbg) data ;; Ret (res_map T1559 r)
  end.

Variable be : bool.
Variable fuel : nat.
(** the i-th reply of the source of randomness *)
Variable rng : nat -> outcome (result get_os_random_bytes_error (list Z)).

(** types/transaction_legacy.rs:30-54 *)
Definition sign_payload_legacy (p : PayloadLegacy) (sk : private_key) (o : signing_options) : outcome (result signing_failure TransactionLegacy) :=
  rlp_data <- encode encode_payload_legacy p ;;
  hash <- keccak256_digest be rlp_data ;;
  res <- sign_with_options be fuel hash sk o rng ;;
  '(signature, recovery_id) <-? Ret (map_err SigningError res) ;;
  r <- unwrap (bu_from_bigint (sig_r signature)) ;;
  s <- unwrap (bu_from_bigint (sig_s signature)) ;;
  let v := 27 + y_parity_u8 (recid_y_parity recovery_id) in
  Ret (Ok {| tl_payload := p; tl_v := v; tl_r := r; tl_s := s |}).

(** types/transaction_eip_155.rs:30-56 *)
Definition sign_payload_eip_155 (p : PayloadEip155) (sk : private_key) (o : signing_options) : outcome (result signing_failure TransactionEip155) :=
  rlp_data <- encode encode_payload_eip_155 p ;;
  hash <- keccak256_digest be rlp_data ;;
  res <- sign_with_options be fuel hash sk o rng ;;
  '(signature, recovery_id) <-? Ret (map_err SigningError res) ;;
  r <- unwrap (bu_from_bigint (sig_r signature)) ;;
  s <- unwrap (bu_from_bigint (sig_s signature)) ;;
  n <- bu_from_uint (y_parity_u8 (recid_y_parity recovery_id)) ;;
  n_2 <- bu_from_uint 2 ;;
  m <- bu_mul (p155_chain_id p) n_2 ;;
  n <- bu_add n m ;;
  n_35 <- bu_from_uint 35 ;;
  v <- bu_add n n_35 ;;
  Ret (Ok {| t155_payload := p; t155_v := v; t155_r := r; t155_s := s |}).

(** types/transaction_eip_2930.rs:31-61 *)
Definition sign_payload_eip_2930 (p : PayloadEip2930) (sk : private_key) (o : signing_options) : outcome (result signing_failure TransactionEip2930) :=
  payload_rlp_data <- encode encode_payload_eip_2930 p ;;
  let message := eip_2930_type :: payload_rlp_data in
  hash <- keccak256_digest be message ;;
  res <- sign_with_options be fuel hash sk o rng ;;
  '(signature, recovery_id) <-? Ret (map_err SigningError res) ;;
  let y_parity := recid_y_parity recovery_id in
  r <- unwrap (bu_from_bigint (sig_r signature)) ;;
  s <- unwrap (bu_from_bigint (sig_s signature)) ;;
  Ret (Ok {| t2930_payload := p; t2930_y_parity := y_parity; t2930_r := r; t2930_s := s |}).

(** types/transaction_eip_1559.rs:31-57 *)
Definition sign_payload_eip_1559 (p : PayloadEip1559) (sk : private_key) (o : signing_options) : outcome (result signing_failure TransactionEip1559) :=
  payload_rlp_data <- encode encode_payload_eip_1559 p ;;
  let message := eip_1559_type :: payload_rlp_data in
  hash <- keccak256_digest be message ;;
  res <- sign_with_options be fuel hash sk o rng ;;
  '(signature, recovery_id) <-? Ret (map_err SigningError res) ;;
  let y_parity := recid_y_parity recovery_id in
  r <- unwrap (bu_from_bigint (sig_r signature)) ;;
  s <- unwrap (bu_from_bigint (sig_s signature)) ;;
  Ret (Ok {| t1559_payload := p; t1559_y_parity := y_parity; t1559_r := r; t1559_s := s |}).

(** The four functions, as one. *)
Definition sign_payload (p : payload) (sk : private_key) (o : signing_options) : outcome (result signing_failure transaction) :=
  match p with
  | PLegacy p => r <- sign_payload_legacy p sk o ;; Ret (res_map TLegacy r)
  | P155 p => r <- sign_payload_eip_155 p sk o ;; Ret (res_map T155 r)
  | P2930 p => r <- sign_payload_eip_2930 p sk o ;; Ret (res_map T2930 r)
  | P1559 p => r <- sign_payload_eip_1559 p sk o ;; Ret (res_map T1559 r)
  end.
End WithCfg.

(** Model of the messages ([Display]) of the library's errors.  Those of CodecsError, RlpDataDecodingError and
    GetOsRandomBytesError are in M_Examples.v. *)

From Coq Require Import String.
From Verif Require Import Base M_Codec M_BigInt M_BigText M_Random M_Ecdsa M_Rfc6979 M_Encoding M_Ssz M_Tx M_TxSign M_Display M_Examples.
Open Scope Z_scope.
Local Open Scope list_scope.

(** src/bigint/bigint_new.rs:157-164 *)
Definition parse_int_error_display (e : parse_int_error) : list Z :=
  match e with PCodecs err => txt "Codecs error: " ++ codecs_error_display err | PInvalidInput => txt "Invalid input" end.

(** src/crypto/ecdsa/ecdsa_core.rs:256-259 *)
Definition EMPTY_HASH_NOT_ALLOWED_ERROR_DISPLAY : list Z := txt "Empty hash is not allowed".
Definition ZERO_HASH_NOT_ALLOWED_ERROR_DISPLAY : list Z := txt "Zero hash is not allowed".
Definition HASH_BIT_LENGTH_DOES_NOT_MATCH_BASE_POINT_ORDER_ERROR_DISPLAY : list Z :=
  txt "Hash length in bits doesn't equal to the order of the base point in bits".

(** src/crypto/rfc6979.rs:151-159 *)
Definition nonce_error_display (e : generate_nonce_error) : list Z :=
  match e with FailedToGenerateRandomBytes err => txt "Failed to generate random bytes: " ++ random_error_display err end.
(** src/crypto/ecdsa/ecdsa_signing.rs:134-155 *)
Definition signing_error_display (e : signing_error) : list Z :=
  match e with
  | SEmptyHash => EMPTY_HASH_NOT_ALLOWED_ERROR_DISPLAY
  | SZeroHash => ZERO_HASH_NOT_ALLOWED_ERROR_DISPLAY
  | SHashBitLength => HASH_BIT_LENGTH_DOES_NOT_MATCH_BASE_POINT_ORDER_ERROR_DISPLAY
  | SFailedToGenerateNonce err => txt "Failed to generate deterministic nonce: " ++ nonce_error_display err
  end.
(** src/crypto/ecdsa/ecdsa_verifying.rs:83-104 *)
Definition verifying_error_display (e : verifying_error) : list Z :=
  match e with
  | VEmptyHash => EMPTY_HASH_NOT_ALLOWED_ERROR_DISPLAY
  | VZeroHash => ZERO_HASH_NOT_ALLOWED_ERROR_DISPLAY
  | VStrictHighS => txt "A ""high s"" is found when ""low s"" is enforced"
  | VHashBitLength => HASH_BIT_LENGTH_DOES_NOT_MATCH_BASE_POINT_ORDER_ERROR_DISPLAY
  end.
(** src/crypto/ecdsa/ecdsa_public_key_recovery.rs:176-197 *)
Definition recovery_error_display (e : recovery_error) : list Z :=
  match e with
  | REmptyHash => EMPTY_HASH_NOT_ALLOWED_ERROR_DISPLAY
  | RZeroHash => ZERO_HASH_NOT_ALLOWED_ERROR_DISPLAY
  | RHashBitLength => HASH_BIT_LENGTH_DOES_NOT_MATCH_BASE_POINT_ORDER_ERROR_DISPLAY
  | RInvalidSignature => txt "Invalid Signature"
  end.
(** src/crypto/sec1.rs:26-36 *)
Definition point_error_display (e : point_decoding_error) : list Z :=
  match e with
  | PDInvalidFormat => txt "Invalid format"
  | PDInvalidX => txt "Invalid x"
  | PDInvalidY => txt "Invalid y"
  | PDYNotFound => txt "Y not found"
  | PDInvalidPoint => txt "Invalid point"
  end.
(** src/crypto/p1363.rs:26-33 *)
Definition signature_error_display (e : signature_decoding_error) : list Z :=
  match e with SDInvalidFormat => txt "Invalid format" | SDInvalidSignature => txt "Invalid signature" end.
(** src/blockchain/ethereum/ssz/decoder.rs:33-41 *)
Definition ssz_error_display (e : SszDataDecodingError) : list Z := match e with SszInvalidFormat => txt "Invalid format" end.
(** src/blockchain/ethereum/transaction/builder.rs:22-29; the two variants are in M_Tx.v and M_TxSign.v *)
Definition building_error_display (e : TransactionBuildingError + signing_failure) : list Z :=
  match e with
  | inl MissingFields => txt "Some fields are missing"
  | inr (SigningError err) => txt "Signing error: " ++ signing_error_display err
  end.

(** Model of src/blockchain/ethereum/account/eoa.rs. *)

From Verif Require Import Base M_BigInt M_BigText M_Curve M_Hmac M_Ecdsa M_EthTypes.
Open Scope Z_scope.

(** [Keccak256::new().digest(bytes)]; [be]: big-endian target *)
Definition keccak256_digest (be : bool) (bs : list Z) : outcome (list Z) :=
  '(d, _) <- h_digest (hasher_of be Keccak256) (h_new (hasher_of be Keccak256)) bs ;; Ret d.

Section WithCfg.
Context {cfg : digit_cfg}.

(** eoa.rs:20 and 23-26: an EOA private key is a private key; the argument is an array of 32 bytes *)
Definition eoa_private_key_new (data : list Z) : outcome (option private_key) :=
  d <- bi_from_be_bytes data Positive ;;
  D <- secp256k1 ;;
  private_key_new d D.
(** eoa.rs:28-30 and 34 *)
Definition eoa_public_key (sk : private_key) : outcome public_key := public_key_of sk.
(** eoa.rs:37-41 *)
Definition eoa_address (be : bool) (pk : public_key) : outcome (list Z) :=
  bs <- point_to_bytes (pk_params pk) (pk_data pk) ;;
  d <- keccak256_digest be bs ;;
  d' <- slice_from d 12 ;;
  unwrap (address_from_bytes d').
End WithCfg.

(** Specification: the hash functions as functions from byte strings to byte
    strings, and HMAC (RFC 2104) over them. *)

From Verif Require Import Base M_Hmac.
From Verif Require S_Sha2 S_Sha3.
Open Scope Z_scope.

(** cut a bit string into groups of 8 *)
Definition octets (l : list bool) : list (list bool) :=
  map (fun i => firstn 8 (skipn (i * 8) l)) (seq 0 (Nat.div (length l) 8)).
(** first bit most significant (FIPS 180-4) / least significant (FIPS 202) *)
Definition bytes_of_bits (l : list bool) : list Z := map S_Sha2.Z_of_bits (octets l).
Definition bytes_of_bits_le (l : list bool) : list Z := map (fun o => S_Sha2.Z_of_bits (rev o)) (octets l).

Definition on_bytes (f : list bool -> list bool) (m : list Z) : list Z :=
  bytes_of_bits (f (S_Sha2.bits_of_bytes m)).
Definition on_bytes_le (f : list bool -> list bool) (m : list Z) : list Z :=
  bytes_of_bits_le (f (S_Sha3.bits_of_bytes_le m)).

(** the hash function of each name *)
Definition HASH (n : hash_name) : list Z -> list Z :=
  match n with
  | Sha256 => on_bytes S_Sha2.SHA256
  | Sha384 => on_bytes S_Sha2.SHA384
  | Sha512 => on_bytes S_Sha2.SHA512
  | Sha3_224 => on_bytes_le S_Sha3.SHA3_224
  | Sha3_256 => on_bytes_le S_Sha3.SHA3_256
  | Sha3_384 => on_bytes_le S_Sha3.SHA3_384
  | Sha3_512 => on_bytes_le S_Sha3.SHA3_512
  | Keccak256 => on_bytes_le S_Sha3.Keccak_256
  end.

(** digest length and block length B in bytes (FIPS 180-4 figure 1, FIPS 202 table 3) *)
Definition out_len (n : hash_name) : nat :=
  match n with
  | Sha256 | Sha3_256 | Keccak256 => 32 | Sha384 | Sha3_384 => 48 | Sha512 | Sha3_512 => 64 | Sha3_224 => 28
  end%nat.
Definition block_len (n : hash_name) : nat :=
  match n with
  | Sha256 => 64 | Sha384 | Sha512 => 128
  | Sha3_224 => 144 | Sha3_256 | Keccak256 => 136 | Sha3_384 => 104 | Sha3_512 => 72
  end%nat.

(** messages of [len] bytes are within the bound of the function: SHA-2 code counts
    the bits of the message in a u64, Keccak has no bound *)
Definition fits (n : hash_name) (len : nat) : Prop :=
  match n with
  | Sha256 | Sha384 | Sha512 => 8 * Z.of_nat len < 2 ^ 64
  | _ => True
  end.

(** ** RFC 2104: H(K XOR opad, H(K XOR ipad, text)) *)
Section RFC2104.
Variable H : list Z -> list Z.
Variable B : nat.
Definition xor_pad (k : list Z) (p : Z) : list Z := map (fun x => Z.lxor x p) k.
(** keys longer than B bytes are hashed; then zeros are appended up to length B *)
Definition key_block (key : list Z) : list Z :=
  let k := if Nat.ltb B (length key) then H key else key in
  k ++ repeat 0 (B - length k).
Definition HMAC (key text : list Z) : list Z :=
  H (xor_pad (key_block key) 0x5c ++ H (xor_pad (key_block key) 0x36 ++ text)).
End RFC2104.

(** The arrays in a hasher object have the lengths given by their Rust types: u32 state
    [8] and schedule [64], u64 state [8] and schedule [80], u64 Keccak state [25]. *)
Definition obj (n : hash_name) : forall be, h_state (hasher_of be n) -> Prop :=
  match n as n return forall be, h_state (hasher_of be n) -> Prop with
  | Sha256 => fun _ s => length (fst s) = 8%nat /\ length (snd s) = 64%nat
  | Sha384 => fun _ s => length (fst s) = 8%nat /\ length (snd s) = 80%nat
  | Sha512 => fun _ s => length (fst s) = 8%nat /\ length (snd s) = 80%nat
  | Sha3_224 => fun _ s => length s = 25%nat
  | Sha3_256 => fun _ s => length s = 25%nat
  | Sha3_384 => fun _ s => length s = 25%nat
  | Sha3_512 => fun _ s => length s = 25%nat
  | Keccak256 => fun _ s => length s = 25%nat
  end.

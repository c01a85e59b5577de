(** Model of src/crypto/hash/sha3/core.rs and of the five hashers built on it.

    The state [s] is a list of 25 u64, [bc] a list of 5.  Indices are literals
    or table entries below the fixed array lengths, no bounds check is modelled.
    [be] says whether the target is big-endian ([target_endian = "big"]): the
    code reads and writes the bytes of the state in native byte order. *)

From Verif Require Import Base M_Word.
Open Scope Z_scope.

(** src/crypto/hash/sha3/core.rs:152-156 *)
Definition KECCAKF_WIDTH_BYTE_SIZE : nat := 200.
Definition KECCAKF_ROUNDS : nat := 24.
Definition KECCAK_DELIMITER_SUFFIX_KECCAK : Z := 0x01.
Definition KECCAK_DELIMITER_SUFFIX_SHA3 : Z := 0x06.

(** src/crypto/hash/sha3/core.rs:159-166 *)
Definition KECCAKF_RNDC : list Z :=
  [0x0000000000000001; 0x0000000000008082; 0x800000000000808a; 0x8000000080008000;
   0x000000000000808b; 0x0000000080000001; 0x8000000080008081; 0x8000000000008009;
   0x000000000000008a; 0x0000000000000088; 0x0000000080008009; 0x000000008000000a;
   0x000000008000808b; 0x800000000000008b; 0x8000000000008089; 0x8000000000008003;
   0x8000000000008002; 0x8000000000000080; 0x000000000000800a; 0x800000008000000a;
   0x8000000080008081; 0x8000000000008080; 0x0000000080000001; 0x8000000080008008].

(** src/crypto/hash/sha3/core.rs:168-170 *)
Definition KECCAKF_ROTC : list Z :=
  [1; 3; 6; 10; 15; 21; 28; 36; 45; 55; 2; 14;
   27; 41; 56; 8; 25; 43; 62; 18; 39; 61; 20; 44].

(** src/crypto/hash/sha3/core.rs:172-174 *)
Definition KECCAKF_PILN : list nat :=
  [10; 7; 11; 17; 18; 3; 5; 16; 8; 21; 24; 4;
   15; 23; 19; 13; 12; 2; 20; 14; 22; 9; 6; 1]%nat.

(** src/crypto/hash/sha3/core.rs:177-181, theta_step1_iteration!: new [bc] *)
Definition theta_step1 (bc s : list Z) (i i_5 i_10 i_15 i_20 : nat) : list Z :=
  upd i (Z.lxor (Z.lxor (Z.lxor (Z.lxor (nth i s 0) (nth i_5 s 0)) (nth i_10 s 0)) (nth i_15 s 0)) (nth i_20 s 0)) bc.

(** [s[i] ^= t] *)
Definition xor_at (i : nat) (t : Z) (s : list Z) : list Z := upd i (Z.lxor (nth i s 0) t) s.

(** src/crypto/hash/sha3/core.rs:191-202, theta_step2_iteration!: new [s] *)
Definition theta_step2 (bc s : list Z) (i i_4_rem_5 i_1_rem_5 i_5 i_10 i_15 i_20 : nat) : list Z :=
  let t := Z.lxor (nth i_4_rem_5 bc 0) (rotate_left 64 (nth i_1_rem_5 bc 0) 1) in
  let s := xor_at i t s in
  let s := xor_at i_5 t s in
  let s := xor_at i_10 t s in
  let s := xor_at i_15 t s in
  xor_at i_20 t s.

(** src/crypto/hash/sha3/core.rs:211-218, rho_pi_iteration!: new [bc] and [s] *)
Definition rho_pi (bc s : list Z) (t : Z) (i : nat) : list Z * list Z :=
  let j := nth i KECCAKF_PILN 0%nat in
  let bc := upd 0 (nth j s 0) bc in
  (bc, upd j (rotate_left 64 t (nth i KECCAKF_ROTC 0)) s).

(** src/crypto/hash/sha3/core.rs:228-238, chi_iteration!: new [bc] and [s] *)
Definition chi (bc s : list Z) (j : nat) : list Z * list Z :=
  let bc := firstn 5 (skipn j s) ++ skipn 5 bc in
  let s := xor_at j (Z.land (wnot 64 (nth 1 bc 0)) (nth 2 bc 0)) s in
  let s := xor_at (j + 1) (Z.land (wnot 64 (nth 2 bc 0)) (nth 3 bc 0)) s in
  let s := xor_at (j + 2) (Z.land (wnot 64 (nth 3 bc 0)) (nth 4 bc 0)) s in
  let s := xor_at (j + 3) (Z.land (wnot 64 (nth 4 bc 0)) (nth 0 bc 0)) s in
  let s := xor_at (j + 4) (Z.land (wnot 64 (nth 0 bc 0)) (nth 1 bc 0)) s in
  (bc, s).

(** src/crypto/hash/sha3/core.rs:76-92: theta *)
Definition theta_steps (bc s : list Z) : list Z * list Z :=
  let bc := theta_step1 bc s 0 5 10 15 20 in
  let bc := theta_step1 bc s 1 6 11 16 21 in
  let bc := theta_step1 bc s 2 7 12 17 22 in
  let bc := theta_step1 bc s 3 8 13 18 23 in
  let bc := theta_step1 bc s 4 9 14 19 24 in
  let s := theta_step2 bc s 0 4 1 5 10 15 20 in
  let s := theta_step2 bc s 1 0 2 6 11 16 21 in
  let s := theta_step2 bc s 2 1 3 7 12 17 22 in
  let s := theta_step2 bc s 3 2 4 8 13 18 23 in
  let s := theta_step2 bc s 4 3 0 9 14 19 24 in
  (bc, s).

(** src/crypto/hash/sha3/core.rs:102-125: rho and pi *)
Definition rho_pi_steps (bc s : list Z) : list Z * list Z :=
  let '(bc, s) := rho_pi bc s (nth 1 s 0) 0 in
  let '(bc, s) := rho_pi bc s (nth 0 bc 0) 1 in
  let '(bc, s) := rho_pi bc s (nth 0 bc 0) 2 in
  let '(bc, s) := rho_pi bc s (nth 0 bc 0) 3 in
  let '(bc, s) := rho_pi bc s (nth 0 bc 0) 4 in
  let '(bc, s) := rho_pi bc s (nth 0 bc 0) 5 in
  let '(bc, s) := rho_pi bc s (nth 0 bc 0) 6 in
  let '(bc, s) := rho_pi bc s (nth 0 bc 0) 7 in
  let '(bc, s) := rho_pi bc s (nth 0 bc 0) 8 in
  let '(bc, s) := rho_pi bc s (nth 0 bc 0) 9 in
  let '(bc, s) := rho_pi bc s (nth 0 bc 0) 10 in
  let '(bc, s) := rho_pi bc s (nth 0 bc 0) 11 in
  let '(bc, s) := rho_pi bc s (nth 0 bc 0) 12 in
  let '(bc, s) := rho_pi bc s (nth 0 bc 0) 13 in
  let '(bc, s) := rho_pi bc s (nth 0 bc 0) 14 in
  let '(bc, s) := rho_pi bc s (nth 0 bc 0) 15 in
  let '(bc, s) := rho_pi bc s (nth 0 bc 0) 16 in
  let '(bc, s) := rho_pi bc s (nth 0 bc 0) 17 in
  let '(bc, s) := rho_pi bc s (nth 0 bc 0) 18 in
  let '(bc, s) := rho_pi bc s (nth 0 bc 0) 19 in
  let '(bc, s) := rho_pi bc s (nth 0 bc 0) 20 in
  let '(bc, s) := rho_pi bc s (nth 0 bc 0) 21 in
  let '(bc, s) := rho_pi bc s (nth 0 bc 0) 22 in
  let '(bc, s) := rho_pi bc s (nth 0 bc 0) 23 in
  (bc, s).

(** src/crypto/hash/sha3/core.rs:134-138: chi *)
Definition chi_steps (bc s : list Z) : list Z * list Z :=
  let '(bc, s) := chi bc s 0 in
  let '(bc, s) := chi bc s 5 in
  let '(bc, s) := chi bc s 10 in
  let '(bc, s) := chi bc s 15 in
  let '(bc, s) := chi bc s 20 in
  (bc, s).

(** src/crypto/hash/sha3/core.rs:71-141: one round; new [bc] and [s] *)
Definition keccak_round (r : nat) (bcs : list Z * list Z) : list Z * list Z :=
  let '(bc, s) := bcs in
  let '(bc, s) := theta_steps bc s in
  let '(bc, s) := rho_pi_steps bc s in
  let '(bc, s) := chi_steps bc s in
  (bc, xor_at 0 (nth r KECCAKF_RNDC 0) s).

(** [e.swap_bytes()] on u64 *)
Definition swap_bytes (e : Z) : Z := le_val (to_be 8 e).

(** src/crypto/hash/sha3/core.rs:61-148, sha3_keccakf *)
Definition sha3_keccakf (be : bool) (s : list Z) : list Z :=
  let bc := repeat 0 5 in
  let s := if be then map swap_bytes s else s in
  let '(bc, s) := fold_left (fun bcs r => keccak_round r bcs) (seq 0 KECCAKF_ROUNDS) (bc, s) in
  if be then map swap_bytes s else s.

(** [u64::from_ne_bytes] and the bytes of a u64 in memory *)
Definition from_ne (be : bool) (l : list Z) : Z := if be then be_val l else le_val l.
Definition to_ne (be : bool) (v : Z) : list Z := if be then to_be 8 v else to_le 8 v.
(** [transmute] between [[u64; 25]] and [[u8; 200]] *)
Definition state_bytes (be : bool) (s : list Z) : list Z := flat_map (to_ne be) s.
Definition state_words (be : bool) (b : list Z) : list Z := map (from_ne be) (chunks_exact 8 b).

(** src/crypto/hash/sha3/core.rs:30-38: one complete block *)
Definition absorb_block (be : bool) (block s : list Z) : list Z :=
  sha3_keccakf be (zip_xor (map (from_ne be) (chunks_exact 8 block)) s).

(** src/crypto/hash/sha3/core.rs:46-50:
    [for &byte in block { *iter.next().unwrap() ^= byte }], then the suffix *)
Fixpoint xor_iter (block : list Z) (suffix : Z) (s_bytes : list Z) : outcome (list Z) :=
  match block, s_bytes with
  | _, [] => Panic
  | [], y :: t => Ret (Z.lxor y suffix :: t)
  | b :: block', y :: t => r <- xor_iter block' suffix t ;; Ret (Z.lxor y b :: r)
  end.

(** src/crypto/hash/sha3/core.rs:17-59, sha3_digest: the digest and the new state *)
Definition sha3_digest (be : bool) (message s : list Z) (output_byte_size : nat) (delimiter_suffix : Z) :
  outcome (list Z * list Z) :=
  let s := repeat 0 (length s) in
  assert! (Nat.leb (2 * output_byte_size) KECCAKF_WIDTH_BYTE_SIZE) ;;
  let rate_byte_size := (KECCAKF_WIDTH_BYTE_SIZE - 2 * output_byte_size)%nat in
  assert! (Nat.eqb (Nat.modulo rate_byte_size 8) 0) ;;
  let s := fold_left (fun s block => absorb_block be block s) (chunks_exact rate_byte_size message) s in
  let s_bytes := state_bytes be s in
  let block := remainder rate_byte_size message in
  s_bytes <- (match block with
              | [] => t <- index s_bytes 0 ;; Ret (upd 0 (Z.lxor t delimiter_suffix) s_bytes)
              | _ => xor_iter block delimiter_suffix s_bytes
              end) ;;
  t <- index s_bytes (rate_byte_size - 1) ;;
  let s_bytes := upd (rate_byte_size - 1) (Z.lxor t 0x80) s_bytes in
  let s := state_words be s_bytes in
  let s := sha3_keccakf be s in
  digest <- slice_to (state_bytes be s) output_byte_size ;;
  Ret (digest, s).

(** UnkeyedHash::digest for a hasher of output length [n] and a suffix:
    sha3_224.rs:36-45, sha3_256.rs:36-45, sha3_384.rs:36-45, sha3_512.rs:36-45,
    keccak256.rs:36-45 in src/crypto/hash/sha3 *)
Definition sha3_hasher (be : bool) (n : nat) (suffix : Z) (s message : list Z) : outcome (list Z * list Z) :=
  '(result, s) <- sha3_digest be message s n suffix ;;
  assert! (Nat.eqb (length result) n) ;;
  Ret (result, s).

(** src/crypto/hash/sha3/keccak256.rs:12-20 and the same lines of the other hashers *)
Definition sha3_new : list Z := repeat 0 25.

(** src/crypto/hash/sha3/sha3_224.rs:28-46 *)
Definition sha3_224 (be : bool) := sha3_hasher be 28 KECCAK_DELIMITER_SUFFIX_SHA3.
(** src/crypto/hash/sha3/sha3_256.rs:28-46 *)
Definition sha3_256 (be : bool) := sha3_hasher be 32 KECCAK_DELIMITER_SUFFIX_SHA3.
(** src/crypto/hash/sha3/sha3_384.rs:28-46 *)
Definition sha3_384 (be : bool) := sha3_hasher be 48 KECCAK_DELIMITER_SUFFIX_SHA3.
(** src/crypto/hash/sha3/sha3_512.rs:28-46 *)
Definition sha3_512 (be : bool) := sha3_hasher be 64 KECCAK_DELIMITER_SUFFIX_SHA3.
(** src/crypto/hash/sha3/keccak256.rs:28-46 *)
Definition keccak256 (be : bool) := sha3_hasher be 32 KECCAK_DELIMITER_SUFFIX_KECCAK.

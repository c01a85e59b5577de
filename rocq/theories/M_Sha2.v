(** Model of src/crypto/hash/sha2/core.rs, sha256.rs and sha384_512.rs.

    The mutable arrays [s] (8 words) and [w] (64 or 80 words) of a hasher are
    lists.  Every index into them is a literal or a loop constant below the
    fixed length of the array, so no bounds check is modelled. *)

From Verif Require Import Base M_Word.
Open Scope Z_scope.

(** src/crypto/hash/sha2/core.rs:16-25, calculate_k (u64 arithmetic, checked) *)
Definition calculate_k (l b l_b : Z) : outcome Z :=
  t0 <- u64_mul 2 b ;;
  t1 <- u64_add (l mod b) 1 ;;
  t2 <- u64_add t1 l_b ;;
  k <- u64_sub t0 t2 ;;
  if b <=? k then u64_sub k b else Ret k.

(** * SHA-256 *)

(** src/crypto/hash/sha2/sha256.rs:194-197, ch *)
Definition ch32 (x y z : Z) : Z := Z.lxor (Z.land x y) (Z.land (wnot 32 x) z).
(** src/crypto/hash/sha2/sha256.rs:200-203, maj *)
Definition maj32 (x y z : Z) : Z :=
  Z.lxor (Z.lxor (Z.land x y) (Z.land x z)) (Z.land y z).
(** src/crypto/hash/sha2/sha256.rs:206-209, sigma0 *)
Definition sigma0_32 (x : Z) : Z :=
  Z.lxor (Z.lxor (rotate_right 32 x 2) (rotate_right 32 x 13)) (rotate_right 32 x 22).
(** src/crypto/hash/sha2/sha256.rs:212-215, sigma1 *)
Definition sigma1_32 (x : Z) : Z :=
  Z.lxor (Z.lxor (rotate_right 32 x 6) (rotate_right 32 x 11)) (rotate_right 32 x 25).
(** src/crypto/hash/sha2/sha256.rs:218-221, gamma0 *)
Definition gamma0_32 (x : Z) : Z :=
  Z.lxor (Z.lxor (rotate_right 32 x 7) (rotate_right 32 x 18)) (Z.shiftr x 3).
(** src/crypto/hash/sha2/sha256.rs:224-227, gamma1 *)
Definition gamma1_32 (x : Z) : Z :=
  Z.lxor (Z.lxor (rotate_right 32 x 17) (rotate_right 32 x 19)) (Z.shiftr x 10).

(** src/crypto/hash/sha2/core.rs:28-45, macro rnd!, at the word type of sha256.rs.
    The macro reassigns the variables passed as [d] and [h]: the result is the
    pair of their new values. *)
Definition rnd32 (a b c d e f g h w_i k_i : Z) : Z * Z :=
  let t0 := wrapping_add 32 (wrapping_add 32 (wrapping_add 32 (wrapping_add 32 h (sigma1_32 e)) (ch32 e f g)) k_i) w_i in
  let t1 := wrapping_add 32 (sigma0_32 a) (maj32 a b c) in
  (wrapping_add 32 d t0, wrapping_add 32 t0 t1).

(** src/crypto/hash/sha2/sha256.rs:88-93: loads the block into w[0..15] *)
Definition load32 (block w : list Z) : list Z :=
  let words := firstn 16 (map be_val (chunks_exact 4 block)) in
  words ++ skipn (length words) w.

(** src/crypto/hash/sha2/sha256.rs:96-101: expands the message block *)
Definition expand32 (w : list Z) : list Z :=
  fold_left
    (fun w i =>
       upd i (wrapping_add 32 (wrapping_add 32 (wrapping_add 32 (gamma1_32 (nth (i - 2) w 0))
                (nth (i - 7) w 0)) (gamma0_32 (nth (i - 15) w 0))) (nth (i - 16) w 0)) w)
    (seq 16 48) w.

(** src/crypto/hash/sha2/sha256.rs:104-190: the rounds, for a round function [rnd] *)
Definition rounds32_with (rnd : Z -> Z -> Z -> Z -> Z -> Z -> Z -> Z -> Z -> Z -> Z * Z) (s w : list Z) : list Z :=
  let a := nth 0 s 0 in
  let b := nth 1 s 0 in
  let c := nth 2 s 0 in
  let d := nth 3 s 0 in
  let e := nth 4 s 0 in
  let f := nth 5 s 0 in
  let g := nth 6 s 0 in
  let h := nth 7 s 0 in
  let '(d, h) := rnd a b c d e f g h (nth 0 w 0) 0x428a2f98 in
  let '(c, g) := rnd h a b c d e f g (nth 1 w 0) 0x71374491 in
  let '(b, f) := rnd g h a b c d e f (nth 2 w 0) 0xb5c0fbcf in
  let '(a, e) := rnd f g h a b c d e (nth 3 w 0) 0xe9b5dba5 in
  let '(h, d) := rnd e f g h a b c d (nth 4 w 0) 0x3956c25b in
  let '(g, c) := rnd d e f g h a b c (nth 5 w 0) 0x59f111f1 in
  let '(f, b) := rnd c d e f g h a b (nth 6 w 0) 0x923f82a4 in
  let '(e, a) := rnd b c d e f g h a (nth 7 w 0) 0xab1c5ed5 in
  let '(d, h) := rnd a b c d e f g h (nth 8 w 0) 0xd807aa98 in
  let '(c, g) := rnd h a b c d e f g (nth 9 w 0) 0x12835b01 in
  let '(b, f) := rnd g h a b c d e f (nth 10 w 0) 0x243185be in
  let '(a, e) := rnd f g h a b c d e (nth 11 w 0) 0x550c7dc3 in
  let '(h, d) := rnd e f g h a b c d (nth 12 w 0) 0x72be5d74 in
  let '(g, c) := rnd d e f g h a b c (nth 13 w 0) 0x80deb1fe in
  let '(f, b) := rnd c d e f g h a b (nth 14 w 0) 0x9bdc06a7 in
  let '(e, a) := rnd b c d e f g h a (nth 15 w 0) 0xc19bf174 in
  let '(d, h) := rnd a b c d e f g h (nth 16 w 0) 0xe49b69c1 in
  let '(c, g) := rnd h a b c d e f g (nth 17 w 0) 0xefbe4786 in
  let '(b, f) := rnd g h a b c d e f (nth 18 w 0) 0x0fc19dc6 in
  let '(a, e) := rnd f g h a b c d e (nth 19 w 0) 0x240ca1cc in
  let '(h, d) := rnd e f g h a b c d (nth 20 w 0) 0x2de92c6f in
  let '(g, c) := rnd d e f g h a b c (nth 21 w 0) 0x4a7484aa in
  let '(f, b) := rnd c d e f g h a b (nth 22 w 0) 0x5cb0a9dc in
  let '(e, a) := rnd b c d e f g h a (nth 23 w 0) 0x76f988da in
  let '(d, h) := rnd a b c d e f g h (nth 24 w 0) 0x983e5152 in
  let '(c, g) := rnd h a b c d e f g (nth 25 w 0) 0xa831c66d in
  let '(b, f) := rnd g h a b c d e f (nth 26 w 0) 0xb00327c8 in
  let '(a, e) := rnd f g h a b c d e (nth 27 w 0) 0xbf597fc7 in
  let '(h, d) := rnd e f g h a b c d (nth 28 w 0) 0xc6e00bf3 in
  let '(g, c) := rnd d e f g h a b c (nth 29 w 0) 0xd5a79147 in
  let '(f, b) := rnd c d e f g h a b (nth 30 w 0) 0x06ca6351 in
  let '(e, a) := rnd b c d e f g h a (nth 31 w 0) 0x14292967 in
  let '(d, h) := rnd a b c d e f g h (nth 32 w 0) 0x27b70a85 in
  let '(c, g) := rnd h a b c d e f g (nth 33 w 0) 0x2e1b2138 in
  let '(b, f) := rnd g h a b c d e f (nth 34 w 0) 0x4d2c6dfc in
  let '(a, e) := rnd f g h a b c d e (nth 35 w 0) 0x53380d13 in
  let '(h, d) := rnd e f g h a b c d (nth 36 w 0) 0x650a7354 in
  let '(g, c) := rnd d e f g h a b c (nth 37 w 0) 0x766a0abb in
  let '(f, b) := rnd c d e f g h a b (nth 38 w 0) 0x81c2c92e in
  let '(e, a) := rnd b c d e f g h a (nth 39 w 0) 0x92722c85 in
  let '(d, h) := rnd a b c d e f g h (nth 40 w 0) 0xa2bfe8a1 in
  let '(c, g) := rnd h a b c d e f g (nth 41 w 0) 0xa81a664b in
  let '(b, f) := rnd g h a b c d e f (nth 42 w 0) 0xc24b8b70 in
  let '(a, e) := rnd f g h a b c d e (nth 43 w 0) 0xc76c51a3 in
  let '(h, d) := rnd e f g h a b c d (nth 44 w 0) 0xd192e819 in
  let '(g, c) := rnd d e f g h a b c (nth 45 w 0) 0xd6990624 in
  let '(f, b) := rnd c d e f g h a b (nth 46 w 0) 0xf40e3585 in
  let '(e, a) := rnd b c d e f g h a (nth 47 w 0) 0x106aa070 in
  let '(d, h) := rnd a b c d e f g h (nth 48 w 0) 0x19a4c116 in
  let '(c, g) := rnd h a b c d e f g (nth 49 w 0) 0x1e376c08 in
  let '(b, f) := rnd g h a b c d e f (nth 50 w 0) 0x2748774c in
  let '(a, e) := rnd f g h a b c d e (nth 51 w 0) 0x34b0bcb5 in
  let '(h, d) := rnd e f g h a b c d (nth 52 w 0) 0x391c0cb3 in
  let '(g, c) := rnd d e f g h a b c (nth 53 w 0) 0x4ed8aa4a in
  let '(f, b) := rnd c d e f g h a b (nth 54 w 0) 0x5b9cca4f in
  let '(e, a) := rnd b c d e f g h a (nth 55 w 0) 0x682e6ff3 in
  let '(d, h) := rnd a b c d e f g h (nth 56 w 0) 0x748f82ee in
  let '(c, g) := rnd h a b c d e f g (nth 57 w 0) 0x78a5636f in
  let '(b, f) := rnd g h a b c d e f (nth 58 w 0) 0x84c87814 in
  let '(a, e) := rnd f g h a b c d e (nth 59 w 0) 0x8cc70208 in
  let '(h, d) := rnd e f g h a b c d (nth 60 w 0) 0x90befffa in
  let '(g, c) := rnd d e f g h a b c (nth 61 w 0) 0xa4506ceb in
  let '(f, b) := rnd c d e f g h a b (nth 62 w 0) 0xbef9a3f7 in
  let '(e, a) := rnd b c d e f g h a (nth 63 w 0) 0xc67178f2 in
  [ wrapping_add 32 a (nth 0 s 0); wrapping_add 32 b (nth 1 s 0);
    wrapping_add 32 c (nth 2 s 0); wrapping_add 32 d (nth 3 s 0);
    wrapping_add 32 e (nth 4 s 0); wrapping_add 32 f (nth 5 s 0);
    wrapping_add 32 g (nth 6 s 0); wrapping_add 32 h (nth 7 s 0) ].

(** src/crypto/hash/sha2/sha256.rs:86-191, sha256_block_compression: new [s] and [w] *)
Definition compress32 (block : list Z) (sw : list Z * list Z) : list Z * list Z :=
  let '(s, w) := sw in
  let w := load32 block w in
  let w := expand32 w in
  (rounds32_with rnd32 s w, w).

(** src/crypto/hash/sha2/sha256.rs:229-232 *)
Definition S_SHA256 : list Z :=
  [0x6a09e667; 0xbb67ae85; 0x3c6ef372; 0xa54ff53a; 0x510e527f; 0x9b05688c; 0x1f83d9ab; 0x5be0cd19].

(** src/crypto/hash/sha2/sha256.rs:15-29: a fresh hasher, fields [s] and [w] *)
Definition sha256_new : list Z * list Z := (repeat 0 8, repeat 0 64).

(** src/crypto/hash/sha2/sha256.rs:48-83, sha256_digest: the digest and the new hasher fields *)
Definition sha256_digest (message : list Z) (sw : list Z * list Z) :
  outcome (list Z * (list Z * list Z)) :=
  let '(s, w) := sw in
  let s := S_SHA256 in
  let w := repeat 0 (length w) in
  let sw := fold_left (fun sw block => compress32 block sw) (chunks_exact 64 message) (s, w) in
  let remaining := remainder 64 message in
  l <- u64_mul (Z.of_nat (length message)) 8 ;;
  k <- calculate_k l (64 * 8) 64 ;;
  k7 <- u64_sub k 7 ;;
  let remaining := remaining ++ [0x80] in
  let remaining := remaining ++ repeat 0 (Z.to_nat (k7 / 8)) in
  let remaining := remaining ++ to_be 8 l in
  assert! (Nat.eqb (length remaining) 64 || Nat.eqb (length remaining) (64 * 2)) ;;
  let sw := fold_left (fun sw block => compress32 block sw) (chunks_exact 64 remaining) sw in
  Ret (flat_map (to_be 4) (fst sw), sw).

(** src/crypto/hash/sha2/sha256.rs:41-45, UnkeyedHash::digest for Sha256 *)
Definition sha256 (sw : list Z * list Z) (message : list Z) :
  outcome (list Z * (list Z * list Z)) :=
  '(result, sw) <- sha256_digest message sw ;;
  assert! (Nat.eqb (length result) 32) ;;
  Ret (result, sw).

(** * SHA-384 and SHA-512 *)

(** src/crypto/hash/sha2/sha384_512.rs:255-258, ch *)
Definition ch64 (x y z : Z) : Z := Z.lxor (Z.land x y) (Z.land (wnot 64 x) z).
(** src/crypto/hash/sha2/sha384_512.rs:261-264, maj *)
Definition maj64 (x y z : Z) : Z :=
  Z.lxor (Z.lxor (Z.land x y) (Z.land x z)) (Z.land y z).
(** src/crypto/hash/sha2/sha384_512.rs:267-270, sigma0 *)
Definition sigma0_64 (x : Z) : Z :=
  Z.lxor (Z.lxor (rotate_right 64 x 28) (rotate_right 64 x 34)) (rotate_right 64 x 39).
(** src/crypto/hash/sha2/sha384_512.rs:273-276, sigma1 *)
Definition sigma1_64 (x : Z) : Z :=
  Z.lxor (Z.lxor (rotate_right 64 x 14) (rotate_right 64 x 18)) (rotate_right 64 x 41).
(** src/crypto/hash/sha2/sha384_512.rs:279-282, gamma0 *)
Definition gamma0_64 (x : Z) : Z :=
  Z.lxor (Z.lxor (rotate_right 64 x 1) (rotate_right 64 x 8)) (Z.shiftr x 7).
(** src/crypto/hash/sha2/sha384_512.rs:285-288, gamma1 *)
Definition gamma1_64 (x : Z) : Z :=
  Z.lxor (Z.lxor (rotate_right 64 x 19) (rotate_right 64 x 61)) (Z.shiftr x 6).

(** src/crypto/hash/sha2/core.rs:28-45, macro rnd!, at the word type of sha384_512.rs.
    The macro reassigns the variables passed as [d] and [h]: the result is the
    pair of their new values. *)
Definition rnd64 (a b c d e f g h w_i k_i : Z) : Z * Z :=
  let t0 := wrapping_add 64 (wrapping_add 64 (wrapping_add 64 (wrapping_add 64 h (sigma1_64 e)) (ch64 e f g)) k_i) w_i in
  let t1 := wrapping_add 64 (sigma0_64 a) (maj64 a b c) in
  (wrapping_add 64 d t0, wrapping_add 64 t0 t1).

(** src/crypto/hash/sha2/sha384_512.rs:133-138: loads the block into w[0..15] *)
Definition load64 (block w : list Z) : list Z :=
  let words := firstn 16 (map be_val (chunks_exact 8 block)) in
  words ++ skipn (length words) w.

(** src/crypto/hash/sha2/sha384_512.rs:141-146: expands the message block *)
Definition expand64 (w : list Z) : list Z :=
  fold_left
    (fun w i =>
       upd i (wrapping_add 64 (wrapping_add 64 (wrapping_add 64 (gamma1_64 (nth (i - 2) w 0))
                (nth (i - 7) w 0)) (gamma0_64 (nth (i - 15) w 0))) (nth (i - 16) w 0)) w)
    (seq 16 64) w.

(** src/crypto/hash/sha2/sha384_512.rs:149-251: the rounds, for a round function [rnd] *)
Definition rounds64_with (rnd : Z -> Z -> Z -> Z -> Z -> Z -> Z -> Z -> Z -> Z -> Z * Z) (s w : list Z) : list Z :=
  let a := nth 0 s 0 in
  let b := nth 1 s 0 in
  let c := nth 2 s 0 in
  let d := nth 3 s 0 in
  let e := nth 4 s 0 in
  let f := nth 5 s 0 in
  let g := nth 6 s 0 in
  let h := nth 7 s 0 in
  let '(d, h) := rnd a b c d e f g h (nth 0 w 0) 0x428a2f98d728ae22 in
  let '(c, g) := rnd h a b c d e f g (nth 1 w 0) 0x7137449123ef65cd in
  let '(b, f) := rnd g h a b c d e f (nth 2 w 0) 0xb5c0fbcfec4d3b2f in
  let '(a, e) := rnd f g h a b c d e (nth 3 w 0) 0xe9b5dba58189dbbc in
  let '(h, d) := rnd e f g h a b c d (nth 4 w 0) 0x3956c25bf348b538 in
  let '(g, c) := rnd d e f g h a b c (nth 5 w 0) 0x59f111f1b605d019 in
  let '(f, b) := rnd c d e f g h a b (nth 6 w 0) 0x923f82a4af194f9b in
  let '(e, a) := rnd b c d e f g h a (nth 7 w 0) 0xab1c5ed5da6d8118 in
  let '(d, h) := rnd a b c d e f g h (nth 8 w 0) 0xd807aa98a3030242 in
  let '(c, g) := rnd h a b c d e f g (nth 9 w 0) 0x12835b0145706fbe in
  let '(b, f) := rnd g h a b c d e f (nth 10 w 0) 0x243185be4ee4b28c in
  let '(a, e) := rnd f g h a b c d e (nth 11 w 0) 0x550c7dc3d5ffb4e2 in
  let '(h, d) := rnd e f g h a b c d (nth 12 w 0) 0x72be5d74f27b896f in
  let '(g, c) := rnd d e f g h a b c (nth 13 w 0) 0x80deb1fe3b1696b1 in
  let '(f, b) := rnd c d e f g h a b (nth 14 w 0) 0x9bdc06a725c71235 in
  let '(e, a) := rnd b c d e f g h a (nth 15 w 0) 0xc19bf174cf692694 in
  let '(d, h) := rnd a b c d e f g h (nth 16 w 0) 0xe49b69c19ef14ad2 in
  let '(c, g) := rnd h a b c d e f g (nth 17 w 0) 0xefbe4786384f25e3 in
  let '(b, f) := rnd g h a b c d e f (nth 18 w 0) 0x0fc19dc68b8cd5b5 in
  let '(a, e) := rnd f g h a b c d e (nth 19 w 0) 0x240ca1cc77ac9c65 in
  let '(h, d) := rnd e f g h a b c d (nth 20 w 0) 0x2de92c6f592b0275 in
  let '(g, c) := rnd d e f g h a b c (nth 21 w 0) 0x4a7484aa6ea6e483 in
  let '(f, b) := rnd c d e f g h a b (nth 22 w 0) 0x5cb0a9dcbd41fbd4 in
  let '(e, a) := rnd b c d e f g h a (nth 23 w 0) 0x76f988da831153b5 in
  let '(d, h) := rnd a b c d e f g h (nth 24 w 0) 0x983e5152ee66dfab in
  let '(c, g) := rnd h a b c d e f g (nth 25 w 0) 0xa831c66d2db43210 in
  let '(b, f) := rnd g h a b c d e f (nth 26 w 0) 0xb00327c898fb213f in
  let '(a, e) := rnd f g h a b c d e (nth 27 w 0) 0xbf597fc7beef0ee4 in
  let '(h, d) := rnd e f g h a b c d (nth 28 w 0) 0xc6e00bf33da88fc2 in
  let '(g, c) := rnd d e f g h a b c (nth 29 w 0) 0xd5a79147930aa725 in
  let '(f, b) := rnd c d e f g h a b (nth 30 w 0) 0x06ca6351e003826f in
  let '(e, a) := rnd b c d e f g h a (nth 31 w 0) 0x142929670a0e6e70 in
  let '(d, h) := rnd a b c d e f g h (nth 32 w 0) 0x27b70a8546d22ffc in
  let '(c, g) := rnd h a b c d e f g (nth 33 w 0) 0x2e1b21385c26c926 in
  let '(b, f) := rnd g h a b c d e f (nth 34 w 0) 0x4d2c6dfc5ac42aed in
  let '(a, e) := rnd f g h a b c d e (nth 35 w 0) 0x53380d139d95b3df in
  let '(h, d) := rnd e f g h a b c d (nth 36 w 0) 0x650a73548baf63de in
  let '(g, c) := rnd d e f g h a b c (nth 37 w 0) 0x766a0abb3c77b2a8 in
  let '(f, b) := rnd c d e f g h a b (nth 38 w 0) 0x81c2c92e47edaee6 in
  let '(e, a) := rnd b c d e f g h a (nth 39 w 0) 0x92722c851482353b in
  let '(d, h) := rnd a b c d e f g h (nth 40 w 0) 0xa2bfe8a14cf10364 in
  let '(c, g) := rnd h a b c d e f g (nth 41 w 0) 0xa81a664bbc423001 in
  let '(b, f) := rnd g h a b c d e f (nth 42 w 0) 0xc24b8b70d0f89791 in
  let '(a, e) := rnd f g h a b c d e (nth 43 w 0) 0xc76c51a30654be30 in
  let '(h, d) := rnd e f g h a b c d (nth 44 w 0) 0xd192e819d6ef5218 in
  let '(g, c) := rnd d e f g h a b c (nth 45 w 0) 0xd69906245565a910 in
  let '(f, b) := rnd c d e f g h a b (nth 46 w 0) 0xf40e35855771202a in
  let '(e, a) := rnd b c d e f g h a (nth 47 w 0) 0x106aa07032bbd1b8 in
  let '(d, h) := rnd a b c d e f g h (nth 48 w 0) 0x19a4c116b8d2d0c8 in
  let '(c, g) := rnd h a b c d e f g (nth 49 w 0) 0x1e376c085141ab53 in
  let '(b, f) := rnd g h a b c d e f (nth 50 w 0) 0x2748774cdf8eeb99 in
  let '(a, e) := rnd f g h a b c d e (nth 51 w 0) 0x34b0bcb5e19b48a8 in
  let '(h, d) := rnd e f g h a b c d (nth 52 w 0) 0x391c0cb3c5c95a63 in
  let '(g, c) := rnd d e f g h a b c (nth 53 w 0) 0x4ed8aa4ae3418acb in
  let '(f, b) := rnd c d e f g h a b (nth 54 w 0) 0x5b9cca4f7763e373 in
  let '(e, a) := rnd b c d e f g h a (nth 55 w 0) 0x682e6ff3d6b2b8a3 in
  let '(d, h) := rnd a b c d e f g h (nth 56 w 0) 0x748f82ee5defb2fc in
  let '(c, g) := rnd h a b c d e f g (nth 57 w 0) 0x78a5636f43172f60 in
  let '(b, f) := rnd g h a b c d e f (nth 58 w 0) 0x84c87814a1f0ab72 in
  let '(a, e) := rnd f g h a b c d e (nth 59 w 0) 0x8cc702081a6439ec in
  let '(h, d) := rnd e f g h a b c d (nth 60 w 0) 0x90befffa23631e28 in
  let '(g, c) := rnd d e f g h a b c (nth 61 w 0) 0xa4506cebde82bde9 in
  let '(f, b) := rnd c d e f g h a b (nth 62 w 0) 0xbef9a3f7b2c67915 in
  let '(e, a) := rnd b c d e f g h a (nth 63 w 0) 0xc67178f2e372532b in
  let '(d, h) := rnd a b c d e f g h (nth 64 w 0) 0xca273eceea26619c in
  let '(c, g) := rnd h a b c d e f g (nth 65 w 0) 0xd186b8c721c0c207 in
  let '(b, f) := rnd g h a b c d e f (nth 66 w 0) 0xeada7dd6cde0eb1e in
  let '(a, e) := rnd f g h a b c d e (nth 67 w 0) 0xf57d4f7fee6ed178 in
  let '(h, d) := rnd e f g h a b c d (nth 68 w 0) 0x06f067aa72176fba in
  let '(g, c) := rnd d e f g h a b c (nth 69 w 0) 0x0a637dc5a2c898a6 in
  let '(f, b) := rnd c d e f g h a b (nth 70 w 0) 0x113f9804bef90dae in
  let '(e, a) := rnd b c d e f g h a (nth 71 w 0) 0x1b710b35131c471b in
  let '(d, h) := rnd a b c d e f g h (nth 72 w 0) 0x28db77f523047d84 in
  let '(c, g) := rnd h a b c d e f g (nth 73 w 0) 0x32caab7b40c72493 in
  let '(b, f) := rnd g h a b c d e f (nth 74 w 0) 0x3c9ebe0a15c9bebc in
  let '(a, e) := rnd f g h a b c d e (nth 75 w 0) 0x431d67c49c100d4c in
  let '(h, d) := rnd e f g h a b c d (nth 76 w 0) 0x4cc5d4becb3e42b6 in
  let '(g, c) := rnd d e f g h a b c (nth 77 w 0) 0x597f299cfc657e2a in
  let '(f, b) := rnd c d e f g h a b (nth 78 w 0) 0x5fcb6fab3ad6faec in
  let '(e, a) := rnd b c d e f g h a (nth 79 w 0) 0x6c44198c4a475817 in
  [ wrapping_add 64 a (nth 0 s 0); wrapping_add 64 b (nth 1 s 0);
    wrapping_add 64 c (nth 2 s 0); wrapping_add 64 d (nth 3 s 0);
    wrapping_add 64 e (nth 4 s 0); wrapping_add 64 f (nth 5 s 0);
    wrapping_add 64 g (nth 6 s 0); wrapping_add 64 h (nth 7 s 0) ].

(** src/crypto/hash/sha2/sha384_512.rs:131-252, sha512_block_compression: new [s] and [w] *)
Definition compress64 (block : list Z) (sw : list Z * list Z) : list Z * list Z :=
  let '(s, w) := sw in
  let w := load64 block w in
  let w := expand64 w in
  (rounds64_with rnd64 s w, w).

(** src/crypto/hash/sha2/sha384_512.rs:290-299 *)
Definition S_SHA384 : list Z :=
  [0xcbbb9d5dc1059ed8; 0x629a292a367cd507; 0x9159015a3070dd17; 0x152fecd8f70e5939;
   0x67332667ffc00b31; 0x8eb44a8768581511; 0xdb0c2e0d64f98fa7; 0x47b5481dbefa4fa4].

(** src/crypto/hash/sha2/sha384_512.rs:301-310 *)
Definition S_SHA512 : list Z :=
  [0x6a09e667f3bcc908; 0xbb67ae8584caa73b; 0x3c6ef372fe94f82b; 0xa54ff53a5f1d36f1;
   0x510e527fade682d1; 0x9b05688c2b3e6c1f; 0x1f83d9abfb41bd6b; 0x5be0cd19137e2179].

(** src/crypto/hash/sha2/sha384_512.rs:15-29, 54-68: a fresh hasher *)
Definition sha384_512_new : list Z * list Z := (repeat 0 8, repeat 0 80).

(** src/crypto/hash/sha2/sha384_512.rs:94-128, sha384_512_digest_core: the new hasher fields *)
Definition sha384_512_digest_core (message : list Z) (sw : list Z * list Z) (s_init : list Z) :
  outcome (list Z * list Z) :=
  let '(s, w) := sw in
  let s := s_init in
  let w := repeat 0 (length w) in
  let sw := fold_left (fun sw block => compress64 block sw) (chunks_exact 128 message) (s, w) in
  let remaining := remainder 128 message in
  l <- u64_mul (Z.of_nat (length message)) 8 ;;
  k <- calculate_k l (128 * 8) 128 ;;
  k7 <- u64_sub k 7 ;;
  let remaining := remaining ++ [0x80] in
  let remaining := remaining ++ repeat 0 (Z.to_nat (k7 / 8)) in
  let remaining := remaining ++ to_be 8 0 in
  let remaining := remaining ++ to_be 8 l in
  assert! (Nat.eqb (length remaining) 128 || Nat.eqb (length remaining) (128 * 2)) ;;
  let sw := fold_left (fun sw block => compress64 block sw) (chunks_exact 128 remaining) sw in
  Ret sw.

(** src/crypto/hash/sha2/sha384_512.rs:41-51, UnkeyedHash::digest for Sha384 *)
Definition sha384 (sw : list Z * list Z) (message : list Z) :
  outcome (list Z * (list Z * list Z)) :=
  sw <- sha384_512_digest_core message sw S_SHA384 ;;
  let digest := flat_map (to_be 8) (firstn 6 (fst sw)) in
  assert! (Nat.eqb (length digest) 48) ;;
  Ret (digest, sw).

(** src/crypto/hash/sha2/sha384_512.rs:80-90, UnkeyedHash::digest for Sha512 *)
Definition sha512 (sw : list Z * list Z) (message : list Z) :
  outcome (list Z * (list Z * list Z)) :=
  sw <- sha384_512_digest_core message sw S_SHA512 ;;
  let digest := flat_map (to_be 8) (fst sw) in
  assert! (Nat.eqb (length digest) 64) ;;
  Ret (digest, sw).

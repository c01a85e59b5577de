(** Rust primitives on unsigned machine words and on byte slices.

    A value of type u32/u64 is the integer it denotes.  These definitions give
    the meaning of the standard library operations used by src/crypto/hash; they do
    not model code of the repository. *)

From Verif Require Import Base.
Open Scope Z_scope.

(** [x.wrapping_add(y)] on [n]-bit words *)
Definition wrapping_add (n x y : Z) : Z := (x + y) mod 2 ^ n.
(** [!x] *)
Definition wnot (n x : Z) : Z := 2 ^ n - 1 - x.
(** [x.rotate_right(r)], 0 < r < n *)
Definition rotate_right (n x r : Z) : Z :=
  Z.lor (Z.shiftr x r) (Z.shiftl x (n - r) mod 2 ^ n).
(** [x.rotate_left(r)], 0 < r < n *)
Definition rotate_left (n x r : Z) : Z :=
  Z.lor (Z.shiftl x r mod 2 ^ n) (Z.shiftr x (n - r)).

(** checked (debug build) u64 arithmetic *)
Definition u64_mul (x y : Z) : outcome Z :=
  let r := x * y in if r <? 2 ^ 64 then Ret r else Panic.
Definition u64_add (x y : Z) : outcome Z :=
  let r := x + y in if r <? 2 ^ 64 then Ret r else Panic.
Definition u64_sub (x y : Z) : outcome Z :=
  let r := x - y in if 0 <=? r then Ret r else Panic.

(** [a[i] = v] where [i] is in range *)
Fixpoint upd {A : Type} (i : nat) (v : A) (l : list A) : list A :=
  match l, i with
  | [], _ => []
  | _ :: t, O => v :: t
  | x :: t, S i' => x :: upd i' v t
  end.

(** [l.chunks_exact(n)] and its [remainder()] *)
Definition chunks_exact {A : Type} (n : nat) (l : list A) : list (list A) :=
  map (fun i => firstn n (skipn (i * n) l)) (seq 0 (Nat.div (length l) n)).
Definition remainder {A : Type} (n : nat) (l : list A) : list A :=
  skipn (Nat.div (length l) n * n) l.

(** [uN::from_be_bytes], [from_le_bytes], [to_le_bytes]; [to_be] is in Base *)
Definition le_val (l : list Z) : Z := be_val (rev l).
Definition to_le (n : nat) (v : Z) : list Z := rev (to_be n v).

(** [for (x, y) in zip(a, b.iter_mut()) { *y ^= x }]: [b] after the loop *)
Fixpoint zip_xor (a b : list Z) : list Z :=
  match a, b with
  | x :: a', y :: b' => Z.lxor y x :: zip_xor a' b'
  | _, _ => b
  end.

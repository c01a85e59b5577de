(** Base vocabulary of the model: outcomes, Rust [Result], slices.

    A Rust function that may panic is modelled by a function returning
    [outcome A].  [Panic] stands for every panicking path: [assert!],
    [debug_assert!] (debug build), [unwrap] on [None], index or slice out of
    range, debug-build arithmetic overflow.  [OutOfFuel] is only produced when
    the explicit fuel of an unbounded loop is exhausted, it does not
    correspond to any behaviour of the program. *)

From Coq Require Export List ZArith Lia Bool.
Export ListNotations.
Open Scope Z_scope.

Inductive outcome (A : Type) : Type :=
| Ret (a : A)
| Panic
| OutOfFuel.
Arguments Ret {A} a.
Arguments Panic {A}.
Arguments OutOfFuel {A}.

Definition obind {A B : Type} (m : outcome A) (k : A -> outcome B) : outcome B :=
  match m with
  | Ret a => k a
  | Panic => Panic
  | OutOfFuel => OutOfFuel
  end.

Notation "x <- m ;; k" := (obind m (fun x => k))
  (at level 60, m at next level, right associativity).
Notation "' p <- m ;; k" := (obind m (fun x => match x with p => k end))
  (at level 60, p pattern, m at next level, right associativity).

(** [assert!(c)] / [debug_assert!(c)] followed by the rest of the body. *)
Definition oassert {A : Type} (c : bool) (k : outcome A) : outcome A :=
  if c then k else Panic.
Notation "'assert!' c ;; k" := (oassert c k)
  (at level 60, c at next level, right associativity).

(** Rust's [Result<T, E>]. *)
Inductive result (E A : Type) : Type :=
| Ok (a : A)
| Err (e : E).
Arguments Ok {E A} a.
Arguments Err {E A} e.

(** The [?] operator inside a possibly panicking function. *)
Definition rbind {E A B : Type} (m : outcome (result E A))
           (k : A -> outcome (result E B)) : outcome (result E B) :=
  match m with
  | Ret (Ok a) => k a
  | Ret (Err e) => Ret (Err e)
  | Panic => Panic
  | OutOfFuel => OutOfFuel
  end.

Notation "x <-? m ;; k" := (rbind m (fun x => k))
  (at level 60, m at next level, right associativity).
Notation "' p <-? m ;; k" := (rbind m (fun x => match x with p => k end))
  (at level 60, p pattern, m at next level, right associativity).

Definition map_err {E F A : Type} (f : E -> F) (r : result E A) : result F A :=
  match r with Ok a => Ok a | Err e => Err (f e) end.

(** [option.unwrap()] *)
Definition unwrap {A : Type} (o : option A) : outcome A :=
  match o with Some a => Ret a | None => Panic end.

(** [result.unwrap()] *)
Definition unwrap_res {E A : Type} (r : result E A) : outcome A :=
  match r with Ok a => Ret a | Err _ => Panic end.

(** [l[i]] *)
Definition index {A : Type} (l : list A) (i : nat) : outcome A :=
  match nth_error l i with Some a => Ret a | None => Panic end.

(** [&l[i..j]]: panics unless [i <= j <= l.len()]. *)
Definition slice {A : Type} (l : list A) (i j : nat) : outcome (list A) :=
  if (Nat.leb i j && Nat.leb j (length l))%bool
  then Ret (firstn (j - i) (skipn i l)) else Panic.

(** [&l[..j]] *)
Definition slice_to {A : Type} (l : list A) (j : nat) : outcome (list A) := slice l 0 j.

(** [&l[i..]] *)
Definition slice_from {A : Type} (l : list A) (i : nat) : outcome (list A) :=
  slice l i (length l).

(** [iter().rposition(f)]: index of the last element satisfying [f]. *)
Fixpoint rposition {A : Type} (f : A -> bool) (l : list A) : option nat :=
  match l with
  | [] => None
  | x :: t => match rposition f t with
              | Some i => Some (S i)
              | None => if f x then Some O else None
              end
  end.

(** [iter().position(f)]: index of the first element satisfying [f]. *)
Fixpoint position {A : Type} (f : A -> bool) (l : list A) : option nat :=
  match l with
  | [] => None
  | x :: t => if f x then Some O
              else match position f t with Some i => Some (S i) | None => None end
  end.

(** A range predicate: all elements of [l] are bytes. *)
Definition byte (x : Z) : Prop := 0 <= x < 256.
Definition bytes (l : list Z) : Prop := Forall byte l.

(** Big-endian value of a byte string: the specification of every
    [from_be_bytes]. *)
Definition be_val (l : list Z) : Z := fold_left (fun acc x => 256 * acc + x) l 0.

(** The [n]-byte big-endian representation of [v] (Rust's [to_be_bytes]). *)
Fixpoint to_be (n : nat) (v : Z) : list Z :=
  match n with
  | O => []
  | S n' => to_be n' (v / 256) ++ [v mod 256]
  end.

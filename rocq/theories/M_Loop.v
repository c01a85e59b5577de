(** A loop with a bound on the number of iterations.

    [loop n body s] runs at most 2^n iterations of [body] from state [s].
    [body] returns [inl s'] to go on and [inr r] to leave the loop with [r].
    [run_loop] reports [OutOfFuel] when the bound is reached; every use comes
    with a theorem excluding it.  (The bound is exponential in [n] so that it
    can be instantiated with the bit length of a number.) *)

From Verif Require Import Base.
Open Scope Z_scope.

Fixpoint loop {S R : Type} (n : nat) (body : S -> outcome (S + R)) (s : S) : outcome (S + R) :=
  match n with
  | O => body s
  | Datatypes.S n' =>
    x <- loop n' body s ;;
    match x with
    | inl s' => loop n' body s'
    | inr r => Ret (inr r)
    end
  end.

Definition run_loop {S R : Type} (n : nat) (body : S -> outcome (S + R)) (s : S) : outcome R :=
  x <- loop n body s ;;
  match x with
  | inl _ => OutOfFuel
  | inr r => Ret r
  end.

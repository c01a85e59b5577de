(** Specification of hexadecimal and positional text. Characters are ASCII codes. *)

From Verif Require Import Base.
Open Scope Z_scope.

(** '0'..'9', 'A'..'Z', 'a'..'z' as digit values 0..35. *)
Definition alnum_value (c : Z) : option Z :=
  if ((48 <=? c) && (c <=? 57))%bool then Some (c - 48)
  else if ((65 <=? c) && (c <=? 90))%bool then Some (c - 65 + 10)
  else if ((97 <=? c) && (c <=? 122))%bool then Some (c - 97 + 10)
  else None.

(** [c] is a digit of value [v] in the given radix. *)
Definition is_digit (radix c v : Z) : Prop := alnum_value c = Some v /\ v < radix.

(** The digits of [s] in the given radix, most significant first, are [vs]. *)
Definition digits_of (radix : Z) (s vs : list Z) : Prop := Forall2 (is_digit radix) s vs.

(** Positional value, most significant digit first. *)
Definition positional (radix : Z) (vs : list Z) : Z := fold_left (fun acc v => radix * acc + v) vs 0.

(** Lower-case hex character of a nibble. *)
Definition lower_hex_digit (v : Z) : Z := if v <? 10 then 48 + v else 97 + (v - 10).

(** [s] denotes the integer [v]: empty, or optional sign and at least one digit. *)
Inductive denotes (radix : Z) : list Z -> Z -> Prop :=
| Den_empty : denotes radix [] 0
| Den_plain s vs : s <> [] -> digits_of radix s vs -> denotes radix s (positional radix vs)
| Den_plus s vs : s <> [] -> digits_of radix s vs -> denotes radix (43 :: s) (positional radix vs)
| Den_minus s vs : s <> [] -> digits_of radix s vs -> denotes radix (45 :: s) (- positional radix vs).

(** The looser rule that the code follows: a digit may also have the value of the radix. *)
Inductive reads_as (radix : Z) : list Z -> Z -> Prop :=
| Read_empty : reads_as radix [] 0
| Read_plain s vs : s <> [] -> digits_of (radix + 1) s vs -> reads_as radix s (positional radix vs)
| Read_plus s vs : s <> [] -> digits_of (radix + 1) s vs -> reads_as radix (43 :: s) (positional radix vs)
| Read_minus s vs : s <> [] -> digits_of (radix + 1) s vs -> reads_as radix (45 :: s) (- positional radix vs).

(** Number of digit characters, without the sign. *)
Definition digit_count (s : list Z) : nat :=
  match s with
  | c :: s' => if ((c =? 43) || (c =? 45))%bool then length s' else length s
  | [] => O
  end.

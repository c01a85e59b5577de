(** Specification vocabulary for big integers: which integer a [bigint]
    denotes, and when its representation is canonical. *)

From Verif Require Import Base M_BigInt.
Open Scope Z_scope.

Section Spec.
Context {cfg : digit_cfg}.

(** Little-endian positional value in base 2^64 (or 2^8). *)
Fixpoint digits_val (l : list Z) : Z :=
  match l with
  | [] => 0
  | d :: l' => d + digit_base cfg * digits_val l'
  end.

(** The integer denoted by a big integer. *)
Definition bi_val (x : bigint) : Z :=
  let m := digits_val (firstn (dlen x) (storage x)) in
  match sign x with Positive => m | Negative => - m end.

Definition digit (d : Z) : Prop := 0 <= d < digit_base cfg.

(** No superfluous leading (most significant) zero digit. *)
Definition canon (l : list Z) : Prop :=
  l <> [] /\ (length l = 1%nat \/ last l 0 <> 0).

(** A well-formed BigInt: the digits are in range, the used part is canonical
    and the unused tail of the storage is zero. *)
Definition wf (x : bigint) : Prop :=
  Forall digit (storage x) /\
  (dlen x <= length (storage x))%nat /\
  canon (firstn (dlen x) (storage x)) /\
  Forall (fun d => d = 0) (skipn (dlen x) (storage x)).

(** [o] returns, without panicking, a well-formed BigInt denoting [v]. *)
Definition returns (o : outcome bigint) (v : Z) : Prop :=
  exists r, o = Ret r /\ wf r /\ bi_val r = v.

End Spec.

(** [n] is the number of binary digits of [v >= 0] (0 for zero). *)
Definition is_bit_len (v n : Z) : Prop := 0 <= n /\ v < 2 ^ n /\ (v = 0 /\ n = 0 \/ 2 ^ (n - 1) <= v).

(** The [n] low binary digits of [v], least significant first. *)
Definition bits_of (n : nat) (v : Z) : list bool := map (fun i => Z.testbit v (Z.of_nat i)) (seq 0 n).

(** [l] is the shortest big-endian byte string of value [v] (empty for zero). *)
Definition minimal_be (l : list Z) (v : Z) : Prop := bytes l /\ be_val l = v /\ (l = [] \/ hd 0 l <> 0).

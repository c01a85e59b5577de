(** What the operating systems promise about their sources of randomness, and the requests made to them. *)

From Verif Require Import Base M_Random.
Open Scope Z_scope.

(** getrandom(2): -1, or the number of bytes written at the start of the buffer. *)
Definition linux_os (o : os) : Prop := forall i len, let r := o i len in
  bytes (os_written r) /\ (length (os_written r) <= len)%nat /\ (os_ret r = -1 \/ os_ret r = Z.of_nat (length (os_written r))).
(** SecRandomCopyBytes: 0 if the buffer has been filled. *)
Definition macos_os (o : os) : Prop := forall i len, let r := o i len in
  bytes (os_written r) /\ (length (os_written r) <= len)%nat /\ (os_ret r = 0 -> length (os_written r) = len).
(** BCryptGenRandom: a 32-bit status whose two highest bits are 3 if it is an error; otherwise the buffer has been filled. *)
Definition windows_os (o : os) : Prop := forall i len, let r := o i len in
  bytes (os_written r) /\ (length (os_written r) <= len)%nat /\ 0 <= os_ret r < 2 ^ 32 /\ (os_ret r < 3 * 2 ^ 30 -> length (os_written r) = len).

(** The request for [len] bytes is split into requests of at most 256 bytes: their number, and the size of the i-th. *)
Definition requests (len : nat) : nat := ((len + 255) / 256)%nat.
Definition request (len i : nat) : nat := Nat.min 256 (len - 256 * i).
(** What was written in reply to the i-th request. *)
Definition reply (o : os) (len i : nat) : list Z := os_written (o i (request len i)).
Definition filled (o : os) (len i : nat) : Prop := length (reply o len i) = request len i /\ os_ret (o i (request len i)) <> -1.

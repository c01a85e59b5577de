(** Property C54: random bytes from the operating system.

    S_Random.v states what the manuals of the three systems promise, and how a request is split on Linux. *)

From Verif Require Import Base M_Random S_Random S_Sign.
From Verif Require P_Random.
Open Scope Z_scope.

(** * C54 *)
(** On Linux: the bytes returned are those written by the calls, all of them complete, in order; otherwise the first
    incomplete call is reported as an error. *)
Theorem C54_linux : forall o len, linux_os o -> 0 <= len < 2 ^ 32 -> let n := Z.to_nat len in
  exists r, get_os_random_bytes Linux o len = Ret r /\
    match r with
    | Ok bs => Z.of_nat (length bs) = len /\ bytes bs /\ bs = flat_map (reply o n) (seq 0 (requests n)) /\ (forall i, (i < requests n)%nat -> filled o n i)
    | Err e => exists i, (i < requests n)%nat /\ (forall j, (j < i)%nat -> filled o n j) /\
        (os_ret (o i (request n i)) = -1 /\ e = LinuxGetRandom (os_errno (o i (request n i))) \/
         os_ret (o i (request n i)) <> -1 /\ (length (reply o n i) < request n i)%nat /\ e = LinuxGetRandomCopiedNumberLessThanRequested)
    end.
Proof. exact P_Random.linux_random_spec. Qed.
Print Assumptions C54_linux.
Example linux_short : linux_os P_Random.short_os /\ get_os_random_bytes Linux P_Random.short_os 512 = Ret (Ok (repeat 7 512)) /\
  get_os_random_bytes Linux P_Random.short_os 513 = Ret (Err LinuxGetRandomCopiedNumberLessThanRequested).
Proof. exact P_Random.example_short. Qed.
(** On the other systems there is a single call. *)
Theorem C54_macos : forall o len, macos_os o -> 0 <= len < 2 ^ 32 -> let n := Z.to_nat len in
  exists r, get_os_random_bytes MacOs o len = Ret r /\
    match r with
    | Ok bs => Z.of_nat (length bs) = len /\ bytes bs /\ bs = os_written (o 0%nat n)
    | Err e => os_ret (o 0%nat n) <> 0 /\ e = AppleSecRandom (os_ret (o 0%nat n))
    end.
Proof. exact P_Random.macos_random_spec. Qed.
Print Assumptions C54_macos.
Theorem C54_windows : forall o len, windows_os o -> 0 <= len < 2 ^ 32 -> let n := Z.to_nat len in
  exists r, get_os_random_bytes Windows o len = Ret r /\
    match r with
    | Ok bs => Z.of_nat (length bs) = len /\ bytes bs /\ bs = os_written (o 0%nat n)
    | Err e => 3 * 2 ^ 30 <= os_ret (o 0%nat n) /\ e = WindowsBCryptGenRandom (os_ret (o 0%nat n))
    end.
Proof. exact P_Random.windows_random_spec. Qed.
Print Assumptions C54_windows.
(** So the source of randomness that signing uses (32 bytes at a time) meets the hypothesis [rng_ok] of C25 - C34. *)
Theorem C54_signing : forall t (o : nat -> os),
  (forall i, match t with Linux => linux_os (o i) | MacOs => macos_os (o i) | Windows => windows_os (o i) end) ->
  rng_ok (fun i => get_os_random_bytes t (o i) 32).
Proof. exact P_Random.os_rng. Qed.
Print Assumptions C54_signing.

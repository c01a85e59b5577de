(** Property C72: the curve parameters as threads share them.
    Statements only: proofs are in P_Once.v. *)

From Verif Require Import Base M_BigInt M_Curve M_Once S_BigInt S_Curve S_EcModel S_Once.
From Verif Require P_Once.
Open Scope Z_scope.

(** * C72

    Whatever the schedule, no call panics ... *)
Theorem C72_no_panic : forall (cfg : digit_cfg) s t, reachable s -> st_local s t <> Panicked.
Proof. exact @P_Once.threads_no_panic. Qed.
Print Assumptions C72_no_panic.
(** ... and whatever part of the parameters a thread reads through a reference it is that of secp256k1: none is seen before it
    is written. *)
Theorem C72_uses : forall (cfg : digit_cfg) s t p c, reachable s -> In (EUsed t p c) (st_events s) -> holds SECP256K1 p c.
Proof. exact @P_Once.threads_uses. Qed.
Print Assumptions C72_uses.
(** No two threads are ever about to access the same part of the static with one of them writing: the use of [static mut] is
    not undefined behaviour. *)
Theorem C72_no_race : forall (cfg : digit_cfg) s, reachable s -> ~ race s.
Proof. exact @P_Once.threads_no_race. Qed.
Print Assumptions C72_no_race.
(** The parameters are computed at most once ... *)
Theorem C72_once : forall (cfg : digit_cfg) s, reachable s -> (times_built s <= 1)%nat.
Proof. exact @P_Once.threads_once. Qed.
Print Assumptions C72_once.
(** ... and never change after a call has returned. *)
Theorem C72_stable : forall (cfg : digit_cfg) s s' u p, reachable s -> In (EReturned u) (st_events s) -> run s s' ->
  st_memory s' p = st_memory s p /\ holds SECP256K1 p (st_memory s p).
Proof. exact @P_Once.threads_stable. Qed.
Print Assumptions C72_stable.
(** No deadlock: a thread in a call can go on, or it waits for the closure and another thread can. *)
Theorem C72_progress : forall (cfg : digit_cfg) s t, reachable s -> in_call (st_local s t) ->
  (exists s', step t s s') \/
  (st_local s t = AtOnce /\ exists u s', u <> t /\ in_call (st_local s u) /\ step u s s').
Proof. exact @P_Once.threads_progress. Qed.
Print Assumptions C72_progress.
(** The calls that any threads are in take at most nine steps each, in any order; ... *)
Theorem C72_bounded : forall (cfg : digit_cfg) ts n s s', reachable s -> NoDup ts -> call_steps ts n s s' -> (n <= 9 * length ts)%nat.
Proof. exact @P_Once.threads_bounded. Qed.
Print Assumptions C72_bounded.
(** ... and where no step is left in any call, all have returned. *)
Theorem C72_finish : forall (cfg : digit_cfg) s, reachable s -> (forall t s', step t s s' -> ~ in_call (st_local s t)) ->
  forall t, st_local s t = Outside.
Proof. exact @P_Once.threads_finish. Qed.
Print Assumptions C72_finish.

(** An execution: thread 0 has written the tag and no field when thread 1, which has called too, finds the Once running and
    cannot step.  Later both calls return and thread 1 reads the order. *)
Example C72_case : forall cfg : digit_cfg, exists s s',
  reachable s /\ st_local s 1%nat = AtOnce /\ (forall s'', ~ step 1%nat s s'') /\
  st_memory s PTag = CTag true /\ st_memory s PCurve = CUninit /\
  run s s' /\ In (EReturned 0%nat) (st_events s') /\ In (EReturned 1%nat) (st_events s') /\
  exists c, In (EUsed 1%nat POrder c) (st_events s').
Proof. exact @P_Once.example. Qed.

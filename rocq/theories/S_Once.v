(** Specification for C72: executions, races. *)

From Verif Require Import Base M_BigInt M_Curve M_Once S_BigInt S_Curve S_EcModel.
Open Scope Z_scope.

Section WithCfg.
Context {cfg : digit_cfg}.
(** Any number of steps of any threads, in any order. *)
Inductive run : state -> state -> Prop :=
| RunNil s : run s s
| RunSnoc s s' s'' t : run s s' -> step t s' s'' -> run s s''.
Definition reachable (s : state) : Prop := run initial s.

(** The next access of the thread to memory can be a write of the part, or a read of it. *)
Definition may_write (s : state) (t : nat) (p : part) : Prop := exists d todo, st_local s t = Writing d todo /\ In p todo.
Definition may_read (s : state) (t : nat) (p : part) : Prop :=
  st_local s t = AtRead /\ p = PTag \/ st_local s t = Outside /\ exists u, In (EReturned u) (st_events s).
(** Two threads are about to access the same part, one of them to write it. *)
Definition race (s : state) : Prop := exists t u p, t <> u /\ may_write s t p /\ (may_write s u p \/ may_read s u p).

Definition in_call (l : local) : Prop := l <> Outside /\ l <> Panicked.
(** Steps inside calls of threads of a given list, [n] of them. *)
Inductive call_steps (ts : list nat) : nat -> state -> state -> Prop :=
| CallNil s : call_steps ts O s s
| CallSnoc n s s' s'' t : call_steps ts n s s' -> In t ts -> in_call (st_local s' t) -> step t s' s'' -> call_steps ts (S n) s s''.

(** The part of the static is that of [Some] of parameters with these values. *)
Definition holds (E : eparams) (p : part) (c : content) : Prop :=
  match p with
  | PTag => c = CTag true
  | PCurve => exists C, c = CCurve C /\ wf_curve C /\ curve_val C = e_curve E
  | PBase => exists B, c = CBase B /\ wf_point B /\ pt_val B = e_base E
  | POrder => exists n, c = COrder n /\ wf n /\ bi_val n = e_order E
  | PCofactor => c = CCofactor (e_cofactor E)
  end.
(** How often the parameters were computed. *)
Definition times_built (s : state) : nat :=
  length (filter (fun x => match x with EBuilt _ => true | _ => false end) (st_events s)).
End WithCfg.

(** Model of src/crypto/secp256k1.rs:12-47 as threads execute it: the static which the first call fills, guarded by a
    std::sync::Once.

    The steps of all threads interleave in any order.  A step is one access to something shared - the Once, or a part of the
    static - with the private computation before it.  [SECP256K1 = Some(..)] is not atomic: it stores the tag of the Option
    and the fields of the struct one by one, in an order that is left open.
    std::sync::Once (documentation of call_once): one caller runs the closure and the others block until it is done; later
    callers go on at once; if the closure panics the Once is poisoned, and callers panic.
    Steps are sequentially consistent, which is justified for programs without data races, see C72_no_race;
    what Once does orders the memory accesses before and after it. *)

From Verif Require Import Base M_BigInt M_Curve.
Open Scope Z_scope.

(** The parts of the static: the tag, and the fields of EllipticCurveParams (elliptic_curve_params.rs:10-16). *)
Inductive part := PTag | PCurve | PBase | POrder | PCofactor.
Definition part_eqb (p q : part) : bool :=
  match p, q with PTag, PTag | PCurve, PCurve | PBase, PBase | POrder, POrder | PCofactor, PCofactor => true | _, _ => false end.
Definition parts : list part := [PTag; PCurve; PBase; POrder; PCofactor].
Inductive content := CTag (is_some : bool) | CCurve (c : curve) | CBase (b : point) | COrder (n : bigint) | CCofactor (h : Z) | CUninit.
Definition memory : Type := part -> content.
(** secp256k1.rs:12, [None] *)
Definition memory_init : memory := fun p => match p with PTag => CTag false | _ => CUninit end.
(** the parts of [Some(d)] *)
Definition stored (d : params) : memory := fun p =>
  match p with
  | PTag => CTag true
  | PCurve => CCurve (d_curve d)
  | PBase => CBase (d_base d)
  | POrder => COrder (d_order d)
  | PCofactor => CCofactor (d_cofactor d)
  end.
Definition store (m : memory) (p : part) (c : content) : memory := fun q => if part_eqb q p then c else m q.

(** secp256k1.rs:13, INIT *)
Inductive once := Incomplete | Running | Complete | Poisoned.
(** Where a thread is. *)
Inductive local :=
| Outside                                 (* not in secp256k1() *)
| AtOnce                                  (* line 16, before call_once has looked at the Once *)
| Building                                (* lines 17-41, in the closure *)
| Writing (d : params) (todo : list part) (* line 42 *)
| AtRead                                  (* line 45 *)
| Panicked.
(** What has happened, the last event first. *)
Inductive event :=
| EBuilt (t : nat)                        (* the thread ran lines 17-41 *)
| EReturned (t : nat)                     (* line 46: it got the reference *)
| EUsed (t : nat) (p : part) (c : content). (* some thread read a part of the parameters through a reference *)
Record state := mkState { st_once : once; st_memory : memory; st_local : nat -> local; st_events : list event }.
Definition initial : state := mkState Incomplete memory_init (fun _ => Outside) [].
Definition set_local (l : nat -> local) (t : nat) (x : local) : nat -> local := fun u => if Nat.eqb u t then x else l u.
Definition without (p : part) (l : list part) : list part := filter (fun q => negb (part_eqb q p)) l.

Section WithCfg.
Context {cfg : digit_cfg}.

(** A step of thread [t].  The Once and the memory are shared. *)
Inductive step (t : nat) : state -> state -> Prop :=
| SCall o m l e : l t = Outside ->
    step t (mkState o m l e) (mkState o m (set_local l t AtOnce) e)
(* call_once: the first caller runs the closure *)
| SFirst m l e : l t = AtOnce ->
    step t (mkState Incomplete m l e) (mkState Running m (set_local l t Building) e)
(* it is done: go on.  While it is Running there is no step: the thread is blocked *)
| SDone m l e : l t = AtOnce ->
    step t (mkState Complete m l e) (mkState Complete m (set_local l t AtRead) e)
| SPoisoned m l e : l t = AtOnce ->
    step t (mkState Poisoned m l e) (mkState Poisoned m (set_local l t Panicked) e)
(* lines 17-41, on the thread's own stack *)
| SBuild o m l e d : l t = Building -> secp256k1 = Ret d ->
    step t (mkState o m l e) (mkState o m (set_local l t (Writing d parts)) (EBuilt t :: e))
| SBuildPanic o m l e : l t = Building -> secp256k1 = Panic ->
    step t (mkState o m l e) (mkState Poisoned m (set_local l t Panicked) e)
(* line 42, some part *)
| SWrite o m l e d todo p : l t = Writing d todo -> In p todo ->
    step t (mkState o m l e) (mkState o (store m p (stored d p)) (set_local l t (Writing d (without p todo))) e)
(* the end of the closure *)
| SWritten o m l e d : l t = Writing d [] ->
    step t (mkState o m l e) (mkState Complete m (set_local l t AtRead) e)
(* line 45: [as_ref().unwrap()] looks at the tag *)
| SRead o m l e : l t = AtRead -> m PTag = CTag true ->
    step t (mkState o m l e) (mkState o m (set_local l t Outside) (EReturned t :: e))
| SReadPanic o m l e : l t = AtRead -> m PTag <> CTag true ->
    step t (mkState o m l e) (mkState o m (set_local l t Panicked) e)
(* any thread may use a reference once some call has returned it: it is shared and 'static *)
| SUse o m l e u p : l t = Outside -> In (EReturned u) e ->
    step t (mkState o m l e) (mkState o m l (EUsed t p (m p) :: e)).
End WithCfg.

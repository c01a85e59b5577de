(** Model of src/crypto/codecs.rs:35-153, hex conversion, as programs in a small language whose execution records what an
    observer of the machine may see: which operations are executed, the outcome of every test, which index is read or
    written, and how much is allocated.  Operands are not recorded.

    This is the usual leakage model of constant time code: the instructions executed and the addresses accessed.  It supposes that
    each operation on i8, u8 and u16 takes a time which does not depend on its operands, as on the usual machines, and that the
    compiler adds no test.  What is computed is proved to be what M_Codec computes, see C73. *)

From Coq Require Import String.
From Verif Require Import Base M_Codec.
Open Scope Z_scope.

(** The types of the numbers in this code. *)
Inductive ity := I8 | U8 | U16 | USIZE.
Definition ity_eqb (a b : ity) : bool := match a, b with I8, I8 | U8, U8 | U16, U16 | USIZE, USIZE => true | _, _ => false end.
Definition ity_size (t : ity) : Z := match t with I8 | U8 => 256 | U16 => 65536 | USIZE => 2 ^ 64 end.
Definition ity_low (t : ity) : Z := match t with I8 => -128 | _ => 0 end.
Definition in_range (t : ity) (z : Z) : bool := (ity_low t <=? z) && (z <? ity_low t + ity_size t).
(** the conversion [as], and wrapping *)
Definition wrap (t : ity) (z : Z) : Z := (z - ity_low t) mod ity_size t + ity_low t.

(** [+], [-], [*] check for overflow; [/] is used with the divisor 2 only; shifts are by constants less than the width. *)
Inductive binop := OAdd | OSub | OMul | OWrappingSub | OAnd | OOr | OXor | OShr | OShl | ODiv.
Definition checked (o : binop) : bool := match o with OAdd | OSub | OMul => true | _ => false end.
Definition binop_value (t : ity) (o : binop) (a b : Z) : Z :=
  match o with
  | OAdd => a + b
  | OSub => a - b
  | OMul => a * b
  | OWrappingSub => wrap t (a - b)
  | OAnd => Z.land a b
  | OOr => Z.lor a b
  | OXor => Z.lxor a b
  | OShr => Z.shiftr a b
  | OShl => wrap t (Z.shiftl a b)
  | ODiv => a / b
  end.

Inductive expr :=
| ELit (t : ity) (z : Z)
| EVar (x : string)
| EItem (i : nat)              (* element [i] of the chunk: a read *)
| ELen                         (* the length of the input *)
| ENot (e : expr)              (* [!] *)
| ECast (t : ity) (e : expr)   (* [as] *)
| EBin (o : binop) (e f : expr).
Inductive stmt :=
| SLet (x : string) (e : expr)                       (* let, or assignment *)
| SAlloc (e : expr)                                  (* Vec::with_capacity *)
| SErrIf (e : expr) (k : Z) (err : codecs_error)     (* if e == k { return Err(err) } *)
| SErrUnless (e : expr) (k : Z) (err : codecs_error) (* if e != k { return Err(err) } *)
| SPush (e : expr).                                  (* push: no reallocation, there is room *)
(** A function: what comes before the loop, the size of the chunks, and the body. *)
Record func := mkFunc { f_head : list stmt; f_chunk : nat; f_body : list stmt }.

(** What is observed. *)
Inductive obs :=
| ObOp (o : option binop) (t : ity)  (* an operation; [None] for [!] *)
| ObCast (t : ity)
| ObCheck (ok : bool)                (* the test for overflow *)
| ObRead (i : nat)                   (* the element of the chunk *)
| ObTest (b : bool)                  (* the outcome of a test *)
| ObAlloc (n : Z)
| ObPush (i : nat)                   (* the index written *)
| ObIter.                            (* another round of the loop *)
Definition env := list (string * (ity * Z)).
Fixpoint lookup (x : string) (e : env) : option (ity * Z) :=
  match e with [] => None | (y, v) :: e' => if String.eqb x y then Some v else lookup x e' end.

(** The value, or [None] for a panic (or an ill-typed program), and what is observed. *)
Fixpoint eval (len : Z) (chunk : list Z) (v : env) (e : expr) : option (ity * Z) * list obs :=
  match e with
  | ELit t z => (Some (t, z), [])
  | EVar x => (lookup x v, [])
  | EItem i => (match nth_error chunk i with Some z => Some (U8, z) | None => None end, [ObRead i])
  | ELen => (Some (USIZE, len), [])
  | ENot f =>
    match eval len chunk v f with
    | (Some (t, z), tr) => (Some (t, wrap t (Z.lnot z)), tr ++ [ObOp None t])
    | (None, tr) => (None, tr)
    end
  | ECast t f =>
    match eval len chunk v f with
    | (Some (_, z), tr) => (Some (t, wrap t z), tr ++ [ObCast t])
    | (None, tr) => (None, tr)
    end
  | EBin o f g =>
    match eval len chunk v f with
    | (Some (t, a), tr) =>
      match eval len chunk v g with
      | (Some (u, b), tr') =>
        if ity_eqb t u then
          let r := binop_value t o a b in
          if checked o
          then (if in_range t r then Some (t, r) else None, tr ++ tr' ++ [ObOp (Some o) t; ObCheck (in_range t r)])
          else (Some (t, r), tr ++ tr' ++ [ObOp (Some o) t])
        else (None, tr ++ tr')
      | (None, tr') => (None, tr ++ tr')
      end
    | (None, tr) => (None, tr)
    end
  end.

(** Where execution stands: going on, returned an error, or panicked. *)
Inductive flow := Go (v : env) (out : list Z) | Return (err : codecs_error) | Crash.
Definition exec1 (len : Z) (chunk : list Z) (v : env) (out : list Z) (s : stmt) : flow * list obs :=
  match s with
  | SLet x e =>
    match eval len chunk v e with (Some r, tr) => (Go ((x, r) :: v) out, tr) | (None, tr) => (Crash, tr) end
  | SAlloc e =>
    match eval len chunk v e with (Some (_, n), tr) => (Go v out, tr ++ [ObAlloc n]) | (None, tr) => (Crash, tr) end
  | SErrIf e k err =>
    match eval len chunk v e with
    | (Some (_, z), tr) => (if z =? k then Return err else Go v out, tr ++ [ObTest (z =? k)])
    | (None, tr) => (Crash, tr)
    end
  | SErrUnless e k err =>
    match eval len chunk v e with
    | (Some (_, z), tr) => (if z =? k then Go v out else Return err, tr ++ [ObTest (z =? k)])
    | (None, tr) => (Crash, tr)
    end
  | SPush e =>
    match eval len chunk v e with
    | (Some (_, z), tr) => (Go v (out ++ [z]), tr ++ [ObPush (length out)])
    | (None, tr) => (Crash, tr)
    end
  end.
Fixpoint exec (len : Z) (chunk : list Z) (v : env) (out : list Z) (p : list stmt) : flow * list obs :=
  match p with
  | [] => (Go v out, [])
  | s :: p' =>
    match exec1 len chunk v out s with
    | (Go v' out', tr) => let '(r, tr') := exec len chunk v' out' p' in (r, tr ++ tr')
    | (r, tr) => (r, tr)
    end
  end.
(** The loop over the chunks.  Variables of the body do not outlive it. *)
Fixpoint loop (len : Z) (body : list stmt) (chunks : list (list Z)) (out : list Z) : flow * list obs :=
  match chunks with
  | [] => (Go [] out, [])
  | c :: cs =>
    match exec len c [] out body with
    | (Go _ out', tr) => let '(r, tr') := loop len body cs out' in (r, ObIter :: tr ++ tr')
    | (r, tr) => (r, ObIter :: tr)
    end
  end.
(** [chunks_exact(n)] *)
Fixpoint chunks_exact (fuel n : nat) (l : list Z) : list (list Z) :=
  match fuel with
  | O => []
  | S fuel' => if (length l <? n)%nat then [] else firstn n l :: chunks_exact fuel' n (skipn n l)
  end.
Definition call (f : func) (input : list Z) : outcome (result codecs_error (list Z)) * list obs :=
  let len := Z.of_nat (length input) in
  match exec len [] [] [] (f_head f) with
  | (Go _ out, tr) =>
    let '(r, tr') := loop len (f_body f) (chunks_exact (length input) (f_chunk f) input) out in
    (match r with Go _ out' => Ret (Ok out') | Return e => Ret (Err e) | Crash => Panic end, tr ++ tr')
  | (Return e, tr) => (Ret (Err e), tr)
  | (Crash, tr) => (Panic, tr)
  end.

(** * The code *)
Local Open Scope string_scope.
Definition i8 (z : Z) := ELit I8 z.
Definition u8 (z : Z) := ELit U8 z.
Definition u16 (z : Z) := ELit U16 z.
Definition us (z : Z) := ELit USIZE z.

(** src/crypto/codecs.rs:70-71: [(87 + nibble + (((nibble - 10) >> 7) & -39)) as u8] *)
Definition nibble_expr (x : string) : expr :=
  ECast U8 (EBin OAdd (EBin OAdd (i8 87) (EVar x)) (EBin OAnd (EBin OShr (EBin OSub (EVar x) (i8 10)) (i8 7)) (i8 (-39)))).
(** src/crypto/codecs.rs:35-76 *)
Definition BYTES_TO_LOWER_HEX : func := mkFunc
  [SAlloc (EBin OMul ELen (us 2))]                              (* 37 *)
  1
  [SLet "low_nibble" (ECast I8 (EBin OAnd (EItem 0) (u8 15)));  (* 40 *)
   SLet "high_nibble" (ECast I8 (EBin OShr (EItem 0) (u8 4)));  (* 41 *)
   SPush (nibble_expr "high_nibble");                           (* 71 *)
   SPush (nibble_expr "low_nibble")].                           (* 72 *)

(** src/crypto/codecs.rs:105-134, and again 138-145: one character *)
Definition char_stmts (i : nat) : list stmt :=
  [SLet "c" (ECast U16 (EItem i));                                                        (* 105, 138 *)
   SLet "c_num" (EBin OXor (EVar "c") (u16 48));                                          (* 109, 139 *)
   SLet "c_num0" (EBin OShr (EBin OWrappingSub (EVar "c_num") (u16 10)) (u16 8));         (* 113, 140 *)
   SLet "c_alpha" (EBin OWrappingSub (EBin OAnd (EVar "c") (ENot (u16 32))) (u16 55));    (* 116, 141 *)
   SLet "c_alpha0" (EBin OShr (EBin OXor (EBin OWrappingSub (EVar "c_alpha") (u16 10))
                                         (EBin OWrappingSub (EVar "c_alpha") (u16 16))) (u16 8)); (* 130, 142 *)
   SErrIf (EBin OOr (EVar "c_num0") (EVar "c_alpha0")) 0 InvalidCharFound;                (* 132, 143 *)
   SLet "c_val" (EBin OOr (EBin OAnd (EVar "c_num0") (EVar "c_num"))
                          (EBin OAnd (EVar "c_alpha0") (EVar "c_alpha")))].               (* 135, 146 *)
(** src/crypto/codecs.rs:96-153 *)
Definition HEX_TO_BYTES : func := mkFunc
  [SErrUnless (EBin OAnd ELen (us 1)) 0 NotByteAligned;         (* 98-101 *)
   SAlloc (EBin ODiv ELen (us 2))]                              (* 103 *)
  2
  (char_stmts 0 ++
   [SLet "c_acc" (EBin OShl (ECast U8 (EVar "c_val")) (u8 4))] ++   (* 136 *)
   char_stmts 1 ++
   [SLet "c_acc" (EBin OOr (EVar "c_acc") (ECast U8 (EVar "c_val"))); (* 147 *)
    SPush (EVar "c_acc")]).                                     (* 149 *)

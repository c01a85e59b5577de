(** Model of src/random (os_random.rs, error.rs, linux.rs, apple.rs, windows.rs) and of the wrappers it
    calls in src/os. The operating system is a parameter: what its routine wrote and what it returned. *)

From Verif Require Import Base.
Open Scope Z_scope.

(** src/random/error.rs:13-18 *)
Inductive get_os_random_bytes_error :=
| AppleSecRandom (status : Z)
| LinuxGetRandom (errno : Z)
| LinuxGetRandomCopiedNumberLessThanRequested
| WindowsBCryptGenRandom (status : Z).

(** One call of a routine of the operating system on a buffer: the value returned, the bytes it has written at the
    start of the buffer, and the value of [errno] afterwards. *)
Record os_reply := mkReply { os_ret : Z; os_written : list Z; os_errno : Z }.
(** The operating system: its reply to the i-th call, given the length of the buffer. *)
Definition os := nat -> nat -> os_reply.
(** The buffer after the call. *)
Definition os_buffer (r : os_reply) (buf : list Z) : list Z := os_written r ++ skipn (length (os_written r)) buf.

(** src/os/linux.rs:41-61, getrandom: the buffer afterwards and the result *)
Definition getrandom (r : os_reply) (dest : list Z) : list Z * result Z Z :=
  if os_ret r =? -1 then (os_buffer r dest, Err (os_errno r)) else (os_buffer r dest, Ok (os_ret r)).

(** [slice::chunks_mut]: consecutive chunks of [n] elements, the last one possibly shorter *)
Fixpoint chunks (fuel n : nat) (l : list Z) : list (list Z) :=
  match fuel, l with
  | _, [] | O, _ => []
  | S f, _ => firstn n l :: chunks f n (skipn n l)
  end.

(** src/random/linux.rs:19-30: the loop over the chunks; [i]: calls made so far, [done]: chunks already filled *)
Fixpoint linux_loop (o : os) (i : nat) (done : list Z) (cs : list (list Z))
  : outcome (result get_os_random_bytes_error (list Z)) :=
  match cs with
  | [] => Ret (Ok done)
  | chunk :: cs' =>
      let '(chunk', r) := getrandom (o i (length chunk)) chunk in
      match r with
      | Ok len =>
          (* usize::try_from(len).unwrap() *)
          assert! (0 <=? len) ;;
          if negb (len =? Z.of_nat (length chunk)) then Ret (Err LinuxGetRandomCopiedNumberLessThanRequested)
          else linux_loop o (S i) (done ++ chunk') cs'
      | Err errno => Ret (Err (LinuxGetRandom errno))
      end
  end.

(** src/random/linux.rs:5-33 *)
Definition linux_random (o : os) (len : Z) : outcome (result get_os_random_bytes_error (list Z)) :=
  let bytes := repeat 0 (Z.to_nat len) in
  linux_loop o 0 [] (chunks (length bytes) 256 bytes).

(** src/random/apple.rs:13-22 *)
Definition apple_random (o : os) (len : Z) : outcome (result get_os_random_bytes_error (list Z)) :=
  let bytes := repeat 0 (Z.to_nat len) in
  let r := o 0%nat (length bytes) in
  if os_ret r =? 0 then Ret (Ok (os_buffer r bytes)) else Ret (Err (AppleSecRandom (os_ret r))).

(** src/random/windows.rs:13-25; the status is a u32 *)
Definition windows_random (o : os) (len : Z) : outcome (result get_os_random_bytes_error (list Z)) :=
  let bytes := repeat 0 (Z.to_nat len) in
  let r := o 0%nat (length bytes) in
  if Z.shiftr (os_ret r) 30 =? 3 then Ret (Err (WindowsBCryptGenRandom (os_ret r))) else Ret (Ok (os_buffer r bytes)).

(** The target operating systems. *)
Inductive target := Linux | MacOs | Windows.
(** src/random/os_random.rs:24-33 *)
Definition get_os_random_bytes (t : target) (o : os) (len : Z) : outcome (result get_os_random_bytes_error (list Z)) :=
  match t with Linux => linux_random o len | MacOs => apple_random o len | Windows => windows_random o len end.

(** Specification of the programs in examples/: how bytes are given on the command line, and JSON documents. *)

From Coq Require Import String.
From Verif Require Import Base M_BigInt M_Rlp M_Tx M_TxSign M_Random M_Examples S_Curve S_Hash S_Codec S_Rlp S_EthTypes S_Tx S_RlpRead S_Eoa S_Display.
Open Scope Z_scope.
Local Open Scope list_scope.

(** The text [s] is the bytes in hexadecimal, two digits for each byte, in either case. *)
Definition spells (s bs : list Z) : Prop := digits_of 16 s (flat_map (fun b => [b / 16; b mod 16]) bs).
(** The argument is such a text, with or without 0x before it. *)
Definition given (arg : option (list Z)) (bs : list Z) : Prop :=
  bytes bs /\ exists s, spells s bs /\ (arg = Some s \/ arg = Some (ascii "0x" ++ s)).

(** RFC 8259, for arrays and strings that need no escapes: a tree as a JSON document, each string of bytes being written as
    a JSON string, "0x" and the bytes in lower case hexadecimal digits.  There may be white space between the tokens. *)
Definition ws (w : list Z) : Prop := Forall (fun c => c = 32 \/ c = 9 \/ c = 10 \/ c = 13) w.
Inductive json_text : item -> list Z -> Prop :=
| jt_string b : bytes b -> json_text (Str b) (34 :: ascii "0x" ++ hex b ++ [34])
| jt_empty w : ws w -> json_text (Lst []) (ascii "[" ++ w ++ ascii "]")
| jt_array l t : json_elements l t -> json_text (Lst l) (ascii "[" ++ t ++ ascii "]")
with json_elements : list item -> list Z -> Prop :=
| je_last i w t w' : ws w -> json_text i t -> ws w' -> json_elements [i] (w ++ t ++ w')
| je_more i w t w' l u : ws w -> json_text i t -> ws w' -> json_elements l u -> json_elements (i :: l) (w ++ t ++ w' ++ ascii "," ++ u).

(** What a transaction is broadcast as: EIP-2930 and EIP-1559 put their type before the list. *)
Definition wire {cfg : digit_cfg} (t : transaction) : option (list Z) :=
  match t with
  | TLegacy _ | T155 _ => RLP (tx_item t)
  | T2930 _ => option_map (cons 1) (RLP (tx_item t))
  | T1559 _ => option_map (cons 2) (RLP (tx_item t))
  end.

(** The bytes are read as the transaction [t].  Lists may have long headers and integers leading zeros (S_RlpRead.v); without a
    type, v decides between EIP-155 and what was before it; the chain id of EIP-155 is a quarter of v - 35 ([means_155]). *)
Definition reads_tx {cfg : digit_cfg} (data : list Z) (t : transaction) : Prop :=
  match t with
  | T1559 t => exists i rest, data = 2 :: rest /\ lax_rlp i rest /\ means_1559 i t
  | T2930 t => exists i rest, data = 1 :: rest /\ lax_rlp i rest /\ means_2930 i t
  | T155 t => exists i, lax_rlp i data /\ means_155 i t
  | TLegacy t => exists i, lax_rlp i data /\ means_legacy i t /\ tl_v t < 35
  end.

(** 32 bytes that are a private key - a number d from 1 to n - 1 - and the address of d G. *)
Definition key_address (key a : list Z) : Prop :=
  bytes key /\ length key = 32%nat /\ 1 <= be_val key <= e_order SECP256K1 - 1 /\
  exists x y, emul (e_curve SECP256K1) (be_val key) (e_base SECP256K1) = Some (x, y) /\ a = ADDRESS x y.
(** A number in decimal, perhaps after a plus sign. *)
Definition decimal (s : list Z) (n : Z) : Prop :=
  exists t vs, (s = t \/ s = ascii "+" ++ t) /\ t <> [] /\ digits_of 10 t vs /\ n = positional 10 vs.
(** The address, in hexadecimal with the capitals of EIP-55, starts with these characters. *)
Definition has_prefix (p a : list Z) : Prop := exists r, EIP55 a = p ++ r.
(** A prefix that is asked for: 1 to 39 hexadecimal digits. *)
Definition wanted (p : list Z) : Prop := (1 <= length p <= 39)%nat /\ exists vs, digits_of 16 p vs.
(** The turn produces that key. *)
Definition produces (env : nat -> turn) (i : nat) (key : list Z) : Prop := turn_random (env i) = Ret (Ok key).
Definition banner : list Z := ascii "=====================" ++ newline.
Definition found_text (key a : list Z) : list Z :=
  banner ++ ascii "Vanity Address Found!" ++ newline ++ banner ++
  ascii "public address: 0x" ++ EIP55 a ++ newline ++ ascii "private key: 0x" ++ hex key ++ newline.
(** What is printed on the way: at each turn that reports, the number of keys so far, how many per cent that is of the number
    expected, 32 for each character, and how many there were per second. *)
Inductive reports (env : nat -> turn) (expected : Z) : nat -> list Z -> Prop :=
| reports_start : reports env expected 0 []
| reports_quiet n z : reports env expected n z -> turn_report (env n) = None -> reports env expected (S n) z
| reports_line n z secs c p r : reports env expected n z -> turn_report (env n) = Some secs ->
    numeral 10 c (Z.of_nat (S n)) -> numeral 10 p (Z.of_nat (S n) * 100 / expected) -> numeral 10 r (Z.of_nat (S n) / secs) ->
    reports env expected (S n) (z ++ ascii "> " ++ c ++ ascii ", " ++ p ++ ascii "%, " ++ r ++ ascii "/s" ++ newline).
(** Integers in decimal, and the messages for the errors of the operating system. *)
Definition shows_int (t : list Z) (n : Z) : Prop :=
  exists d, numeral 10 d (Z.abs n) /\ no_leading_zero d /\ t = if n <? 0 then ascii "-" ++ d else d.
Definition shows_random_error (e : get_os_random_bytes_error) (m : list Z) : Prop :=
  match e with
  | AppleSecRandom n => exists t, shows_int t n /\ m = ascii "SecRandomCopyBytes failed with status " ++ t
  | LinuxGetRandom n => exists t, shows_int t n /\ m = ascii "getrandom failed with errno " ++ t
  | LinuxGetRandomCopiedNumberLessThanRequested => m = ascii "getrandom failed: the number of bytes copied is less than the number requested"
  | WindowsBCryptGenRandom n => exists t, shows_int t n /\ m = ascii "BCryptGenRandom failed with status " ++ t
  end.
(** the numbers are 32 bits wide *)
Definition error_number (e : get_os_random_bytes_error) : Z :=
  match e with AppleSecRandom n | LinuxGetRandom n | WindowsBCryptGenRandom n => n | LinuxGetRandomCopiedNumberLessThanRequested => 0 end.

(** Property C73: what hex conversion leaks through time.
    Statements only: proofs are in P_Leak.v. *)

From Coq Require Import String.
From Verif Require Import Base M_Codec M_Leak S_Codec S_Leak.
From Verif Require P_Leak.
Open Scope Z_scope.
Local Open Scope list_scope.

(** * C73

    The programs compute what the functions of M_Codec do, and do not panic. *)
Theorem C73_encode_value : forall bs, bytes bs -> Z.of_nat (length bs) < 2 ^ 63 ->
  fst (call BYTES_TO_LOWER_HEX bs) = Ret (Ok (bytes_to_lower_hex bs)).
Proof. exact @P_Leak.encode_value. Qed.
Print Assumptions C73_encode_value.
Theorem C73_decode_value : forall s, bytes s -> fst (call HEX_TO_BYTES s) = Ret (hex_to_bytes s).
Proof. exact @P_Leak.decode_value. Qed.
Print Assumptions C73_decode_value.
(** Encoding: what is observed depends on the number of bytes only. *)
Theorem C73_encode_constant : forall bs bs', bytes bs -> bytes bs' -> Z.of_nat (length bs) < 2 ^ 63 -> length bs = length bs' ->
  snd (call BYTES_TO_LOWER_HEX bs) = snd (call BYTES_TO_LOWER_HEX bs').
Proof. exact @P_Leak.encode_constant. Qed.
Print Assumptions C73_encode_constant.
(** Decoding hexadecimal text: it depends on the length only, not on the digits or their case. *)
Theorem C73_decode_constant : forall s s' vs vs', digits_of 16 s vs -> digits_of 16 s' vs' -> length s = length s' ->
  snd (call HEX_TO_BYTES s) = snd (call HEX_TO_BYTES s').
Proof. exact @P_Leak.decode_constant. Qed.
Print Assumptions C73_decode_constant.
(** Decoding anything: exactly the length and the position of the first character which is no digit are revealed,
    and of text of odd length nothing but that. *)
Theorem C73_decode_leaks : forall s s', bytes s -> bytes s' ->
  (snd (call HEX_TO_BYTES s) = snd (call HEX_TO_BYTES s') <->
   Nat.even (length s) = false /\ Nat.even (length s') = false \/
   Nat.even (length s) = true /\ length s = length s' /\ first_bad s = first_bad s').
Proof. exact @P_Leak.decode_leaks. Qed.
Print Assumptions C73_decode_leaks.

(** "0f" and "Da" look the same, "0g" and "g0" do not. *)
Example C73_case :
  digits_of 16 [48; 102] [0; 15] /\ digits_of 16 [68; 97] [13; 10] /\
  fst (call HEX_TO_BYTES [68; 97]) = Ret (Ok [218]) /\ length (snd (call HEX_TO_BYTES [68; 97])) = 44%nat /\
  first_bad [48; 103] = Some 1%nat /\ first_bad [103; 48] = Some 0%nat /\
  snd (call HEX_TO_BYTES [48; 103]) <> snd (call HEX_TO_BYTES [103; 48]) /\
  fst (call BYTES_TO_LOWER_HEX [218]) = Ret (Ok [100; 97]).
Proof.
  repeat match goal with |- _ /\ _ => split end; try reflexivity; [repeat constructor; cbn; lia..|].
  vm_compute. discriminate.
Qed.

(** Specification for C79: error messages, and what is wrong with a text that is not decoded. *)

From Coq Require Import String.
From Verif Require Import Base M_Codec M_BigText M_Random M_Ecdsa M_Rfc6979 M_Encoding M_Tx M_TxSign S_Codec S_Curve S_EcModel S_Ecdsa S_Encoding S_Display S_Text S_Examples.
Open Scope Z_scope.
Local Open Scope list_scope.

(** The messages are printable and never empty, and different errors have different messages. *)
Definition good_messages {E : Type} (possible : E -> Prop) (message : E -> list Z) : Prop :=
  (forall e, possible e -> plain (message e) /\ message e <> []) /\
  (forall e e', possible e -> possible e' -> message e = message e' -> e = e').

(** The numbers of the operating system's errors have 32 bits. *)
Definition random_error_ok (e : get_os_random_bytes_error) : Prop := - 2 ^ 31 <= error_number e < 2 ^ 32.
Definition nonce_error_ok (e : generate_nonce_error) : Prop := match e with FailedToGenerateRandomBytes e => random_error_ok e end.
Definition signing_error_ok (e : signing_error) : Prop := match e with SFailedToGenerateNonce e => nonce_error_ok e | _ => True end.
Definition building_error_ok (e : TransactionBuildingError + signing_failure) : Prop := match e with inr (SigningError e) => signing_error_ok e | inl _ => True end.

(** The call fails with the message [m]. *)
Definition fails_with {E A : Type} (message : E -> list Z) (o : outcome (result E A)) (m : list Z) : Prop :=
  exists e, o = Ret (Err e) /\ message e = m.

(** ** Keys as text.  Coordinates of [L] bytes, on a curve y^2 = x^3 + ax + b. *)
Section Sec1.
Context (D : eparams) (data : list Z).
Let L := nbytes (e_order D).
Let C := e_curve D.
(** "04" and twice 2 L characters; "02" or "03" and at least 2 L characters *)
Definition shape_uncompressed (xs ys : list Z) : Prop := data = ascii "04" ++ xs ++ ys /\ length xs = (2 * L)%nat /\ length ys = (2 * L)%nat.
Definition shape_compressed (odd : bool) (s : list Z) : Prop := data = ascii (if odd then "03" else "02") ++ s /\ (2 * L <= length s)%nat.
Definition cubic (x : Z) : Z := (x * x * x + ea C * x + eb C) mod ep C.

(** What is wrong with the text, in words. *)
Inductive sec1_error : list Z -> Prop :=
| bad_format : (forall xs ys, ~ shape_uncompressed xs ys) -> (forall odd s, ~ shape_compressed odd s) -> sec1_error (ascii "Invalid format")
| bad_x xs ys : shape_uncompressed xs ys -> (forall x, ~ hex_number L xs x) -> sec1_error (ascii "Invalid x")
| bad_x' odd s : shape_compressed odd s -> (forall x, ~ signed_hex L x s) -> sec1_error (ascii "Invalid x")
| bad_y xs ys x : shape_uncompressed xs ys -> hex_number L xs x -> (forall y, ~ hex_number L ys y) -> sec1_error (ascii "Invalid y")
| no_y odd s x : shape_compressed odd s -> signed_hex L x s -> (forall y, (y * y) mod ep C <> cubic x) -> sec1_error (ascii "Y not found")
| bad_point xs ys x y : shape_uncompressed xs ys -> hex_number L xs x -> hex_number L ys y -> ~ valid_public D x y -> sec1_error (ascii "Invalid point")
| bad_point' odd s x y : shape_compressed odd s -> signed_hex L x s ->
    0 <= y < ep C -> (y * y) mod ep C = cubic x -> Z.odd y = odd -> ~ valid_public D x y -> sec1_error (ascii "Invalid point").
End Sec1.

(** ** Signatures as text *)
Definition p1363_error (n : Z) (data m : list Z) : Prop :=
  (m = ascii "Invalid format" /\ forall r s, ~ p1363 (nbytes n) r s data) \/
  (m = ascii "Invalid signature" /\ exists r s, p1363 (nbytes n) r s data /\ ~ (1 <= r < n /\ 1 <= s < n)).

(** ** Hexadecimal numbers: a sign alone; an odd number of digits; something else than digits *)
Definition hex_error (s m : list Z) : Prop :=
  (m = ascii "Invalid input" /\ (s = ascii "+" \/ s = ascii "-")) \/
  (m = ascii "Codecs error: Not 1-byte aligned" /\ Nat.even (digit_count s) = false) \/
  (m = ascii "Codecs error: Invalid char found" /\ Nat.even (digit_count s) = true /\ s <> ascii "+" /\ s <> ascii "-" /\ forall v, ~ denotes 16 s v).
(** Hexadecimal numbers without a minus sign *)
Definition unsigned_hex_error (s m : list Z) : Prop :=
  hex_error s m \/
  (m = ascii "Invalid input" /\ (exists v, denotes 16 s v) /\ Nat.even (digit_count s) = true /\ exists u, s = ascii "-" ++ u).

(** Property C74: the texts the library produces are printable ASCII.
    Statements only: proofs are in P_Text.v. *)

From Verif Require Import Base M_Codec M_BigInt M_BigText M_Rlp M_EthTypes M_Tx M_TxSign M_Display M_Leak
  S_BigInt S_EthTypes S_Tx S_Eoa S_Text.
From Verif Require P_Text P_Leak.
Open Scope Z_scope.

(** * C74

    Printable text is UTF-8: this is what String::from_utf8_unchecked, used for hexadecimal text, requires, and why
    String::from_utf8(..).unwrap(), used for addresses, does not panic. *)
Theorem C74_utf8 : forall t, plain t -> UTF8 t /\ utf8_valid t = true.
Proof. exact @P_Text.plain_utf8. Qed.
Print Assumptions C74_utf8.
(** Hexadecimal text of any bytes is printable ... *)
Theorem C74_hex : forall bs, bytes bs -> plain (bytes_to_lower_hex bs).
Proof. exact @P_Text.bytes_plain. Qed.
Print Assumptions C74_hex.
(** ... and so are that of integers, ... *)
Theorem C74_bigint : forall (cfg : digit_cfg) x t, wf x -> bi_to_lower_hex x = Ret t \/ bi_display x = Ret t -> plain t.
Proof. exact @P_Text.bigint_plain. Qed.
Print Assumptions C74_bigint.
(** ... of addresses, ... *)
Theorem C74_address : forall be a, address_ok a ->
  exists t, to_checksummed_hex be a = Ret t /\ plain t /\ address_display be a = Ret (48 :: 120 :: t).
Proof. exact @P_Text.address_plain. Qed.
Print Assumptions C74_address.
(** ... and of payloads and transactions, whatever the data: nothing in a transaction can smuggle control characters
    onto the screen. *)
Theorem C74_payload : forall (cfg : digit_cfg) be p t, payload_ok p -> payload_display be p = Ret t -> plain t.
Proof. exact @P_Text.payload_plain. Qed.
Print Assumptions C74_payload.
Theorem C74_transaction : forall (cfg : digit_cfg) be t x, tx_ok t -> transaction_display be t = Ret x -> plain x.
Proof. exact @P_Text.transaction_plain. Qed.
Print Assumptions C74_transaction.

(** An escape sequence as data; it is not printable, its text is.  The payloads of C71_case meet the hypotheses above. *)
Example C74_case : bytes [27; 91; 50; 74] /\ ~ plain [27; 91; 50; 74] /\ bytes_to_lower_hex [27; 91; 50; 74] = [49; 98; 53; 98; 51; 50; 52; 97].
Proof.
  split; [repeat constructor; discriminate|]. split; [|reflexivity]. intros H. inversion H as [|? ? A _]. cbn in A. destruct A as [A|[A _]]; [discriminate A|apply A; reflexivity].
Qed.

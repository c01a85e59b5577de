(** Properties C44-C46, C56 and C78 (SSZ).

    The specification is in S_Ssz: [has_type], [SSZ] (the serialisation of the consensus
    specification), [legal] types; and in S_SszRead: [reads] and [breaks], what the decoder
    reads from bytes and which bytes make it panic. *)

From Verif Require Import Base M_Ssz S_Ssz S_SszRead S_SszZero P_Ssz P_Ssz2 P_Ssz3 P_Ssz4 P_SszRead P_SszCanon.
From Verif Require P_SszZero.
Open Scope Z_scope.

(** * C44 *)
(** The encoder is the serialisation of the specification. *)
Theorem C44_encode_spec : forall (bld : build) t v, legal t -> has_type t v -> Z.of_nat (length (SSZ t v)) < 2 ^ 32 -> ssz_encode t v = Ret (SSZ t v).
Proof. exact @encode_ok. Qed.
Print Assumptions C44_encode_spec.
(** The round trip, but not for values with an empty list of variable-size elements. *)
Theorem C44_roundtrip_partial : forall (bld : build) t v, legal t -> has_type t v -> no_empty_var_list t v -> Z.of_nat (length (SSZ t v)) < 2 ^ 32 ->
  exists bs, ssz_encode t v = Ret bs /\ ssz_decode t bs = Ret (Ok v).
Proof. intros bld t v L T N B. exists (SSZ t v). exact (ssz_roundtrip t v L T N B). Qed.
Print Assumptions C44_roundtrip_partial.
(** [Vec<Vec<u8>>], empty: the encoding is empty and decoding it panics *)
Theorem C44_refuted : forall (bld : build), exists t v bs, legal t /\ has_type t v /\ ssz_encode t v = Ret bs /\ ssz_decode t bs = Panic.
Proof. intros []; exists (SVec (SVec (SUint W8))), (VSeq []), []; (repeat split; constructor). Qed.
Print Assumptions C44_refuted.
(** and exactly those values: decoding the encoding panics for every value with an empty list of variable-size elements *)
Theorem C44_roundtrip_exact : forall (bld : build) t v, legal t -> has_type t v -> Z.of_nat (length (SSZ t v)) < 2 ^ 32 ->
  (no_empty_var_list t v -> ssz_decode t (SSZ t v) = Ret (Ok v)) /\ (~ no_empty_var_list t v -> ssz_decode t (SSZ t v) = Panic).
Proof. exact @roundtrip_exact. Qed.
Print Assumptions C44_roundtrip_exact.
(** struct { a: u16, b: Vec<[bool; 2]>, c: Vec<Vec<u8>>, d: [Vec<u32>; 1] } *)
Definition struct1 : sty := SStruct [SUint W16; SVec (SArray SBool 2); SVec (SVec (SUint W8)); SArray (SVec (SUint W32)) 1].
Definition value1 : sval := VSeq [VNum 0xABCD; VSeq [VSeq [VBool true; VBool false]; VSeq [VBool true; VBool true]];
  VSeq [VSeq []; VSeq [VNum 7; VNum 255]]; VSeq [VSeq [VNum 0xDEADBEEF]]].
Example C44_witness : forall bld : build, legal struct1 /\ has_type struct1 value1 /\ no_empty_var_list struct1 value1 /\
  ssz_encode struct1 value1 = Ret [0xCD; 0xAB; 14; 0; 0; 0; 18; 0; 0; 0; 28; 0; 0; 0; 1; 0; 1; 1; 8; 0; 0; 0; 8; 0; 0; 0; 7; 255; 4; 0; 0; 0; 0xEF; 0xBE; 0xAD; 0xDE].
Proof. intros []; repeat split; try discriminate; cbn; repeat (constructor || split || lia || discriminate). Qed.

(** * C45 *)
Theorem C45_refuted : forall (bld : build), exists t bs, legal t /\ bytes bs /\ ssz_decode t bs = Panic.
Proof. intros []; exists (SVec (SVec (SUint W8))), [1; 2; 3]; (repeat split; repeat constructor; discriminate). Qed.
Print Assumptions C45_refuted.
(** Types without lists of variable-size elements: the result is a value of the type or
    an error, for all bytes. *)
Theorem C45_no_panic_partial : forall (bld : build) t bs, legal t -> no_var_list t = true -> bytes bs ->
  (exists v, ssz_decode t bs = Ret (Ok v) /\ has_type t v) \/ (exists e, ssz_decode t bs = Ret (Err e)).
Proof. exact @ssz_total. Qed.
Print Assumptions C45_no_panic_partial.
Definition struct2 : sty := SStruct [SUint W16; SVec (SArray SBool 2); SArray (SVec (SUint W32)) 1].
Example C45_witness : forall bld : build, legal struct2 /\ no_var_list struct2 = true /\
  ssz_decode struct2 [0; 0; 10; 0; 0; 0; 9; 0; 0; 0] = Ret (Err SszInvalidFormat) /\
  ssz_decode struct2 [0; 0; 10; 0; 0; 0; 10; 0; 0; 0; 4; 0; 0; 0] = Ret (Ok (VSeq [VNum 0; VSeq []; VSeq [VSeq []]])).
Proof. intros []; repeat split; discriminate || (cbn; lia). Qed.
(** All types: the decoder panics exactly if it reaches a list of variable-size elements with fewer than four bytes. *)
Theorem C45_panic_exact : forall (bld : build) t bs, legal t -> bytes bs -> (ssz_decode t bs = Panic <-> breaks t bs).
Proof. exact @ssz_breaks. Qed.
Print Assumptions C45_panic_exact.
(** (u8, Vec<Vec<u8>>): the second field has no bytes; with four bytes, an offset that is too small, there is no panic *)
Example C45_panic_witness : legal (SStruct [SUint W8; SVec (SVec (SUint W8))]) /\
  breaks (SStruct [SUint W8; SVec (SVec (SUint W8))]) [7; 5; 0; 0; 0] /\
  ~ breaks (SStruct [SUint W8; SVec (SVec (SUint W8))]) [7; 5; 0; 0; 0; 0; 0; 0; 0].
Proof.
  assert (L : legal (SStruct [SUint W8; SVec (SVec (SUint W8))])) by (repeat split; discriminate || (cbn; lia)).
  split; [exact L|]. split.
  - apply (C45_panic_exact DebugBuild); [exact L|repeat constructor; discriminate|reflexivity].
  - intros H. apply (C45_panic_exact DebugBuild) in H; [discriminate H|exact L|repeat constructor; discriminate].
Qed.

(** * C46 *)
(** The decoder accepts exactly the bytes, and with exactly the values, that [reads] says. *)
Theorem C46_reads : forall (bld : build) t bs v, legal t -> bytes bs -> (ssz_decode t bs = Ret (Ok v) <-> reads false t bs v).
Proof. exact @ssz_reads. Qed.
Print Assumptions C46_reads.
(** With the two checks that [reads true] asks for, it would accept exactly the serialisations of the specification
    (but not those with an empty list of variable-size elements). *)
Theorem C46_with_checks : forall t bs v, legal t -> small bs ->
  (reads true t bs v <-> has_type t v /\ no_empty_var_list t v /\ bs = SSZ t v).
Proof. intros. now apply canonical. Qed.
Print Assumptions C46_with_checks.
(** So bytes that decode are canonical exactly if they pass those two checks. *)
Theorem C46_missing_checks : forall (bld : build) t bs v, legal t -> bytes bs -> small bs -> ssz_decode t bs = Ret (Ok v) ->
  (SSZ t v = bs <-> reads true t bs v).
Proof. exact @decode_canonical. Qed.
Print Assumptions C46_missing_checks.
(** whatever decodes is a value of the type *)
Theorem C46_well_typed : forall (bld : build) t bs v, legal t -> bytes bs -> ssz_decode t bs = Ret (Ok v) -> has_type t v.
Proof. exact @ssz_typed. Qed.
Print Assumptions C46_well_typed.
(** fixed-size types that are not containers: strict *)
Theorem C46_fixed_partial : forall (bld : build) t bs v, legal t -> is_variable_size t = false -> (forall ts, t <> SStruct ts) -> bytes bs ->
  ssz_decode t bs = Ret (Ok v) -> SSZ t v = bs.
Proof. intros bld t bs v L V N B E. exact (ssz_strict t bs v L V B (ssz_exact_length t bs v L V B N E) E). Qed.
Print Assumptions C46_fixed_partial.
(** fixed-size containers: the value is the one encoded by the first bytes, the rest is ignored *)
Theorem C46_fixed_container_partial : forall (bld : build) ts bs v, legal (SStruct ts) -> is_variable_size (SStruct ts) = false -> bytes bs ->
  ssz_decode (SStruct ts) bs = Ret (Ok v) -> fixed_size (SStruct ts) <= Z.of_nat (length bs) /\
  SSZ (SStruct ts) v = firstn (Z.to_nat (fixed_size (SStruct ts))) bs.
Proof. intros bld ts bs v L V B E. destruct (decode_strict (SStruct ts) bs v L V B E). auto. Qed.
Print Assumptions C46_fixed_container_partial.
(** lists of fixed-size elements: strict *)
Theorem C46_list_partial : forall (bld : build) t bs v, legal t -> is_variable_size t = false -> bytes bs ->
  ssz_decode (SVec t) bs = Ret (Ok v) -> SSZ (SVec t) v = bs.
Proof. exact @ssz_list_strict. Qed.
Print Assumptions C46_list_partial.
Example C46_witness : forall bld : build, legal (SArray (SStruct [SUint W8; SBool]) 2) /\
  ssz_decode (SArray (SStruct [SUint W8; SBool]) 2) [5; 1; 6; 0] = Ret (Ok (VSeq [VSeq [VNum 5; VBool true]; VSeq [VNum 6; VBool false]])) /\
  ssz_decode (SVec (SStruct [SUint W8; SBool])) [5; 1; 6; 2] = Ret (Err SszInvalidFormat).
Proof. intros []; repeat split; discriminate || (cbn; lia). Qed.
(** trailing bytes of a container are accepted *)
Theorem C46_trailing_refuted : forall (bld : build), exists t bs v, legal t /\ bytes bs /\ ssz_decode t bs = Ret (Ok v) /\ SSZ t v <> bs.
Proof. intros []; exists (SStruct [SUint W8]), [5; 6], (VSeq [VNum 5]); (repeat split; try discriminate; repeat constructor; discriminate). Qed.
Print Assumptions C46_trailing_refuted.
(** a gap between the fixed parts and the first variable part is accepted *)
Theorem C46_gap_refuted : forall (bld : build), exists t bs v, legal t /\ bytes bs /\ is_variable_size t = true /\ ssz_decode t bs = Ret (Ok v) /\ SSZ t v <> bs.
Proof. intros []; exists (SStruct [SVec (SUint W8)]), [5; 0; 0; 0; 99; 7], (VSeq [VSeq [VNum 7]]); (repeat split; try discriminate; repeat constructor; discriminate). Qed.
Print Assumptions C46_gap_refuted.
(** offsets that overlap the fixed parts are accepted *)
Theorem C46_overlap_refuted : forall (bld : build), exists t bs v, legal t /\ bytes bs /\ ssz_decode t bs = Ret (Ok v) /\ Z.of_nat (length bs) < Z.of_nat (length (SSZ t v)).
Proof. intros []; exists (SStruct [SVec (SUint W8)]), [0; 0; 0; 0], (VSeq [VSeq [VNum 0; VNum 0; VNum 0; VNum 0]]); (repeat split; repeat constructor; discriminate). Qed.
Print Assumptions C46_overlap_refuted.

(** * C56, SSZ encoder *)
Theorem C56_ssz_encoder_reuse : forall (bld : build) cs outs rest, Forall call_legal cs -> ssz_due (is_debug bld) cs [] = Some (outs, rest) ->
  exists it, run_ssz cs ssz_new = Ret (outs, it).
Proof. exact @ssz_history_new. Qed.
Print Assumptions C56_ssz_encoder_reuse.
Example C56_ssz_witness : (forall debug, ssz_due debug [SszElement (SUint W8) (VNum 5); SszElement (SVec (SUint W8)) (VSeq [VNum 1]); SszTake; SszTake; SszEncode SBool (VBool true); SszTake] [] =
  Some ([[5; 5; 0; 0; 0; 1]; []; [1]], [])) /\ Forall call_legal [SszElement (SUint W8) (VNum 5); SszElement (SVec (SUint W8)) (VSeq [VNum 1])].
Proof. split; [now intros []|]. repeat constructor; discriminate || lia. Qed.
(** A second encode_to before take_data panics in a debug build; in a release build its value follows the first. *)
Theorem C56_ssz_second_debug : forall cs t v cs' outs rest, Forall call_legal (cs ++ SszEncode t v :: cs') -> ssz_due true cs [] = Some (outs, rest) ->
  sum (map fixed_length rest) <> 0 -> run_ssz (bld := DebugBuild) (cs ++ SszEncode t v :: cs') ssz_new = Panic.
Proof. intros. eapply ssz_nonempty; eauto. Qed.
Print Assumptions C56_ssz_second_debug.
Example C56_ssz_second_witness : ssz_due true [SszTake; SszEncode (SUint W8) (VNum 5)] [] = Some ([[]], [(false, [5])]) /\ sum (map fixed_length [(false, [5])]) <> 0 /\
  ssz_due false [SszTake; SszEncode (SUint W8) (VNum 5); SszEncode (SUint W16) (VNum 6); SszTake] [] = Some ([[]; [5; 6; 0]], []).
Proof. repeat split. discriminate. Qed.

(** * C78 *)
(** Elements that take no bytes ([no_bytes] in S_SszZero.v: [T; 0], structs without fields, ...): lists and arrays of them
    are written as no bytes; reading such a list panics whatever the data, and reading such an array panics on what was written. *)
Theorem C78_no_bytes : forall (bld : build) t, no_bytes t ->
  (forall l, has_type (SVec t) (VSeq l) -> ssz_encode (SVec t) (VSeq l) = Ret []) /\
  (forall bs, ssz_decode (SVec t) bs = Panic) /\
  (forall n, Z.of_nat n < 2 ^ 32 ->
    (forall l, has_type (SArray t n) (VSeq l) -> ssz_encode (SArray t n) (VSeq l) = Ret []) /\
    (forall bs, ssz_decode (SArray t n) bs = match bs with [] => Panic | _ => Ret (Err SszInvalidFormat) end)).
Proof. exact @P_SszZero.zero_unreadable. Qed.
Print Assumptions C78_no_bytes.
(** A list of structs with an empty array and an empty struct in them. *)
Example C78_witness : let t := SStruct [SArray (SUint W64) 0; SStruct []] in let v := VSeq [VSeq []; VSeq []] in
  no_bytes t /\ has_type (SVec t) (VSeq [v; v; v]) /\ has_type (SArray t 2) (VSeq [v; v]).
Proof. cbn. repeat split; try right; repeat split; repeat constructor. Qed.

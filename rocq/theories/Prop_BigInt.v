(** Properties C01-C11, C17 and C57 (big integers, text and byte conversions).

    [wf x] says that [x] is a canonical BigInt; by [C05_canonical_partial]
    every value obtained through the API is one (zero shifted left by whole
    digits excepted), and [bi_val x] is the integer it denotes.
    [returns o v]: the call [o] returns (no panic) a canonical BigInt denoting [v]. *)

From Verif Require Import Base M_Codec M_BigInt M_BigText S_BigInt S_Codec S_BigApi
  P_BigInt3 P_BigInt4 P_Codec P_BigApi P_BigProp.
From Verif Require P_BigText2.
Open Scope Z_scope.

(** Concrete BigInts used to show that hypotheses are met. *)
Definition ex_a : bigint := mkBig [5; 0; 18446744073709551615; 0] 3 Negative.
Definition ex_b : bigint := mkBig [18446744073709551615; 7] 2 Positive.
Example ex_a_wf : @wf U64 ex_a. Proof. exact @P_BigProp.ex_a_wf. Qed.
Example ex_b_wf : @wf U64 ex_b. Proof. exact @P_BigProp.ex_b_wf. Qed.
Example ex_a_val : @bi_val U64 ex_a = - (5 + 2 ^ 128 * (2 ^ 64 - 1)). Proof. reflexivity. Qed.

(** * C01 *)
Theorem C01_add_sub_mul_exact : forall (cfg : digit_cfg) x y, wf x -> wf y ->
  returns (bi_add x y) (bi_val x + bi_val y) /\
  returns (bi_sub x y) (bi_val x - bi_val y) /\
  returns (bi_mul x y) (bi_val x * bi_val y) /\
  (wf (bi_neg x) /\ bi_val (bi_neg x) = - bi_val x).
Proof. exact @P_BigProp.arith_exact. Qed.
Print Assumptions C01_add_sub_mul_exact.

Example C01_witness : exists r, @bi_mul U64 ex_a ex_b = Ret r /\ sign r = Negative /\ dlen r = 5%nat.
Proof. eexists. vm_compute. repeat split. Qed.

(** * C02 *)
Theorem C02_division : forall (cfg : digit_cfg) x y, wf x -> wf y -> bi_val y <> 0 ->
  exists q r, bi_div x y = Ret q /\ bi_rem x y = Ret r /\ wf q /\ wf r /\
    bi_val x = bi_val q * bi_val y + bi_val r /\
    Z.abs (bi_val r) < Z.abs (bi_val y) /\
    (bi_val r = 0 \/ Z.sgn (bi_val r) = Z.sgn (bi_val x)).
Proof. exact @division_full. Qed.
Print Assumptions C02_division.

Theorem C02_panics_exactly_on_zero : forall (cfg : digit_cfg) x y, wf x -> wf y ->
  (bi_div x y = Panic <-> bi_val y = 0) /\ (bi_rem x y = Panic <-> bi_val y = 0).
Proof. exact @div_panics. Qed.
Print Assumptions C02_panics_exactly_on_zero.

Example C02_witness : exists q r, @bi_div U64 ex_a ex_b = Ret q /\ @bi_rem U64 ex_a ex_b = Ret r /\
  @bi_val U64 q = - 42535295865117307930904213295909044223 /\ @bi_val U64 r = - 145556339956614430724.
Proof. eexists _, _. vm_compute. repeat split. Qed.

(** * C03 *)
Theorem C03_comparison : forall (cfg : digit_cfg) x y, wf x -> wf y ->
  bi_eq x y = Ret (bi_val x =? bi_val y) /\
  bi_cmp x y = Ret (bi_val x ?= bi_val y) /\
  bi_lt x y = Ret (bi_val x <? bi_val y) /\ bi_le x y = Ret (bi_val x <=? bi_val y) /\
  bi_gt x y = Ret (bi_val y <? bi_val x) /\ bi_ge x y = Ret (bi_val y <=? bi_val x) /\
  is_zero x = Ret (bi_val x =? 0) /\ is_even x = Ret (Z.even (bi_val x)) /\ is_odd x = Ret (Z.odd (bi_val x)).
Proof. exact @P_BigProp.comparison. Qed.
Print Assumptions C03_comparison.

Example C03_negative_zero : forall cfg : digit_cfg, bi_eq (mkBig [0] 1 Negative) (mkBig [0] 1 Positive) = Ret true /\
  bi_cmp (mkBig [0] 1 Negative) (mkBig [0] 1 Positive) = Ret Eq.
Proof. intros []; split; reflexivity. Qed.

(** * C04 *)
Theorem C04_shifts : forall (cfg : digit_cfg) x n, wf x -> 0 <= n ->
  returns (bi_shr x n) (Z.sgn (bi_val x) * (Z.abs (bi_val x) / 2 ^ n)) /\
  (exists r, bi_shl x n = Ret r /\ bi_val r = bi_val x * 2 ^ n).
Proof. exact @P_BigProp.shifts. Qed.
Print Assumptions C04_shifts.

Example C04_witness : exists r s, @bi_shl U64 ex_a 131 = Ret r /\ @bi_shr U64 ex_a 131 = Ret s /\ dlen r = 6%nat /\ dlen s = 1%nat.
Proof. eexists _, _. vm_compute. repeat split. Qed.

(** * C05 *)
(** Missing for the full property: [0 << n] for [n] a positive multiple of the
    digit width, see the refutation below. *)
Theorem C05_canonical_partial : forall (cfg : digit_cfg) x, api_value false x -> wf x.
Proof. exact @api_wf. Qed.
Print Assumptions C05_canonical_partial.

(** Canonical values of equal magnitude have the same digits. *)
Theorem C05_canonical_unique : forall (cfg : digit_cfg) x y, wf x -> wf y -> Z.abs (bi_val x) = Z.abs (bi_val y) ->
  firstn (dlen x) (storage x) = firstn (dlen y) (storage y).
Proof. exact @canonical_same_digits. Qed.
Print Assumptions C05_canonical_unique.

(** Shifting zero left by whole digits yields a zero that is not canonical. A debug build panics when it is compared or tested for zero; a release build says
    that it is not zero, differs from zero, and is greater. *)
Theorem C05_canonical_refuted : exists x, @api_value U64 true x /\ ~ @wf U64 x /\ @bi_val U64 x = 0.
Proof. exact @P_BigProp.shl_zero_refuted. Qed.
Print Assumptions C05_canonical_refuted.
Theorem C05_shifted_zero : forall (cfg : digit_cfg) x k, wf x -> bi_val x = 0 -> 0 < k ->
  exists y, bi_shl x (k * digit_bits cfg) = Ret y /\ bi_val y = 0 /\ ~ wf y /\
  forall z, wf z -> bi_val z = 0 ->
    (debug_checks cfg = true -> is_zero y = Panic /\ bi_eq y z = Panic /\ bi_cmp y z = Panic) /\
    (debug_checks cfg = false -> is_zero y = Ret false /\ bi_eq y z = Ret false /\
       bi_cmp y z = Ret (if is_sign_negative y then Lt else Gt)).
Proof. exact @P_BigProp.shifted_zero. Qed.
Print Assumptions C05_shifted_zero.

Example C05_witness : exists x, @api_value U64 false x /\ @bi_val U64 x = 255 * 2 ^ 64 - 3.
Proof. exact @P_BigProp.api_example. Qed.

(** * C06 *)
Theorem C06_from_be_bytes : forall (cfg : digit_cfg) bs, bytes bs ->
  (bs <> [] -> returns (bi_from_be_bytes bs Positive) (be_val bs) /\ returns (bi_from_be_bytes bs Negative) (- be_val bs)) /\
  (forall s, bi_from_be_bytes bs s = Panic <-> bs = []).
Proof. exact @P_BigProp.from_be_bytes. Qed.
Print Assumptions C06_from_be_bytes.

Theorem C06_to_be_bytes : forall (cfg : digit_cfg) x, wf x ->
  exists bs, bi_to_be_bytes x = Ret bs /\ minimal_be bs (Z.abs (bi_val x)).
Proof. exact @bi_to_be_bytes_spec. Qed.
Print Assumptions C06_to_be_bytes.

Theorem C06_roundtrip : forall (cfg : digit_cfg) x, wf x -> bi_val x <> 0 ->
  exists bs r, bi_to_be_bytes x = Ret bs /\ bi_from_be_bytes bs (sign x) = Ret r /\ wf r /\ bi_val r = bi_val x.
Proof. exact @bytes_roundtrip. Qed.
Print Assumptions C06_roundtrip.

Theorem C06_minimal_unique : forall l1 l2 v, minimal_be l1 v -> minimal_be l2 v -> l1 = l2.
Proof. exact minimal_be_unique. Qed.
Print Assumptions C06_minimal_unique.

Example C06_witness : exists r, @bi_from_be_bytes U64 [0; 1; 2; 3; 4; 5; 6; 7; 8; 9] Positive = Ret r /\
  @bi_to_be_bytes U64 r = Ret [1; 2; 3; 4; 5; 6; 7; 8; 9].
Proof. eexists. vm_compute. repeat split. Qed.

(** * C07 *)
Theorem C07_from_hex : forall (cfg : digit_cfg) s, bytes s ->
  (forall v, denotes 16 s v -> Nat.even (digit_count s) = true ->
     exists r, bi_from_hex s = Ret (Ok r) /\ wf r /\ bi_val r = v) /\
  ((forall v, denotes 16 s v -> Nat.even (digit_count s) = false) -> exists e, bi_from_hex s = Ret (Err e)).
Proof. exact @from_hex_full. Qed.
Print Assumptions C07_from_hex.

Theorem C07_to_lower_hex_roundtrip : forall (cfg : digit_cfg) x, wf x ->
  exists ns r, let text := (if bi_val x <? 0 then [45] else []) ++ map lower_hex_digit ns in
    bi_to_lower_hex x = Ret text /\
    Forall (fun n => 0 <= n < 16) ns /\ Nat.even (length ns) = true /\ positional 16 ns = Z.abs (bi_val x) /\
    bi_from_hex text = Ret (Ok r) /\ wf r /\ bi_val r = bi_val x.
Proof. exact @P_BigProp.hex_print. Qed.
Print Assumptions C07_to_lower_hex_roundtrip.

(** "-1fA0" *)
Example C07_witness : denotes 16 [45; 49; 102; 65; 48] (- 8096).
Proof. exact @P_BigProp.hex_denotes_example. Qed.

(** * C08 *)
(** Missing for the full property: strings with a character whose digit value
    equals the radix, see the refutation. *)
Theorem C08_from_str_radix_partial : forall (cfg : digit_cfg) s radix, 2 <= radix <= 36 ->
  Forall (fun c => alnum_value c <> Some radix) s ->
  (forall v, denotes radix s v -> exists r, bi_from_str_radix s radix = Ret (Ok r) /\ wf r /\ bi_val r = v) /\
  ((forall v, ~ denotes radix s v) -> exists e, bi_from_str_radix s radix = Ret (Err e)).
Proof. exact @radix_partial. Qed.
Print Assumptions C08_from_str_radix_partial.

(** Every correct numeral is parsed to its value, without restriction. *)
Theorem C08_numerals_accepted : forall (cfg : digit_cfg) s radix v, 2 <= radix <= 36 -> denotes radix s v ->
  exists r, bi_from_str_radix s radix = Ret (Ok r) /\ wf r /\ bi_val r = v.
Proof. exact @P_BigProp.radix_accepts. Qed.
Print Assumptions C08_numerals_accepted.

(** Every string gets an answer: no panic for radices 2..36. *)
Theorem C08_never_panics : forall (cfg : digit_cfg) s radix, 2 <= radix <= 36 ->
  exists res, bi_from_str_radix s radix = Ret res.
Proof. exact @P_BigProp.radix_no_panic. Qed.
Print Assumptions C08_never_panics.

(** "1a" is not a decimal numeral, yet it is parsed (to 20). *)
Theorem C08_digit_equal_to_radix_refuted : exists s r, (forall v, ~ denotes 10 s v) /\
  @bi_from_str_radix U64 s 10 = Ret (Ok r) /\ @bi_val U64 r = 20.
Proof. exact @P_BigProp.radix_refuted. Qed.
Print Assumptions C08_digit_equal_to_radix_refuted.

(** Exactly what is accepted, and what it is read as: [reads_as] is [denotes] with digits up to and including the radix. A radix outside 2..36 panics in a
    debug build; a release build reads with it in the same way. *)
Theorem C08_accepted_exactly : forall (cfg : digit_cfg) s radix v, 0 <= radix < 256 -> 2 <= radix <= 36 \/ debug_checks cfg = false ->
  ((exists r, bi_from_str_radix s radix = Ret (Ok r) /\ wf r /\ bi_val r = v) <-> reads_as radix s v) /\
  ((forall w, ~ reads_as radix s w) -> bi_from_str_radix s radix = Ret (Err PInvalidInput)).
Proof. exact @P_Codec.from_str_radix_exact. Qed.
Print Assumptions C08_accepted_exactly.
Theorem C08_radix_out_of_range : forall (cfg : digit_cfg) s radix, debug_checks cfg = true -> ~ 2 <= radix <= 36 -> bi_from_str_radix s radix = Panic.
Proof. exact @P_Codec.from_str_radix_bad. Qed.
Print Assumptions C08_radix_out_of_range.

Example C08_witness : denotes 10 [45; 57; 48; 55] (-907) /\ Forall (fun c => alnum_value c <> Some 10) [45; 57; 48; 55].
Proof. exact @P_BigProp.radix_example. Qed.

(** * C09 *)
(** Missing for the full property: subtraction, from_str_radix and try_from, see the refutation. *)
Theorem C09_nonnegative_partial : forall cfg : digit_cfg,
  (forall n r, 0 <= n < 2 ^ 128 -> bu_from_uint n = Ret r -> bi_val r = n) /\
  (forall bs r, bytes bs -> bu_from_be_bytes bs = Ret r -> 0 <= bi_val r) /\
  (forall x r, wf x -> bu_from_bigint x = Some r -> r = x /\ 0 <= bi_val r) /\
  (forall s r, bytes s -> bu_from_hex s = Ret (Ok r) -> 0 <= bi_val r) /\
  (forall x y r, wf x -> wf y -> 0 <= bi_val x -> 0 <= bi_val y -> bu_add x y = Ret r -> 0 <= bi_val r) /\
  (forall x y r, wf x -> wf y -> 0 <= bi_val x -> 0 <= bi_val y -> bu_mul x y = Ret r -> 0 <= bi_val r) /\
  (forall x n r, wf x -> 0 <= n -> 0 <= bi_val x -> bu_shr x n = Ret r -> 0 <= bi_val r) /\
  (forall x y r, wf x -> wf y -> bi_val y <= bi_val x -> bu_sub x y = Ret r -> 0 <= bi_val r).
Proof. exact @P_BigProp.nonneg_partial. Qed.
Print Assumptions C09_nonnegative_partial.

Theorem C09_subtraction_refuted : exists a b r, @bu_from_uint U64 1 = Ret a /\ @bu_from_uint U64 2 = Ret b /\
  @bu_sub U64 a b = Ret r /\ @bi_val U64 r = -1.
Proof. exact @P_BigProp.sub_refuted. Qed.
Print Assumptions C09_subtraction_refuted.

(** "-7" *)
Theorem C09_text_refuted : exists r, @bu_from_str_radix U64 [45; 55] 10 = Ret (Ok r) /\ @bu_try_from U64 [45; 55] = Ret (Ok r) /\ @bi_val U64 r = -7.
Proof. exact @P_BigProp.text_refuted. Qed.
Print Assumptions C09_text_refuted.

(** Exactly when the difference of two BigUints is a BigUint, and what is returned otherwise. *)
Theorem C09_subtraction_exactly : forall (cfg : digit_cfg) x y, wf x -> wf y -> returns (bu_sub x y) (bi_val x - bi_val y).
Proof. exact @bi_sub_spec. Qed.
Print Assumptions C09_subtraction_exactly.
(** Exactly which texts become a BigUint, and which one.  After "0x" (48, 120), a minus sign (45) is refused, even before zero, and a plus sign is not;
    without "0x" both signs are accepted ([reads_as]: see C08). *)
Theorem C09_hex_exactly : forall (cfg : digit_cfg) s v, bytes s ->
  ((exists r, bu_from_hex s = Ret (Ok r) /\ wf r /\ bi_val r = v) <-> denotes 16 s v /\ Nat.even (digit_count s) = true /\ forall u, s <> 45 :: u) /\
  exists res, bu_from_hex s = Ret res.
Proof. exact @P_BigText2.bu_hex_exact. Qed.
Print Assumptions C09_hex_exactly.
Theorem C09_text_exactly : forall (cfg : digit_cfg) s v, bytes s ->
  ((exists r, bu_try_from s = Ret (Ok r) /\ wf r /\ bi_val r = v) <->
   (exists t, s = 48 :: 120 :: t /\ denotes 16 t v /\ Nat.even (digit_count t) = true /\ forall u, t <> 45 :: u) \/
   ((forall t, s <> 48 :: 120 :: t) /\ reads_as 10 s v)) /\
  exists res, bu_try_from s = Ret res.
Proof. exact @P_BigText2.bu_try_from_exact. Qed.
Print Assumptions C09_text_exactly.
(** "0x+0f" is accepted, "0x-00" is not. *)
Example C09_witness_text : (exists r, @bu_try_from U64 [48; 120; 43; 48; 102] = Ret (Ok r) /\ @bi_val U64 r = 15) /\
  @bu_try_from U64 [48; 120; 45; 48; 48] = Ret (Err PInvalidInput).
Proof. split; [eexists; split|]; vm_compute; reflexivity. Qed.

(** * C10 *)
Theorem C10_bit_and_byte_length : forall (cfg : digit_cfg) x, wf x ->
  exists n, bit_len x = Ret n /\ byte_len x = Ret ((n + 7) / 8) /\
  is_bit_len (Z.abs (bi_val x)) n /\ le_bits x = Ret (bits_of (Z.to_nat n) (Z.abs (bi_val x))).
Proof. exact @bit_len_full. Qed.
Print Assumptions C10_bit_and_byte_length.

Theorem C10_bit_length_unique : forall v n m, 0 <= v -> is_bit_len v n -> is_bit_len v m -> n = m.
Proof. exact is_bit_len_unique. Qed.
Print Assumptions C10_bit_length_unique.

(** Number of trailing zero bits. *)
Theorem C10_trailing_zeros : forall (cfg : digit_cfg) x, wf x -> bi_val x <> 0 ->
  exists k m, trailing_zeros x = Ret k /\ 0 <= k /\ Z.abs (bi_val x) = (2 * m + 1) * 2 ^ k.
Proof. exact @trailing_zeros_spec. Qed.
Print Assumptions C10_trailing_zeros.

Example C10_witness : @bit_len U64 ex_a = Ret 192 /\ @byte_len U64 ex_a = Ret 24 /\ @trailing_zeros U64 ex_b = Ret 0.
Proof. repeat split; reflexivity. Qed.

(** * C11 *)
Theorem C11_from_primitive : forall cfg : digit_cfg,
  (forall n, 0 <= n < 2 ^ 128 -> returns (from_uint n) n) /\
  (forall i, - 2 ^ 127 <= i < 2 ^ 127 -> returns (from_int i) i).
Proof. exact @P_BigProp.from_primitive. Qed.
Print Assumptions C11_from_primitive.

Example C11_min : exists r, @from_int U64 (- 2 ^ 127) = Ret r /\ storage r = [0; 9223372036854775808; 0] /\ sign r = Negative.
Proof. eexists. vm_compute. repeat split. Qed.

(** * C17 *)
Theorem C17_hex_to_bytes : forall s, bytes s ->
  (Nat.even (length s) = false -> hex_to_bytes s = Err NotByteAligned) /\
  (Nat.even (length s) = true -> (forall vs, ~ digits_of 16 s vs) -> hex_to_bytes s = Err InvalidCharFound) /\
  (forall vs, Nat.even (length s) = true -> digits_of 16 s vs ->
    exists bs, hex_to_bytes s = Ok bs /\ bytes bs /\ length s = (2 * length bs)%nat /\ be_val bs = positional 16 vs).
Proof. exact hex_to_bytes_spec. Qed.
Print Assumptions C17_hex_to_bytes.

Theorem C17_bytes_to_lower_hex : forall bs, bytes bs ->
  bytes_to_lower_hex bs = flat_map (fun b => [lower_hex_digit (b / 16); lower_hex_digit (b mod 16)]) bs.
Proof. exact @P_BigProp.lower_hex. Qed.
Print Assumptions C17_bytes_to_lower_hex.

Theorem C17_roundtrip : forall bs, bytes bs -> hex_to_bytes (bytes_to_lower_hex bs) = Ok bs.
Proof. exact hex_roundtrip. Qed.
Print Assumptions C17_roundtrip.

(** "fF0a" *)
Example C17_witness : hex_to_bytes [102; 70; 48; 97] = Ok [255; 10] /\ hex_to_bytes [102; 71] = Err InvalidCharFound
  /\ hex_to_bytes [102] = Err NotByteAligned.
Proof. repeat split; reflexivity. Qed.

(** * C57, for BigUint *)
Theorem C57_biguint_display_roundtrip : forall (cfg : digit_cfg) x, wf x -> 0 <= bi_val x ->
  exists t r, bu_display x = Ret t /\ bu_try_from t = Ret (Ok r) /\ wf r /\ bi_val r = bi_val x.
Proof. exact @P_BigProp.display_roundtrip. Qed.
Print Assumptions C57_biguint_display_roundtrip.

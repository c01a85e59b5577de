(** Properties C12-C16: gcd and modular arithmetic.

    [wf x]: a canonical BigInt; [bi_val x]: the integer it denotes;
    [returns o v]: the call returns (no panic, no exhausted loop bound) a
    canonical BigInt denoting [v]. *)

From Verif Require Import Base M_BigInt M_Gcd M_Modular S_BigInt P_BigProp P_Gcd2 P_Modular.
From Coq Require Import Znumtheory.
Open Scope Z_scope.

(** * C12 *)
Theorem C12_extended_gcd : forall (cfg : digit_cfg) a b, wf a -> wf b -> 0 < bi_val b < bi_val a ->
  exists x y v, gcd a b = Ret (x, y, v) /\ wf x /\ wf y /\ wf v /\
    bi_val v = Z.gcd (bi_val a) (bi_val b) /\
    bi_val x * bi_val a + bi_val y * bi_val b = bi_val v.
Proof. exact @P_Gcd2.gcd_full. Qed.
Print Assumptions C12_extended_gcd.

(** Two three-digit numbers whose gcd takes several double-digit steps. *)
Definition ex_n : bigint := mkBig [18446744073709551615; 3; 18446744073709551614] 3 Positive.
Definition ex_m : bigint := mkBig [17; 18446744073709551613; 12345678901234567891] 3 Positive.
Example C12_witness : @wf U64 ex_n /\ @wf U64 ex_m /\ 0 < @bi_val U64 ex_m < @bi_val U64 ex_n /\
  exists x y v, @gcd U64 ex_n ex_m = Ret (x, y, v) /\ @bi_val U64 v = Z.gcd (@bi_val U64 ex_n) (@bi_val U64 ex_m).
Proof. exact @P_Modular.ex_nm. Qed.

(** * C13 *)
Theorem C13_modulo : forall (cfg : digit_cfg) a n, wf a -> wf n -> 0 < bi_val n ->
  exists r, modulo a n = Ret r /\ wf r /\ 0 <= bi_val r < bi_val n /\ (bi_val n | bi_val a - bi_val r).
Proof. exact @modulo_full. Qed.
Print Assumptions C13_modulo.

(** Other moduli: zero panics in every build; a negative one panics in a debug build, and a release build returns the truncated remainder, moved down by the
    modulus if it is negative. *)
Theorem C13_zero : forall (cfg : digit_cfg) a n, wf a -> wf n -> bi_val n = 0 -> modulo a n = Panic.
Proof. exact @P_Modular.modulo_zero. Qed.
Print Assumptions C13_zero.
Theorem C13_negative_debug : forall (cfg : digit_cfg) a n, debug_checks cfg = true -> wf a -> wf n -> bi_val n < 0 -> modulo a n = Panic.
Proof. exact @P_Modular.modulo_negative_debug. Qed.
Print Assumptions C13_negative_debug.
Theorem C13_negative_release : forall (cfg : digit_cfg) a n, debug_checks cfg = false -> wf a -> wf n -> bi_val n < 0 ->
  returns (modulo a n) (Z.rem (bi_val a) (bi_val n) + if Z.rem (bi_val a) (bi_val n) <? 0 then bi_val n else 0).
Proof. exact @P_Modular.modulo_negative_release. Qed.
Print Assumptions C13_negative_release.

Example C13_witness : exists r, (a <- @from_int U64 (-7) ;; @modulo U64 a ex_n) = Ret r /\
  @bi_val U64 r = @bi_val U64 ex_n - 7.
Proof. eexists. split; vm_compute; reflexivity. Qed.

(** * C14 *)
Theorem C14_invert : forall (cfg : digit_cfg) a n, wf a -> wf n -> 1 < bi_val n -> bi_val a mod bi_val n <> 0 ->
  (Z.gcd (bi_val a) (bi_val n) = 1 ->
    exists x, invert a n = Ret (Some x) /\ wf x /\ 0 < bi_val x < bi_val n /\ (bi_val a * bi_val x) mod bi_val n = 1) /\
  (Z.gcd (bi_val a) (bi_val n) <> 1 -> invert a n = Ret None).
Proof. exact @invert_spec. Qed.
Print Assumptions C14_invert.

(** Multiples of the modulus are not invertible either, but the call panics. *)
Theorem C14_invert_multiple_panics : forall (cfg : digit_cfg) a n, wf a -> wf n -> 1 < bi_val n ->
  bi_val a mod bi_val n = 0 -> invert a n = Panic.
Proof. exact @invert_panics. Qed.
Print Assumptions C14_invert_multiple_panics.

Example C14_witness : exists r, (a <- @from_int U64 (-7) ;; n <- @from_int U64 9 ;; @invert U64 a n) = Ret (Some r) /\
  @bi_val U64 r = 5 /\ (a <- @from_int U64 6 ;; n <- @from_int U64 9 ;; @invert U64 a n) = Ret None.
Proof. eexists. split; [vm_compute; reflexivity|split; vm_compute; reflexivity]. Qed.

(** * C15 *)
Theorem C15_pow : forall (cfg : digit_cfg) a e n, wf a -> wf e -> wf n -> 0 < bi_val a < bi_val n -> 0 <= bi_val e ->
  returns (pow a e n) (bi_val a ^ bi_val e mod bi_val n).
Proof. exact @pow_spec. Qed.
Print Assumptions C15_pow.

Example C15_witness : exists r, (a <- @from_int U64 5 ;; e <- @from_int U64 1000 ;; n <- @from_int U64 1009 ;; @pow U64 a e n) = Ret r /\
  @bi_val U64 r = 874.
Proof. eexists. split; vm_compute; reflexivity. Qed.

(** * C16 *)
(** For an odd prime p and 0 < a < p: either exactly the two square roots of
    [a] in [0, p) are returned, or None and [a] is not a square. *)
Theorem C16_sqrt : forall (cfg : digit_cfg) a p, wf a -> wf p -> prime (bi_val p) -> 2 < bi_val p -> 0 < bi_val a < bi_val p ->
  (exists r1 r2, sqrt a p = Ret (Some (r1, r2)) /\ wf r1 /\ wf r2 /\
     (forall r, 0 <= r < bi_val p -> (r * r) mod bi_val p = bi_val a <-> r = bi_val r1 \/ r = bi_val r2) /\
     bi_val r1 <> bi_val r2) \/
  (sqrt a p = Ret None /\ forall r, (r * r) mod bi_val p <> bi_val a).
Proof. exact @sqrt_full. Qed.
Print Assumptions C16_sqrt.

(** 97 - 1 = 3 * 2^5, so the loop runs. *)
Example C16_witness : prime 97 /\ sqrt_of 5 97 = Ret None /\
  exists r1 r2, sqrt_of 11 97 = Ret (Some (r1, r2)) /\ @bi_val U64 r1 = 37 /\ @bi_val U64 r2 = 60.
Proof. exact P_Modular.ex_sqrt. Qed.

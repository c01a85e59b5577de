(** Values reachable through the public interface of [BigInt]: every
    constructor and operator, applied in any order to values obtained so far.
    With [any_shl = false], zero is never shifted left by a whole digit or more. *)

From Verif Require Import Base M_BigInt M_BigText S_BigInt.
Open Scope Z_scope.

Section Spec.
Context {cfg : digit_cfg}.

Inductive api_value (any_shl : bool) : bigint -> Prop :=
| api_from_unsigned n r : 0 <= n < 2 ^ 128 -> from_uint n = Ret r -> api_value any_shl r
| api_from_signed i r : - 2 ^ 127 <= i < 2 ^ 127 -> from_int i = Ret r -> api_value any_shl r
| api_from_be_bytes bs s r : bytes bs -> bi_from_be_bytes bs s = Ret r -> api_value any_shl r
| api_from_hex s r : bytes s -> bi_from_hex s = Ret (Ok r) -> api_value any_shl r
| api_from_str_radix s radix r : bytes s -> 0 <= radix < 256 -> bi_from_str_radix s radix = Ret (Ok r) -> api_value any_shl r
| api_neg x : api_value any_shl x -> api_value any_shl (bi_neg x)
| api_add x y r : api_value any_shl x -> api_value any_shl y -> bi_add x y = Ret r -> api_value any_shl r
| api_sub x y r : api_value any_shl x -> api_value any_shl y -> bi_sub x y = Ret r -> api_value any_shl r
| api_mul x y r : api_value any_shl x -> api_value any_shl y -> bi_mul x y = Ret r -> api_value any_shl r
| api_div x y r : api_value any_shl x -> api_value any_shl y -> bi_div x y = Ret r -> api_value any_shl r
| api_rem x y r : api_value any_shl x -> api_value any_shl y -> bi_rem x y = Ret r -> api_value any_shl r
| api_shr x n r : 0 <= n -> api_value any_shl x -> bi_shr x n = Ret r -> api_value any_shl r
| api_shl x n r : 0 <= n -> (any_shl = true \/ bi_val x <> 0 \/ n < digit_bits cfg) ->
    api_value any_shl x -> bi_shl x n = Ret r -> api_value any_shl r.

End Spec.

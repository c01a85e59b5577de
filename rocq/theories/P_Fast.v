(** Arithmetic that the kernel's own evaluation runs fast, for the certificates of the curve parameters: a product that
    takes three bits at a time, and Barrett's reduction. *)

From Coq Require Import ZArith Lia Bool.
Open Scope Z_scope.

(** x y, with 3 y, 5 y and 7 y at hand *)
Fixpoint mulw_loop (x y y3 y5 y7 : positive) : positive :=
  match x with
  | xH => y
  | xO x' => xO (mulw_loop x' y y3 y5 y7)
  | xI xH => y3
  | xI (xO xH) => y5
  | xI (xI xH) => y7
  | xI (xO (xO x')) => Pos.add y (xO (xO (xO (mulw_loop x' y y3 y5 y7))))
  | xI (xI (xO x')) => Pos.add y3 (xO (xO (xO (mulw_loop x' y y3 y5 y7))))
  | xI (xO (xI x')) => Pos.add y5 (xO (xO (xO (mulw_loop x' y y3 y5 y7))))
  | xI (xI (xI x')) => Pos.add y7 (xO (xO (xO (mulw_loop x' y y3 y5 y7))))
  end.
Definition mulw (x y : positive) : positive :=
  let y2 := xO y in let y3 := Pos.add y y2 in let y5 := Pos.add y3 y2 in let y7 := Pos.add y5 y2 in mulw_loop x y y3 y5 y7.
Definition fmul (x y : Z) : Z := match x, y with Zpos a, Zpos b => Zpos (mulw a b) | _, _ => x * y end.
Lemma mulw_loop_eq y : forall x, Zpos (mulw_loop x y (y + y~0) (y + y~0 + y~0) (y + y~0 + y~0 + y~0)) = Zpos x * Zpos y.
Proof.
  set (y3 := (y + y~0)%positive). set (y5 := (y3 + y~0)%positive). set (y7 := (y5 + y~0)%positive).
  assert (E3 : Zpos y3 = 3 * Zpos y) by (unfold y3; lia). assert (E5 : Zpos y5 = 5 * Zpos y) by (unfold y5; lia). assert (E7 : Zpos y7 = 7 * Zpos y) by (unfold y7; lia).
  clearbody y3 y5 y7. fix IH 1.
  intros [[[x|x|]|[x|x|]|]|x|]; cbn [mulw_loop]; try (pose proof (IH x) as I; clear IH; set (u := mulw_loop x y y3 y5 y7) in *; clearbody u; nia);
    clear IH; lia.
Qed.
Lemma fmul_eq x y : fmul x y = x * y.
Proof. destruct x as [|x|x], y as [|y|y]; try reflexivity. unfold fmul, mulw. cbv zeta. now rewrite mulw_loop_eq. Qed.

(** the bits from [k] on *)
Fixpoint highp (k : nat) (x : positive) : Z :=
  match k with
  | O => Zpos x
  | S k' => match x with xH => 0 | xO x' => highp k' x' | xI x' => highp k' x' end
  end.
Definition high (k : nat) (x : Z) : Z := match x with Zpos a => highp k a | _ => 0 end.

(** x modulo m; any [k] and [mu] do, but k = the length of m and mu = 2^(2 k + 8) / m avoid the slow cases *)
Definition barrett (m : Z) (k : nat) (mu : Z) (x : Z) : Z :=
  if (0 <=? x) && (x <? m) then x
  else
    let r := x - fmul (high (k + 9) (fmul (high (k - 1) x) mu)) m in
    if (0 <=? r) && (r <? m) then r
    else let r' := r - m in if (0 <=? r') && (r' <? m) then r' else x mod m.
Lemma barrett_ok m k mu x : 0 < m -> barrett m k mu x = x mod m.
Proof.
  intros Hm. assert (S : forall q, 0 <= x - q * m < m -> x - q * m = x mod m). { intros q H. apply (Z.mod_unique_pos _ _ q); lia. }
  unfold barrett. destruct (Z.leb_spec 0 x), (Z.ltb_spec x m); cbn [andb]; try (symmetry; now apply Z.mod_small);
    (cbv zeta; rewrite fmul_eq; set (q := high _ _); clearbody q;
     destruct (Z.leb_spec 0 (x - q * m)), (Z.ltb_spec (x - q * m) m); cbn [andb]; try (now apply S);
     replace (x - q * m - m) with (x - (q + 1) * m) by ring;
     destruct (Z.leb_spec 0 (x - (q + 1) * m)), (Z.ltb_spec (x - (q + 1) * m) m); cbn [andb]; try reflexivity; now apply S).
Qed.

(** low and high bits *)
Fixpoint splitp (k : nat) (x : positive) : Z * Z :=
  match k with
  | O => (0, Zpos x)
  | S k' => match x with
            | xH => (1, 0)
            | xO x' => let (l, h) := splitp k' x' in (Z.double l, h)
            | xI x' => let (l, h) := splitp k' x' in (Z.succ_double l, h)
            end
  end.
Definition split (k : nat) (x : Z) : Z * Z := match x with Zpos a => splitp k a | _ => (x, 0) end.
Lemma split_eq k x : let (l, h) := split k x in x = 2 ^ Z.of_nat k * h + l.
Proof.
  destruct x as [|x|x]; cbn [split]; try lia. revert x. induction k as [|k IH]; intros x; cbn [splitp]; [change (2 ^ Z.of_nat 0) with 1; lia|].
  rewrite Nat2Z.inj_succ, Z.pow_succ_r by apply Nat2Z.is_nonneg. revert IH. generalize (2 ^ Z.of_nat k). intros t IH.
  destruct x as [x|x|]; [| |now rewrite Z.mul_0_r]; specialize (IH x); destruct (splitp k x) as [l h]; [rewrite Z.succ_double_spec, (Pos2Z.inj_xI x), IH|rewrite (Z.double_spec l); change (Z.pos x~0) with (2 * Z.pos x); rewrite IH]; ring.
Qed.
(** m = 2^k - c with c small *)
Definition fold1 (k : nat) (c x : Z) : Z := let (l, h) := split k x in match h with 0 => l | _ => fmul c h + l end.
Definition folding (k : nat) (c m x : Z) : Z :=
  let y := fold1 k c (fold1 k c (fold1 k c x)) in if (0 <=? y) && (y <? m) then y else y mod m.
Lemma fold1_mod k c m x : m = 2 ^ Z.of_nat k - c -> 0 < m -> fold1 k c x mod m = x mod m.
Proof.
  intros -> Hm. unfold fold1. pose proof (split_eq k x) as S. destruct (split k x) as [l h].
  assert (K : (fmul c h + l) mod (2 ^ Z.of_nat k - c) = x mod (2 ^ Z.of_nat k - c)).
  { rewrite fmul_eq. rewrite S. replace (2 ^ Z.of_nat k * h + l) with (c * h + l + h * (2 ^ Z.of_nat k - c)) by ring. symmetry. apply Z_mod_plus_full. }
  destruct h; [|exact K|exact K]. rewrite fmul_eq, Z.mul_0_r in K. exact K.
Qed.
Lemma folding_ok k c m x : m = 2 ^ Z.of_nat k - c -> 0 < m -> folding k c m x = x mod m.
Proof.
  intros Em Hm. unfold folding. cbv zeta. set (y := fold1 _ _ _). assert (K : y mod m = x mod m) by (unfold y; now rewrite !(fold1_mod k c m)).
  rewrite <- K. destruct (Z.leb_spec 0 y), (Z.ltb_spec y m); cbn [andb]; try reflexivity. symmetry. now apply Z.mod_small.
Qed.

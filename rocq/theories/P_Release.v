(** Debug and release builds: every function of a release build follows that of the debug build. *)

From Verif Require Import Base M_Codec M_Loop M_BigInt M_BigText M_Gcd M_Modular M_Curve S_Release.
Open Scope Z_scope.

(** * Constructs *)
Lemma fo_refl {A} (a : outcome A) : follows a a. Proof. now right. Qed.
Lemma fo_panic {A} (a : outcome A) : follows Panic a. Proof. now left. Qed.
Lemma fo_bind {A B} (a b : outcome A) (f g : A -> outcome B) : follows a b -> (forall x, follows (f x) (g x)) -> follows (obind a f) (obind b g).
Proof. intros [->| ->] K; [now left|]. destruct a as [x| |]; [apply K|now left|apply fo_refl]. Qed.
Lemma fo_rbind {E A B} (a b : outcome (result E A)) (f g : A -> outcome (result E B)) : follows a b -> (forall x, follows (f x) (g x)) -> follows (rbind a f) (rbind b g).
Proof. intros [->| ->] K; [now left|]. destruct a as [[x|x]| |]; [apply K|apply fo_refl|now left|apply fo_refl]. Qed.
Lemma fo_assert {A} c (a b : outcome A) : follows a b -> follows (oassert c a) (oassert c b).
Proof. destruct c; [tauto|now left]. Qed.
Lemma fo_loop {S R} n (f g : S -> outcome (S + R)) : (forall s, follows (f s) (g s)) -> forall s, follows (loop n f s) (loop n g s).
Proof. intros H. induction n as [|n IH]; intros s; [apply H|]. cbn [loop]. apply fo_bind; [apply IH|]. intros [s'|r]; [apply IH|apply fo_refl]. Qed.
Lemma fo_run {S R} n (f g : S -> outcome (S + R)) s : (forall s, follows (f s) (g s)) -> follows (run_loop n f s) (run_loop n g s).
Proof. intros H. unfold run_loop. apply fo_bind; [now apply fo_loop|]. intros; apply fo_refl. Qed.

(** * Conditions end *)
Definition ends {A} (m : outcome A) : Prop := m <> OutOfFuel.
Lemma en_ret {A} (a : A) : ends (Ret a). Proof. discriminate. Qed.
Lemma en_panic {A} : ends (@Panic A). Proof. discriminate. Qed.
Lemma en_bind {A B} (m : outcome A) (f : A -> outcome B) : ends m -> (forall x, ends (f x)) -> ends (obind m f).
Proof. intros H K. destruct m; [apply K|discriminate|congruence]. Qed.

Section Proofs.
Context {cfg : digit_cfg}.
Local Notation rel := (release cfg).

Lemma bits_rel : digit_bits rel = digit_bits cfg. Proof. now destruct cfg. Qed.
Lemma base_rel : digit_base rel = digit_base cfg. Proof. now destruct cfg. Qed.
Lemma bytes_rel : digit_bytes rel = digit_bytes cfg. Proof. now destruct cfg. Qed.
Lemma debug_rel : debug_checks rel = false. Proof. now destruct cfg. Qed.

Lemma fo_dassert {A} c (a b : outcome A) : follows a b -> follows (dassert (cfg:=cfg) c a) (dassert (cfg:=rel) c b).
Proof. unfold dassert. rewrite debug_rel. intros H. destruct c; [exact H|]. destruct (debug_checks cfg); [now left|exact H]. Qed.
Lemma fo_dcheck {A} m m' (a b : outcome A) : ends m -> follows a b -> follows (dcheck (cfg:=cfg) m a) (dcheck (cfg:=rel) m' b).
Proof.
  unfold dcheck. rewrite debug_rel. intros N H. destruct (debug_checks cfg); [|exact H].
  destruct m as [[]| |]; cbn; [exact H|now left|now left|now destruct N].
Qed.
Lemma en_dassert {A} c (a : outcome A) : ends a -> ends (dassert (cfg:=cfg) c a).
Proof. unfold dassert. intros H. destruct c; [exact H|]. destruct (debug_checks cfg); [discriminate|exact H]. Qed.
End Proofs.

Create HintDb fo discriminated.
Create HintDb en discriminated.
#[export] Hint Constants Opaque : fo en.
#[export] Hint Rewrite @bits_rel @base_rel @bytes_rel @debug_rel : fo.

Ltac en1 :=
  match goal with
  | |- ends (Ret _) => apply en_ret
  | |- ends Panic => apply en_panic
  | |- ends (obind _ _) => apply en_bind; [|intros]
  | |- ends (dassert _ _) => apply en_dassert
  | |- ends (if ?x then _ else _) => destruct x
  | |- ends (match ?x with _ => _ end) => destruct x
  | |- ends _ => solve [auto with en nocore]
  end.
Ltac en := intros; repeat (cbv beta zeta; en1).
Ltac fo1 :=
  match goal with
  | |- follows ?a ?a => apply fo_refl
  | |- follows Panic _ => apply fo_panic
  | |- follows (bu_from_uint _) (from_uint _) => apply fo_refl
  | |- follows (obind _ _) (obind _ _) => apply fo_bind; [|intros]
  | |- follows (rbind _ _) (rbind _ _) => apply fo_rbind; [|intros]
  | |- follows (oassert _ _) _ => apply fo_assert
  | |- follows (dassert _ _) _ => apply fo_dassert
  | |- follows (dcheck _ _) _ => apply fo_dcheck; [solve [en]|]
  | |- follows (run_loop _ _ _) _ => apply fo_run; intros
  | |- follows (if ?x then _ else _) (if ?x then _ else _) => destruct x
  | |- follows (match ?x with _ => _ end) (match ?x with _ => _ end) => destruct x
  | |- follows _ _ => solve [auto with fo nocore]
  end.
Ltac fo := intros; autorewrite with fo; repeat (cbv beta zeta; fo1).

Section BigInt.
Context {cfg : digit_cfg}.
Local Notation rel := (release cfg).

Lemma carrying_add_rel : @carrying_add rel = @carrying_add cfg. Proof. now destruct cfg. Qed.
Lemma borrowing_sub_rel : @borrowing_sub rel = @borrowing_sub cfg. Proof. now destruct cfg. Qed.
Lemma add_zip_rel : @add_zip rel = @add_zip cfg. Proof. now destruct cfg. Qed.
Lemma add_carry_rel : @add_carry rel = @add_carry cfg. Proof. now destruct cfg. Qed.
Lemma sub_zip_rel : @sub_zip rel = @sub_zip cfg. Proof. now destruct cfg. Qed.
Lemma sub_borrow_rel : @sub_borrow rel = @sub_borrow cfg. Proof. now destruct cfg. Qed.
Lemma leading_zeros_rel : @leading_zeros rel = @leading_zeros cfg. Proof. now destruct cfg. Qed.
Lemma checked_shr_rel : @checked_shr_digit rel = @checked_shr_digit cfg. Proof. now destruct cfg. Qed.
Lemma chunk_rel : @chunk_digits rel = @chunk_digits cfg. Proof. now destruct cfg. Qed.
Lemma be_be_rel : @be_bytes_to_be_digits rel = @be_bytes_to_be_digits cfg. Proof. now destruct cfg. Qed.
Lemma be_le_rel : @be_bytes_to_le_digits rel = @be_bytes_to_le_digits cfg. Proof. now destruct cfg. Qed.
Lemma digits_bytes_rel : @be_digits_to_be_bytes rel = @be_digits_to_be_bytes cfg. Proof. now destruct cfg. Qed.
Lemma from_bytes_rel : @bi_from_be_bytes rel = @bi_from_be_bytes cfg. Proof. now destruct cfg. Qed.
Lemma from_u128_rel : @from_u128 rel = @from_u128 cfg. Proof. now destruct cfg. Qed.
Lemma from_i128_rel : @from_i128 rel = @from_i128 cfg. Proof. now destruct cfg. Qed.
Lemma from_uint_rel : @from_uint rel = @from_uint cfg. Proof. now destruct cfg. Qed.
Lemma from_int_rel : @from_int rel = @from_int cfg. Proof. now destruct cfg. Qed.
Lemma zero_rel : @bi_zero rel = @bi_zero cfg. Proof. now destruct cfg. Qed.
Lemma one_rel : @bi_one rel = @bi_one cfg. Proof. now destruct cfg. Qed.
Lemma ctz_rel : @ctz rel = @ctz cfg. Proof. now destruct cfg. Qed.
End BigInt.
#[export] Hint Rewrite @carrying_add_rel @borrowing_sub_rel @add_zip_rel @add_carry_rel @sub_zip_rel @sub_borrow_rel @leading_zeros_rel @checked_shr_rel @chunk_rel
  @be_be_rel @be_le_rel @digits_bytes_rel @from_bytes_rel @from_u128_rel @from_i128_rel @from_uint_rel @from_int_rel @zero_rel @one_rel @ctz_rel : fo.

Local Notation "f ~ g" := (follows f g) (at level 70).

Section Digits.
Context {cfg : digit_cfg}.
Local Notation rel := (release cfg).
Lemma as_digits_fo x : @as_digits cfg x ~ @as_digits rel x. Proof. unfold as_digits. fo. Qed.
#[local] Hint Resolve as_digits_fo : fo.
Lemma is_zero_digits_fo x : @is_zero_digits cfg x ~ @is_zero_digits rel x. Proof. unfold is_zero_digits. fo. Qed.
#[local] Hint Resolve is_zero_digits_fo : fo.
Lemma is_zero_fo x : @is_zero cfg x ~ @is_zero rel x. Proof. unfold is_zero. fo. Qed.
#[local] Hint Resolve is_zero_fo : fo.
Lemma cmp_digits_fo a b : @cmp_digits cfg a b ~ @cmp_digits rel a b. Proof. unfold cmp_digits. fo. Qed.
#[local] Hint Resolve cmp_digits_fo : fo.
Lemma eq_digits_fo a b : @eq_digits cfg a b ~ @eq_digits rel a b. Proof. unfold eq_digits. fo. Qed.
#[local] Hint Resolve eq_digits_fo : fo.
Lemma both_zero_fo a b : @both_zero cfg a b ~ @both_zero rel a b. Proof. unfold both_zero. fo. Qed.
#[local] Hint Resolve both_zero_fo : fo.
Lemma bi_eq_fo a b : @bi_eq cfg a b ~ @bi_eq rel a b. Proof. unfold bi_eq. fo. Qed.
#[local] Hint Resolve bi_eq_fo : fo.
Lemma bi_cmp_fo a b : @bi_cmp cfg a b ~ @bi_cmp rel a b. Proof. unfold bi_cmp. fo. Qed.
#[local] Hint Resolve bi_cmp_fo : fo.
Lemma bi_lt_fo a b : @bi_lt cfg a b ~ @bi_lt rel a b. Proof. unfold bi_lt. fo. Qed.
#[local] Hint Resolve bi_lt_fo : fo.
Lemma bi_le_fo a b : @bi_le cfg a b ~ @bi_le rel a b. Proof. unfold bi_le. fo. Qed.
#[local] Hint Resolve bi_le_fo : fo.
Lemma bi_gt_fo a b : @bi_gt cfg a b ~ @bi_gt rel a b. Proof. unfold bi_gt. fo. Qed.
#[local] Hint Resolve bi_gt_fo : fo.
Lemma bi_ge_fo a b : @bi_ge cfg a b ~ @bi_ge rel a b. Proof. unfold bi_ge. fo. Qed.
#[local] Hint Resolve bi_ge_fo : fo.
Lemma add_digits_fo a b n : @add_digits cfg a b n ~ @add_digits rel a b n. Proof. unfold add_digits. fo. Qed.
#[local] Hint Resolve add_digits_fo : fo.
Lemma sub_digits_fo a b n : @sub_digits cfg a b n ~ @sub_digits rel a b n. Proof. unfold sub_digits. fo. Qed.
#[local] Hint Resolve sub_digits_fo : fo.
Lemma digitvec_with_len_fo n : @digitvec_with_len cfg n ~ @digitvec_with_len rel n. Proof. unfold digitvec_with_len. fo. Qed.
#[local] Hint Resolve digitvec_with_len_fo : fo.
Lemma ck_double_fo t : @ck_double cfg t ~ @ck_double rel t. Proof. unfold ck_double. autorewrite with fo. destruct (_ && _)%bool; [apply fo_refl|]. destruct (debug_checks cfg); [apply fo_panic|apply fo_refl]. Qed.
#[local] Hint Resolve ck_double_fo : fo.
Lemma mul_row_fo g w s c : @mul_row cfg g w s c ~ @mul_row rel g w s c. Proof. revert w c. induction g as [|x g IH]; intros w c; [apply fo_refl|]. destruct w; [apply fo_refl|]. cbn [mul_row]. fo. Qed.
#[local] Hint Resolve mul_row_fo : fo.
Lemma mul_rows_fo s g r : @mul_rows cfg s g r ~ @mul_rows rel s g r. Proof. revert r. induction s as [|x s IH]; intros r; [apply fo_refl|]. cbn [mul_rows]. fo. Qed.
#[local] Hint Resolve mul_rows_fo : fo.
Lemma mul_digits_fo a b n : @mul_digits cfg a b n ~ @mul_digits rel a b n. Proof. unfold mul_digits. fo. Qed.
#[local] Hint Resolve mul_digits_fo : fo.
Lemma shl_digit_fo x n : @shl_digit cfg x n ~ @shl_digit rel x n. Proof. unfold shl_digit. autorewrite with fo. destruct (_ && _)%bool; [apply fo_refl|]. destruct (debug_checks cfg); [apply fo_panic|apply fo_refl]. Qed.
#[local] Hint Resolve shl_digit_fo : fo.
Lemma shr_digit_fo x n : @shr_digit cfg x n ~ @shr_digit rel x n. Proof. unfold shr_digit. autorewrite with fo. destruct (_ && _)%bool; [apply fo_refl|]. destruct (debug_checks cfg); [apply fo_panic|apply fo_refl]. Qed.
#[local] Hint Resolve shr_digit_fo : fo.
Lemma div1_loop_fo l v r : @div1_loop cfg l v r ~ @div1_loop rel l v r. Proof. revert r. induction l as [|x l IH]; intros r; [apply fo_refl|]. cbn [div1_loop]. fo. Qed.
#[local] Hint Resolve div1_loop_fo : fo.
Lemma sub_mul_loop_fo a b c m w : @sub_mul_loop cfg a b c m w ~ @sub_mul_loop rel a b c m w. Proof. revert a m w. induction b as [|x b IH]; intros a m w; [apply fo_refl|]. cbn [sub_mul_loop]. fo. Qed.
#[local] Hint Resolve sub_mul_loop_fo : fo.
Lemma sub_mul_digits_fo a b c : @sub_mul_digits cfg a b c ~ @sub_mul_digits rel a b c. Proof. unfold sub_mul_digits. fo. Qed.
#[local] Hint Resolve sub_mul_digits_fo : fo.
Lemma assign_add_loop_fo a b c : @assign_add_loop cfg a b c ~ @assign_add_loop rel a b c. Proof. revert a c. induction b as [|x b IH]; intros a c; [apply fo_refl|]. cbn [assign_add_loop]. fo. Qed.
#[local] Hint Resolve assign_add_loop_fo : fo.
Lemma assign_add_digits_fo a b : @assign_add_digits cfg a b ~ @assign_add_digits rel a b. Proof. unfold assign_add_digits. fo. Qed.
#[local] Hint Resolve assign_add_digits_fo : fo.
Lemma normalize_divisor_fo l : @normalize_divisor cfg l ~ @normalize_divisor rel l. Proof. unfold normalize_divisor. fo. Qed.
#[local] Hint Resolve normalize_divisor_fo : fo.
Lemma normalize_dividend_fo w d n : @normalize_dividend cfg w d n ~ @normalize_dividend rel w d n. Proof. unfold normalize_dividend. fo. Qed.
#[local] Hint Resolve normalize_dividend_fo : fo.
Lemma estimate_q_fo u0 u1 u2 v0 v1 : @estimate_q cfg u0 u1 u2 v0 v1 ~ @estimate_q rel u0 u1 u2 v0 v1. Proof. unfold estimate_q. fo. Qed.
#[local] Hint Resolve estimate_q_fo : fo.
Lemma knuth_step_fo l v0 v1 d n w : @knuth_step cfg l v0 v1 d n w ~ @knuth_step rel l v0 v1 d n w. Proof. unfold knuth_step. fo. Qed.
#[local] Hint Resolve knuth_step_fo : fo.
Lemma knuth_loop_fo l v0 v1 d n k s q : @knuth_loop cfg l v0 v1 d n k s q ~ @knuth_loop rel l v0 v1 d n k s q. Proof. revert s q. induction k as [|k IH]; intros s q; cbn [knuth_loop]; fo. Qed.
#[local] Hint Resolve knuth_loop_fo : fo.
Lemma div_rem_digits_fo a b q r : @div_rem_digits cfg a b q r ~ @div_rem_digits rel a b q r. Proof. unfold div_rem_digits. fo. Qed.
#[local] Hint Resolve div_rem_digits_fo : fo.
Lemma bi_to_be_bytes_fo x : @bi_to_be_bytes cfg x ~ @bi_to_be_bytes rel x. Proof. unfold bi_to_be_bytes. fo. Qed.
#[local] Hint Resolve bi_to_be_bytes_fo : fo.
Lemma bi_add_fo x y : @bi_add cfg x y ~ @bi_add rel x y. Proof. unfold bi_add. fo. Qed.
#[local] Hint Resolve bi_add_fo : fo.
Lemma bi_sub_fo x y : @bi_sub cfg x y ~ @bi_sub rel x y. Proof. unfold bi_sub. fo. Qed.
#[local] Hint Resolve bi_sub_fo : fo.
Lemma bi_mul_fo x y : @bi_mul cfg x y ~ @bi_mul rel x y. Proof. unfold bi_mul. fo. Qed.
#[local] Hint Resolve bi_mul_fo : fo.
Lemma div_rem_fo x y : @div_rem cfg x y ~ @div_rem rel x y. Proof. unfold div_rem. fo. Qed.
#[local] Hint Resolve div_rem_fo : fo.
Lemma bi_div_fo x y : @bi_div cfg x y ~ @bi_div rel x y. Proof. unfold bi_div. fo. Qed.
#[local] Hint Resolve bi_div_fo : fo.
Lemma bi_rem_fo x y : @bi_rem cfg x y ~ @bi_rem rel x y. Proof. unfold bi_rem. fo. Qed.
#[local] Hint Resolve bi_rem_fo : fo.
Lemma bit_len_digits_fo a : @bit_len_digits cfg a ~ @bit_len_digits rel a. Proof. unfold bit_len_digits. fo. Qed.
#[local] Hint Resolve bit_len_digits_fo : fo.
Lemma bit_len_fo x : @bit_len cfg x ~ @bit_len rel x. Proof. unfold bit_len. fo. Qed.
#[local] Hint Resolve bit_len_fo : fo.
Lemma byte_len_fo x : @byte_len cfg x ~ @byte_len rel x. Proof. unfold byte_len. fo. Qed.
#[local] Hint Resolve byte_len_fo : fo.
Lemma le_bits_fo x : @le_bits cfg x ~ @le_bits rel x. Proof. unfold le_bits. fo. Qed.
#[local] Hint Resolve le_bits_fo : fo.
Lemma shr_loop_fo l n m c : @shr_loop cfg l n m c ~ @shr_loop rel l n m c. Proof. revert c. induction l as [|x l IH]; intros c; [apply fo_refl|]. cbn [shr_loop]. fo. Qed.
#[local] Hint Resolve shr_loop_fo : fo.
Lemma shift_right_digits_fo l k n : @shift_right_digits cfg l k n ~ @shift_right_digits rel l k n. Proof. unfold shift_right_digits. fo. Qed.
#[local] Hint Resolve shift_right_digits_fo : fo.
Lemma bi_shr_fo x n : @bi_shr cfg x n ~ @bi_shr rel x n. Proof. unfold bi_shr. fo. Qed.
#[local] Hint Resolve bi_shr_fo : fo.
Lemma shl_loop_fo l n m c : @shl_loop cfg l n m c ~ @shl_loop rel l n m c. Proof. revert c. induction l as [|x l IH]; intros c; [apply fo_refl|]. cbn [shl_loop]. fo. Qed.
#[local] Hint Resolve shl_loop_fo : fo.
Lemma shift_left_digits_fo l k n : @shift_left_digits cfg l k n ~ @shift_left_digits rel l k n. Proof. unfold shift_left_digits. fo. Qed.
#[local] Hint Resolve shift_left_digits_fo : fo.
Lemma bi_shl_fo x n : @bi_shl cfg x n ~ @bi_shl rel x n. Proof. unfold bi_shl. fo. Qed.
#[local] Hint Resolve bi_shl_fo : fo.
Lemma trailing_zeros_fo x : @trailing_zeros cfg x ~ @trailing_zeros rel x. Proof. unfold trailing_zeros. fo. Qed.
#[local] Hint Resolve trailing_zeros_fo : fo.
End Digits.
#[export] Hint Resolve as_digits_fo is_zero_digits_fo is_zero_fo cmp_digits_fo eq_digits_fo both_zero_fo bi_eq_fo bi_cmp_fo bi_lt_fo bi_le_fo bi_gt_fo bi_ge_fo add_digits_fo sub_digits_fo digitvec_with_len_fo ck_double_fo mul_row_fo mul_rows_fo mul_digits_fo shl_digit_fo shr_digit_fo div1_loop_fo sub_mul_loop_fo sub_mul_digits_fo assign_add_loop_fo assign_add_digits_fo normalize_divisor_fo normalize_dividend_fo estimate_q_fo knuth_step_fo knuth_loop_fo div_rem_digits_fo bi_to_be_bytes_fo bi_add_fo bi_sub_fo bi_mul_fo div_rem_fo bi_div_fo bi_rem_fo bit_len_digits_fo bit_len_fo byte_len_fo le_bits_fo shr_loop_fo shift_right_digits_fo bi_shr_fo shl_loop_fo shift_left_digits_fo bi_shl_fo trailing_zeros_fo : fo.

Section Text.
Context {cfg : digit_cfg}.
Local Notation rel := (release cfg).
Lemma bi_from_hex_fo s : @bi_from_hex cfg s ~ @bi_from_hex rel s. Proof. unfold bi_from_hex. fo. Qed.
#[local] Hint Resolve bi_from_hex_fo : fo.
Lemma radix_loop_fo s r b a : @radix_loop cfg s r b a ~ @radix_loop rel s r b a. Proof. revert a. induction s as [|c s IH]; intros a; [apply fo_refl|]. cbn [radix_loop]. fo. Qed.
#[local] Hint Resolve radix_loop_fo : fo.
Lemma bi_from_str_radix_fo s r : @bi_from_str_radix cfg s r ~ @bi_from_str_radix rel s r. Proof. unfold bi_from_str_radix. fo. Qed.
#[local] Hint Resolve bi_from_str_radix_fo : fo.
Lemma bi_to_lower_hex_fo x : @bi_to_lower_hex cfg x ~ @bi_to_lower_hex rel x. Proof. unfold bi_to_lower_hex. fo. Qed.
#[local] Hint Resolve bi_to_lower_hex_fo : fo.
Lemma bi_display_fo x : @bi_display cfg x ~ @bi_display rel x. Proof. unfold bi_display. fo. Qed.
#[local] Hint Resolve bi_display_fo : fo.
Lemma bu_from_uint_fo n : @bu_from_uint cfg n ~ @bu_from_uint rel n. Proof. unfold bu_from_uint. fo. Qed.
#[local] Hint Resolve bu_from_uint_fo : fo.
Lemma bu_from_be_bytes_fo b : @bu_from_be_bytes cfg b ~ @bu_from_be_bytes rel b. Proof. unfold bu_from_be_bytes. fo. Qed.
#[local] Hint Resolve bu_from_be_bytes_fo : fo.
Lemma bu_from_hex_fo s : @bu_from_hex cfg s ~ @bu_from_hex rel s. Proof. unfold bu_from_hex. fo. Qed.
#[local] Hint Resolve bu_from_hex_fo : fo.
Lemma bu_from_str_radix_fo s r : @bu_from_str_radix cfg s r ~ @bu_from_str_radix rel s r. Proof. unfold bu_from_str_radix. fo. Qed.
#[local] Hint Resolve bu_from_str_radix_fo : fo.
Lemma bu_to_be_bytes_fo x : @bu_to_be_bytes cfg x ~ @bu_to_be_bytes rel x. Proof. unfold bu_to_be_bytes. fo. Qed.
#[local] Hint Resolve bu_to_be_bytes_fo : fo.
Lemma bu_to_lower_hex_fo x : @bu_to_lower_hex cfg x ~ @bu_to_lower_hex rel x. Proof. unfold bu_to_lower_hex. fo. Qed.
#[local] Hint Resolve bu_to_lower_hex_fo : fo.
Lemma bu_try_from_fo s : @bu_try_from cfg s ~ @bu_try_from rel s. Proof. unfold bu_try_from. repeat match goal with |- follows (match ?x with _ => _ end) _ => destruct x; try apply bu_from_str_radix_fo end. apply bu_from_hex_fo. Qed.
#[local] Hint Resolve bu_try_from_fo : fo.
Lemma bu_add_fo x y : @bu_add cfg x y ~ @bu_add rel x y. Proof. unfold bu_add. fo. Qed.
#[local] Hint Resolve bu_add_fo : fo.
Lemma bu_sub_fo x y : @bu_sub cfg x y ~ @bu_sub rel x y. Proof. unfold bu_sub. fo. Qed.
#[local] Hint Resolve bu_sub_fo : fo.
Lemma bu_mul_fo x y : @bu_mul cfg x y ~ @bu_mul rel x y. Proof. unfold bu_mul. fo. Qed.
#[local] Hint Resolve bu_mul_fo : fo.
Lemma bu_shr_fo x n : @bu_shr cfg x n ~ @bu_shr rel x n. Proof. unfold bu_shr. fo. Qed.
#[local] Hint Resolve bu_shr_fo : fo.
Lemma bu_display_fo x : @bu_display cfg x ~ @bu_display rel x. Proof. unfold bu_display. fo. Qed.
#[local] Hint Resolve bu_display_fo : fo.
End Text.
#[export] Hint Resolve bi_from_hex_fo radix_loop_fo bi_from_str_radix_fo bi_to_lower_hex_fo bi_display_fo bu_from_uint_fo bu_from_be_bytes_fo bu_from_hex_fo bu_from_str_radix_fo bu_to_be_bytes_fo bu_to_lower_hex_fo bu_try_from_fo bu_add_fo bu_sub_fo bu_mul_fo bu_shr_fo bu_display_fo : fo.

Section Gcd.
Context {cfg : digit_cfg}.
Local Notation rel := (release cfg).
Lemma ck_digit_fo t : @ck_digit cfg t ~ @ck_digit rel t. Proof. unfold ck_digit. autorewrite with fo. destruct (_ && _)%bool; [apply fo_refl|]. destruct (debug_checks cfg); [apply fo_panic|apply fo_refl]. Qed.
#[local] Hint Resolve ck_digit_fo : fo.
Lemma x_mul_sub_y_mul_unsigned_fo x a y b n : @x_mul_sub_y_mul_unsigned cfg x a y b n ~ @x_mul_sub_y_mul_unsigned rel x a y b n. Proof. unfold x_mul_sub_y_mul_unsigned. fo. Qed.
#[local] Hint Resolve x_mul_sub_y_mul_unsigned_fo : fo.
Lemma signed_sub_fo p s q t n : @signed_sub cfg p s q t n ~ @signed_sub rel p s q t n. Proof. unfold signed_sub. fo. Qed.
#[local] Hint Resolve signed_sub_fo : fo.
Lemma x_mul_sub_y_mul_signed_fo x a s y b t n : @x_mul_sub_y_mul_signed cfg x a s y b t n ~ @x_mul_sub_y_mul_signed rel x a s y b t n. Proof. unfold x_mul_sub_y_mul_signed. fo. Qed.
#[local] Hint Resolve x_mul_sub_y_mul_signed_fo : fo.
Lemma a_sub_q_mul_b_fo a q b n : @a_sub_q_mul_b cfg a q b n ~ @a_sub_q_mul_b rel a q b n. Proof. unfold a_sub_q_mul_b. fo. Qed.
#[local] Hint Resolve a_sub_q_mul_b_fo : fo.
Lemma ua_sub_q_mul_ub_fo a s q b t n : @ua_sub_q_mul_ub cfg a s q b t n ~ @ua_sub_q_mul_ub rel a s q b t n. Proof. unfold ua_sub_q_mul_ub. fo. Qed.
#[local] Hint Resolve ua_sub_q_mul_ub_fo : fo.
Lemma iterate_euclid_extended_fo a b s : @iterate_euclid_extended cfg a b s ~ @iterate_euclid_extended rel a b s. Proof. unfold iterate_euclid_extended. fo. Qed.
#[local] Hint Resolve iterate_euclid_extended_fo : fo.
Lemma iterate_dpcc_odd_fo a b u0 u1 v0 v1 s : @iterate_dpcc_odd cfg a b u0 u1 v0 v1 s ~ @iterate_dpcc_odd rel a b u0 u1 v0 v1 s. Proof. unfold iterate_dpcc_odd. fo. Qed.
#[local] Hint Resolve iterate_dpcc_odd_fo : fo.
Lemma iterate_dpcc_even_fo a b u0 u1 v0 v1 s : @iterate_dpcc_even cfg a b u0 u1 v0 v1 s ~ @iterate_dpcc_even rel a b u0 u1 v0 v1 s. Proof. unfold iterate_dpcc_even. fo. Qed.
#[local] Hint Resolve iterate_dpcc_even_fo : fo.
Lemma dpcc_loop_fo f a b u0 u1 u2 v0 v1 v2 o : @dpcc_loop cfg f a b u0 u1 u2 v0 v1 v2 o ~ @dpcc_loop rel f a b u0 u1 u2 v0 v1 v2 o. Proof. revert a b u0 u1 u2 v0 v1 v2 o. induction f as [|f IH]; intros; cbn [dpcc_loop]; fo. Qed.
#[local] Hint Resolve dpcc_loop_fo : fo.
Lemma hat_pair_fo a b : @hat_pair cfg a b ~ @hat_pair rel a b. Proof. unfold hat_pair. fo. Qed.
#[local] Hint Resolve hat_pair_fo : fo.
Lemma gcd_step_fo a b s : @gcd_step cfg a b s ~ @gcd_step rel a b s. Proof. unfold gcd_step. fo. Qed.
#[local] Hint Resolve gcd_step_fo : fo.
Lemma gcd_loop_fo f a b s : @gcd_loop cfg f a b s ~ @gcd_loop rel f a b s. Proof. revert s. induction f as [|f IH]; intros; cbn [gcd_loop]; fo. Qed.
#[local] Hint Resolve gcd_loop_fo : fo.
Lemma gcd_digits_fo a b : @gcd_digits cfg a b ~ @gcd_digits rel a b. Proof. unfold gcd_digits. fo. Qed.
#[local] Hint Resolve gcd_digits_fo : fo.
Lemma gcd_fo a b : @gcd cfg a b ~ @gcd rel a b. Proof. unfold gcd. fo. Qed.
#[local] Hint Resolve gcd_fo : fo.
End Gcd.
#[export] Hint Resolve ck_digit_fo x_mul_sub_y_mul_unsigned_fo signed_sub_fo x_mul_sub_y_mul_signed_fo a_sub_q_mul_b_fo ua_sub_q_mul_ub_fo iterate_euclid_extended_fo iterate_dpcc_odd_fo iterate_dpcc_even_fo dpcc_loop_fo hat_pair_fo gcd_step_fo gcd_loop_fo gcd_digits_fo gcd_fo : fo.

Section Ends.
Context {cfg : digit_cfg}.
Lemma len_digits_en l : ends (len_digits l). Proof. unfold len_digits. destruct l; discriminate. Qed.
#[local] Hint Resolve len_digits_en : en.
Lemma as_digits_en x : ends (@as_digits cfg x). Proof. unfold as_digits, slice_to, slice. en. Qed.
#[local] Hint Resolve as_digits_en : en.
Lemma is_zero_digits_en l : ends (@is_zero_digits cfg l). Proof. unfold is_zero_digits. en. Qed.
#[local] Hint Resolve is_zero_digits_en : en.
Lemma is_zero_en x : ends (@is_zero cfg x). Proof. unfold is_zero. en. Qed.
#[local] Hint Resolve is_zero_en : en.
Lemma cmp_digits_en a b : ends (@cmp_digits cfg a b). Proof. unfold cmp_digits. en. Qed.
#[local] Hint Resolve cmp_digits_en : en.
Lemma eq_digits_en a b : ends (@eq_digits cfg a b). Proof. unfold eq_digits. en. Qed.
#[local] Hint Resolve eq_digits_en : en.
Lemma both_zero_en a b : ends (@both_zero cfg a b). Proof. unfold both_zero. en. Qed.
#[local] Hint Resolve both_zero_en : en.
Lemma bi_eq_en a b : ends (@bi_eq cfg a b). Proof. unfold bi_eq. en. Qed.
#[local] Hint Resolve bi_eq_en : en.
Lemma bi_cmp_en a b : ends (@bi_cmp cfg a b). Proof. unfold bi_cmp. en. Qed.
#[local] Hint Resolve bi_cmp_en : en.
Lemma bi_lt_en a b : ends (@bi_lt cfg a b). Proof. unfold bi_lt. en. Qed.
#[local] Hint Resolve bi_lt_en : en.
Lemma bi_le_en a b : ends (@bi_le cfg a b). Proof. unfold bi_le. en. Qed.
#[local] Hint Resolve bi_le_en : en.
Lemma bi_gt_en a b : ends (@bi_gt cfg a b). Proof. unfold bi_gt. en. Qed.
#[local] Hint Resolve bi_gt_en : en.
Lemma bi_ge_en a b : ends (@bi_ge cfg a b). Proof. unfold bi_ge. en. Qed.
#[local] Hint Resolve bi_ge_en : en.
Lemma from_u128_en n s : ends (@from_u128 cfg n s). Proof. unfold from_u128. en. Qed.
#[local] Hint Resolve from_u128_en : en.
Lemma from_i128_en n : ends (@from_i128 cfg n). Proof. unfold from_i128. en. Qed.
#[local] Hint Resolve from_i128_en : en.
Lemma from_int_en n : ends (@from_int cfg n). Proof. unfold from_int. en. Qed.
#[local] Hint Resolve from_int_en : en.
Lemma bi_zero_en  : ends (@bi_zero cfg ). Proof. unfold bi_zero. en. Qed.
#[local] Hint Resolve bi_zero_en : en.
Lemma bi_one_en  : ends (@bi_one cfg ). Proof. unfold bi_one. en. Qed.
#[local] Hint Resolve bi_one_en : en.
Lemma is_even_en x : ends (is_even x). Proof. unfold is_even, index. en. Qed.
#[local] Hint Resolve is_even_en : en.
Lemma is_odd_en x : ends (is_odd x). Proof. unfold is_odd. en. Qed.
#[local] Hint Resolve is_odd_en : en.
Lemma bit_len_digits_en a : ends (@bit_len_digits cfg a). Proof. unfold bit_len_digits, index. en. Qed.
#[local] Hint Resolve bit_len_digits_en : en.
Lemma bit_len_en x : ends (@bit_len cfg x). Proof. unfold bit_len. en. Qed.
#[local] Hint Resolve bit_len_en : en.
End Ends.
#[export] Hint Resolve len_digits_en as_digits_en is_zero_digits_en is_zero_en cmp_digits_en eq_digits_en both_zero_en bi_eq_en bi_cmp_en bi_lt_en bi_le_en bi_gt_en bi_ge_en from_u128_en from_i128_en from_int_en bi_zero_en bi_one_en is_even_en is_odd_en bit_len_digits_en bit_len_en : en.

Section Modular.
Context {cfg : digit_cfg}.
Local Notation rel := (release cfg).
Lemma bi_ne_fo a b : @bi_ne cfg a b ~ @bi_ne rel a b. Proof. unfold bi_ne. fo. Qed.
#[local] Hint Resolve bi_ne_fo : fo.
Lemma modulo_fo a n : @modulo cfg a n ~ @modulo rel a n. Proof. unfold modulo. fo. Qed.
#[local] Hint Resolve modulo_fo : fo.
Lemma invert_fo a n : @invert cfg a n ~ @invert rel a n. Proof. unfold invert. fo. Qed.
#[local] Hint Resolve invert_fo : fo.
Lemma fuel_of_fo x : @fuel_of cfg x ~ @fuel_of rel x. Proof. unfold fuel_of. fo. Qed.
#[local] Hint Resolve fuel_of_fo : fo.
Lemma pow_body_fo n z s : @pow_body cfg n z s ~ @pow_body rel n z s. Proof. unfold pow_body. fo. Qed.
#[local] Hint Resolve pow_body_fo : fo.
Lemma pow_fo a e n : @pow cfg a e n ~ @pow rel a e n. Proof. unfold pow. fo. Qed.
#[local] Hint Resolve pow_fo : fo.
Lemma nonresidue_body_fo p s t o n : @nonresidue_body cfg p s t o n ~ @nonresidue_body rel p s t o n. Proof. unfold nonresidue_body. fo. Qed.
#[local] Hint Resolve nonresidue_body_fo : fo.
Lemma order_body_fo p o r s : @order_body cfg p o r s ~ @order_body rel p o r s. Proof. unfold order_body. fo. Qed.
#[local] Hint Resolve order_body_fo : fo.
Lemma one_shl_fo k : @one_shl cfg k ~ @one_shl rel k. Proof. unfold one_shl. fo. Qed.
#[local] Hint Resolve one_shl_fo : fo.
Lemma shanks_body_fo p o f s : @shanks_body cfg p o f s ~ @shanks_body rel p o f s. Proof. unfold shanks_body. fo. Qed.
#[local] Hint Resolve shanks_body_fo : fo.
Lemma sqrt_fo a p : @sqrt cfg a p ~ @sqrt rel a p. Proof. unfold sqrt. fo. Qed.
#[local] Hint Resolve sqrt_fo : fo.
End Modular.
#[export] Hint Resolve bi_ne_fo modulo_fo invert_fo fuel_of_fo pow_body_fo pow_fo nonresidue_body_fo order_body_fo one_shl_fo shanks_body_fo sqrt_fo : fo.

Lemma in_field_en {cfg : digit_cfg} v p : ends (in_field v p). Proof. unfold in_field. en. Qed.
#[export] Hint Resolve in_field_en : en.
Section Curve.
Context {cfg : digit_cfg}.
Local Notation rel := (release cfg).
Lemma is_identity_element_fo a : @is_identity_element cfg a ~ @is_identity_element rel a. Proof. unfold is_identity_element. fo. Qed.
#[local] Hint Resolve is_identity_element_fo : fo.
Lemma point_eq_fo a b : @point_eq cfg a b ~ @point_eq rel a b. Proof. unfold point_eq. fo. Qed.
#[local] Hint Resolve point_eq_fo : fo.
Lemma curve_modulo_fo C a : @curve_modulo cfg C a ~ @curve_modulo rel C a. Proof. unfold curve_modulo. fo. Qed.
#[local] Hint Resolve curve_modulo_fo : fo.
Lemma curve_invert_fo C a : @curve_invert cfg C a ~ @curve_invert rel C a. Proof. unfold curve_invert. fo. Qed.
#[local] Hint Resolve curve_invert_fo : fo.
Lemma identity_rel : @identity_element rel = @identity_element cfg. Proof. now destruct cfg. Qed.
#[local] Hint Rewrite identity_rel : fo.
Lemma double_point_fo C a : @double_point cfg C a ~ @double_point rel C a. Proof. unfold double_point. fo. Qed.
#[local] Hint Resolve double_point_fo : fo.
Lemma add_points_fo C a b : @add_points cfg C a b ~ @add_points rel C a b. Proof. unfold add_points. fo. Qed.
#[local] Hint Resolve add_points_fo : fo.
Lemma mul_loop_fo C l P Q : @mul_loop cfg C l P Q ~ @mul_loop rel C l P Q. Proof. revert P Q. induction l as [|b l IH]; intros; [apply fo_refl|]. cbn [mul_loop]. fo. Qed.
#[local] Hint Resolve mul_loop_fo : fo.
Lemma mul_point_fo C P n : @mul_point cfg C P n ~ @mul_point rel C P n. Proof. unfold mul_point. fo. Qed.
#[local] Hint Resolve mul_point_fo : fo.
Lemma validate_point_fo D P : @validate_point cfg D P ~ @validate_point rel D P. Proof. unfold validate_point. fo. Qed.
#[local] Hint Resolve validate_point_fo : fo.
Lemma point_to_bytes_fo D P : @point_to_bytes cfg D P ~ @point_to_bytes rel D P. Proof. unfold point_to_bytes. fo. Qed.
#[local] Hint Resolve point_to_bytes_fo : fo.
Lemma hex_lit_fo s : @hex_lit cfg s ~ @hex_lit rel s. Proof. unfold hex_lit. fo. Qed.
#[local] Hint Resolve hex_lit_fo : fo.
Lemma secp256k1_fo  : @secp256k1 cfg  ~ @secp256k1 rel . Proof. unfold secp256k1. fo. Qed.
#[local] Hint Resolve secp256k1_fo : fo.
End Curve.
#[export] Hint Resolve is_identity_element_fo point_eq_fo curve_modulo_fo curve_invert_fo double_point_fo add_points_fo mul_loop_fo mul_point_fo validate_point_fo point_to_bytes_fo hex_lit_fo secp256k1_fo : fo.

#[export] Hint Rewrite @identity_rel : fo.

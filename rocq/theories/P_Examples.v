(** Proofs about the programs in examples/. *)

From Coq Require Import String.
From Verif Require Import Base M_Codec M_BigInt M_Rlp M_Tx M_TxSign M_Display M_Examples S_Codec S_Rlp S_Tx S_Eoa S_Display S_Examples.
From Verif Require Import P_BigInt3 P_Codec P_Rlp P_Rlp2.
Open Scope Z_scope.
Local Open Scope list_scope.

(** * Arguments *)
Lemma spells_nibbles s bs : spells s bs <-> digits_of 16 s (nibbles bs).
Proof.
  unfold spells. replace (flat_map (fun b => [b / 16; b mod 16]) bs) with (nibbles bs); [reflexivity|].
  induction bs as [|b bs IH]; [reflexivity|]. cbn [nibbles flat_map app]. now rewrite IH.
Qed.
Lemma digit_byte c v : is_digit 16 c v -> byte c.
Proof.
  intros [H _]. unfold alnum_value in H. unfold byte.
  destruct ((48 <=? c) && (c <=? 57)) eqn:E1; [lia|]. destruct ((65 <=? c) && (c <=? 90)) eqn:E2; [lia|]. destruct ((97 <=? c) && (c <=? 122)) eqn:E3; [lia|discriminate].
Qed.
Lemma digits_bytes s vs : digits_of 16 s vs -> bytes s.
Proof. induction 1 as [|c v s vs H _ IH]; constructor; [eapply digit_byte; exact H|exact IH]. Qed.
Lemma spells_decode s bs : bytes bs -> spells s bs -> hex_to_bytes s = Ok bs.
Proof.
  intros B H. apply spells_nibbles in H. pose proof (digits_bytes _ _ H) as Bs. destruct (hex_to_bytes_spec s Bs) as (_ & _ & H3).
  pose proof (digits_of_length _ _ _ H) as L. rewrite nibbles_length in L.
  destruct (H3 (nibbles bs)) as (bs' & -> & B' & L' & V'); [rewrite L; apply even_double|exact H|].
  f_equal. apply be_val_inj; auto; [lia|]. rewrite V'. apply nibbles_positional.
Qed.
Lemma decode_pairs s : forall bs, bytes s -> hex_pairs s = Ok bs -> Nat.even (length s) = true -> bytes bs /\ spells s bs.
Proof.
  intros bs Hb E He. revert Hb bs E. pattern s. revert s He. apply even_ind.
  - intros _ bs E. injection E as <-. split; constructor.
  - intros x y s IH Hb bs. inversion Hb as [|? ? Hx Hb']; subst. inversion Hb' as [|? ? Hy Hb'']; subst.
    cbn [hex_pairs]. rewrite (hex_char_spec x), (hex_char_spec y) by assumption.
    destruct (hex_value x) as [hv|] eqn:E1; [|discriminate]. destruct (hex_value y) as [lv|] eqn:E2; [|discriminate].
    destruct (hex_pairs s) as [bs'|] eqn:E3; [|discriminate]. intros E. injection E as <-. destruct (IH Hb'' bs' eq_refl) as [B S].
    pose proof (hex_value_range _ _ E1). pose proof (hex_value_range _ _ E2). rewrite lor_nibbles by assumption. apply hex_value_digit in E1, E2.
    split; [constructor; [unfold byte; lia|exact B]|]. apply spells_nibbles. cbn [nibbles].
    replace ((16 * hv + lv) / 16) with hv by (Z.to_euclidean_division_equations; lia).
    replace ((16 * hv + lv) mod 16) with lv by (Z.to_euclidean_division_equations; lia).
    constructor; [exact E1|]. constructor; [exact E2|]. now apply spells_nibbles.
Qed.
Lemma decode_spells s bs : bytes s -> hex_to_bytes s = Ok bs -> bytes bs /\ spells s bs.
Proof.
  intros Hb. unfold hex_to_bytes. rewrite len_even_land. destruct (Nat.even (length s)) eqn:He; cbn [negb]; [|discriminate].
  intros E. now apply decode_pairs.
Qed.
Lemma strip_0x_cons s : strip_0x (ascii "0x" ++ s) = s.
Proof. reflexivity. Qed.
Lemma strip_no s : (forall r, s <> 48 :: 120 :: r) -> strip_0x s = s.
Proof.
  intros N. unfold strip_0x. destruct s as [|a s]; [reflexivity|]. destruct (Z.eq_dec a 48) as [->|Na].
  - destruct s as [|b s]; [reflexivity|]. destruct (Z.eq_dec b 120) as [->|Nb]; [now destruct (N s)|].
    destruct b as [|q|q]; try reflexivity. repeat (destruct q as [q|q|]; try reflexivity). congruence.
  - destruct a as [|q|q]; try reflexivity. repeat (destruct q as [q|q|]; try reflexivity). congruence.
Qed.
Lemma strip_spelled s bs : spells s bs -> strip_0x s = s.
Proof.
  intros H. apply spells_nibbles in H. apply strip_no. intros r ->. inversion H as [|? ? ? ? _ H2]; subst. inversion H2 as [|? ? ? ? [K L] _]; subst.
  cbn in K. injection K as <-. lia.
Qed.
Lemma strip_split s : s = strip_0x s \/ s = ascii "0x" ++ strip_0x s.
Proof.
  destruct s as [|a [|b s]]; [now left|left; symmetry; apply strip_no; discriminate|].
  destruct (Z.eq_dec a 48) as [->|Na]; [destruct (Z.eq_dec b 120) as [->|Nb]; [now right|]|]; left; symmetry; apply strip_no; congruence.
Qed.
Lemma given_decode arg bs : given arg bs -> exists s, arg = Some s /\ hex_to_bytes (strip_0x s) = Ok bs /\ bytes bs.
Proof.
  intros (B & s & S & [->| ->]); eexists; (split; [reflexivity|]); (split; [|exact B]).
  - rewrite (strip_spelled s bs S). now apply spells_decode.
  - rewrite strip_0x_cons. now apply spells_decode.
Qed.
Lemma strip_bytes s : bytes s -> bytes (strip_0x s).
Proof. intros B. destruct (strip_split s) as [E|E]; [now rewrite <- E|]. rewrite E in B. apply Forall_app in B. apply B. Qed.
Lemma decode_given s bs : bytes s -> hex_to_bytes (strip_0x s) = Ok bs -> given (Some s) bs.
Proof.
  intros B E. destruct (decode_spells _ _ (strip_bytes s B) E) as [Bb S]. split; [exact Bb|]. exists (strip_0x s). split; [exact S|].
  destruct (strip_split s) as [F|F]; [left|right]; now f_equal.
Qed.

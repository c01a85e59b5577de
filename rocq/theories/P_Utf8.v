(** Proof that the model of [String::from_utf8] accepts exactly UTF-8. *)

From Verif Require Import Base M_Rlp S_EthTypes.
Open Scope Z_scope.

Ltac dm := Z.div_mod_to_equations; lia.
Lemma utf8_form_valid c s : scalar c -> utf8_valid (utf8_form c ++ s) = utf8_valid s.
Proof.
  intros [H1 H2]. unfold utf8_form.
  destruct (Z.ltb_spec c 0x80); [|destruct (Z.ltb_spec c 0x800); [|destruct (Z.ltb_spec c 0x10000)]]; cbn [app].
  - cbn [utf8_valid]. now rewrite (proj2 (Z.leb_le c 0x7f)) by lia.
  - cbn [utf8_valid]. rewrite (proj2 (Z.leb_gt _ 0x7f)) by dm. rewrite (proj2 (Z.leb_le 0xc2 _)) by dm. rewrite (proj2 (Z.leb_le _ 0xdf)) by dm.
    unfold utf8_cont. rewrite (proj2 (Z.leb_le 0x80 _)) by dm. rewrite (proj2 (Z.leb_le _ 0xbf)) by dm. reflexivity.
  - cbn [utf8_valid]. rewrite (proj2 (Z.leb_gt _ 0x7f)) by dm. rewrite (proj2 (Z.leb_gt _ 0xdf)) by dm. rewrite andb_false_r.
    rewrite (proj2 (Z.leb_le 0xe0 _)) by dm. rewrite (proj2 (Z.leb_le _ 0xef)) by dm. cbn [andb].
    unfold utf8_cont. rewrite (proj2 (Z.leb_le 0x80 (0x80 + c mod 64))) by dm. rewrite (proj2 (Z.leb_le (0x80 + c mod 64) 0xbf)) by dm.
    rewrite (proj2 (Z.leb_le _ (0x80 + c / 64 mod 64))), (proj2 (Z.leb_le (0x80 + c / 64 mod 64) _)); [reflexivity| |].
    + destruct (Z.eqb_spec (0xe0 + c / 64 / 64) 0xed); dm.
    + destruct (Z.eqb_spec (0xe0 + c / 64 / 64) 0xe0); dm.
  - cbn [utf8_valid]. rewrite (proj2 (Z.leb_gt _ 0x7f)) by dm. rewrite (proj2 (Z.leb_gt _ 0xdf)) by dm. rewrite andb_false_r.
    rewrite (proj2 (Z.leb_gt _ 0xef)) by dm. rewrite andb_false_r.
    rewrite (proj2 (Z.leb_le 0xf0 _)) by dm. rewrite (proj2 (Z.leb_le _ 0xf4)) by dm. cbn [andb].
    unfold utf8_cont. rewrite (proj2 (Z.leb_le 0x80 (0x80 + c mod 64))) by dm. rewrite (proj2 (Z.leb_le (0x80 + c mod 64) 0xbf)) by dm.
    rewrite (proj2 (Z.leb_le 0x80 (0x80 + c / 64 mod 64))) by dm. rewrite (proj2 (Z.leb_le (0x80 + c / 64 mod 64) 0xbf)) by dm.
    rewrite (proj2 (Z.leb_le _ (0x80 + c / 64 / 64 mod 64))), (proj2 (Z.leb_le (0x80 + c / 64 / 64 mod 64) _)); [reflexivity| |].
    + destruct (Z.eqb_spec (0xf0 + c / 64 / 64 / 64) 0xf4); dm.
    + destruct (Z.eqb_spec (0xf0 + c / 64 / 64 / 64) 0xf0); dm.
Qed.
Lemma div64 q r : 0 <= r < 64 -> (q * 64 + r) / 64 = q /\ (q * 64 + r) mod 64 = r.
Proof. intros H. split; dm. Qed.
Lemma utf8_one b s : bytes (b :: s) -> utf8_valid (b :: s) = true ->
  exists c r, scalar c /\ b :: s = utf8_form c ++ r /\ utf8_valid r = true.
Proof.
  intros B H. cbn [utf8_valid] in H. inversion B as [|? ? Hb B0]; subst. unfold byte in Hb.
  destruct (Z.leb_spec b 0x7f).
  { exists b, s. split; [split; lia|]. split; [|exact H]. unfold utf8_form. now rewrite (proj2 (Z.ltb_lt _ _)) by lia. }
  destruct s as [|b1 s]; [discriminate|]. inversion B0 as [|? ? Hb1 B1]; subst. unfold byte in Hb1.
  destruct ((0xc2 <=? b) && (b <=? 0xdf))%bool eqn:R.
  { apply andb_true_iff in R, H. unfold utf8_cont in H. rewrite andb_true_iff, !Z.leb_le in H. rewrite !Z.leb_le in R. destruct H as [H H'].
    destruct (div64 (b - 0xc0) (b1 - 0x80) ltac:(lia)) as [D M]. exists ((b - 0xc0) * 64 + (b1 - 0x80)), s.
    split; [split; lia|]. split; [|exact H']. unfold utf8_form. rewrite (proj2 (Z.ltb_ge _ 0x80)), (proj2 (Z.ltb_lt _ 0x800)) by lia.
    rewrite D, M. cbn [app]. f_equal; [lia|f_equal; lia]. }
  destruct s as [|b2 s]; [discriminate|]. inversion B1 as [|? ? Hb2 B2]; subst. unfold byte in Hb2.
  rewrite andb_false_iff, !Z.leb_gt in R.
  destruct ((0xe0 <=? b) && (b <=? 0xef))%bool eqn:R2.
  { unfold utf8_cont in H. rewrite !andb_true_iff, !Z.leb_le in H. rewrite andb_true_iff, !Z.leb_le in R2. destruct H as [[[H1 H2] H3] H4].
    destruct (div64 ((b - 0xe0) * 64 + (b1 - 0x80)) (b2 - 0x80) ltac:(lia)) as [D M].
    assert (0x80 <= b1 <= 0xbf) by (destruct (b =? 0xe0), (b =? 0xed); lia).
    destruct (div64 (b - 0xe0) (b1 - 0x80) ltac:(lia)) as [D' M'].
    exists (((b - 0xe0) * 64 + (b1 - 0x80)) * 64 + (b2 - 0x80)), s.
    assert (C : 0x800 <= ((b - 0xe0) * 64 + (b1 - 0x80)) * 64 + (b2 - 0x80)) by (destruct (Z.eqb_spec b 0xe0); lia).
    split; [split; [lia|]; destruct (Z.eqb_spec b 0xed); lia|]. split; [|exact H4].
    unfold utf8_form. rewrite (proj2 (Z.ltb_ge _ 0x80)), (proj2 (Z.ltb_ge _ 0x800)), (proj2 (Z.ltb_lt _ 0x10000)) by lia.
    rewrite D, M, D', M'. cbn [app]. f_equal; [lia|f_equal; [lia|f_equal; lia]]. }
  destruct s as [|b3 s]; [discriminate|]. inversion B2 as [|? ? Hb3 B3]; subst. unfold byte in Hb3.
  unfold utf8_cont in H. rewrite !andb_true_iff, !Z.leb_le in H. destruct H as [[[[[[H1 H2] H3] H4] H5] H6] H7].
  assert (0x80 <= b1 <= 0xbf) by (destruct (b =? 0xf0), (b =? 0xf4); lia).
  destruct (div64 (((b - 0xf0) * 64 + (b1 - 0x80)) * 64 + (b2 - 0x80)) (b3 - 0x80) ltac:(lia)) as [D M].
  destruct (div64 ((b - 0xf0) * 64 + (b1 - 0x80)) (b2 - 0x80) ltac:(lia)) as [D' M'].
  destruct (div64 (b - 0xf0) (b1 - 0x80) ltac:(lia)) as [D'' M''].
  exists ((((b - 0xf0) * 64 + (b1 - 0x80)) * 64 + (b2 - 0x80)) * 64 + (b3 - 0x80)), s.
  assert (C : 0x10000 <= (((b - 0xf0) * 64 + (b1 - 0x80)) * 64 + (b2 - 0x80)) * 64 + (b3 - 0x80) <= 0x10ffff)
    by (destruct (Z.eqb_spec b 0xf0), (Z.eqb_spec b 0xf4); lia).
  split; [split; lia|]. split; [|exact H7].
  unfold utf8_form. rewrite (proj2 (Z.ltb_ge _ 0x80)), (proj2 (Z.ltb_ge _ 0x800)), (proj2 (Z.ltb_ge _ 0x10000)) by lia.
  rewrite D, M, D', M', D'', M''. cbn [app]. f_equal; [lia|f_equal; [lia|f_equal; [lia|f_equal; lia]]].
Qed.
Lemma utf8_form_nonnil c : (1 <= length (utf8_form c))%nat.
Proof. unfold utf8_form. destruct (c <? _); [cbn; lia|]. destruct (c <? _); [cbn; lia|]. destruct (c <? _); cbn; lia. Qed.
Lemma utf8_valid_iff s : bytes s -> (utf8_valid s = true <-> UTF8 s).
Proof.
  intros B. split.
  - remember (length s) as n eqn:E. revert s B E. induction n as [n IH] using lt_wf_ind. intros [|b s] B E H.
    + exists []. split; [constructor|reflexivity].
    + destruct (utf8_one b s B H) as (c & r & Sc & R & V). rewrite R in *. apply Forall_app in B.
      rewrite app_length in E. pose proof (utf8_form_nonnil c).
      destruct (IH (length r) ltac:(lia) r (proj2 B) eq_refl V) as (cs & F & ->). exists (c :: cs). split; [now constructor|reflexivity].
  - intros (cs & F & ->). clear B. induction F as [|c cs Sc F IH]; [reflexivity|]. cbn [flat_map]. now rewrite utf8_form_valid.
Qed.

(** SHA-256 computed with masks instead of remainders: the same function, quicker to evaluate. *)

From Coq Require Import Lia.
From Verif Require Import Base M_Word M_Sha2.
Open Scope Z_scope.

Definition M32 : Z := 0xffffffff.
Definition fadd (x y : Z) : Z := Z.land (x + y) M32.
Definition frot (x r l : Z) : Z := Z.lor (Z.shiftr x r) (Z.land (Z.shiftl x l) M32).
Lemma fadd_ok x y : fadd x y = wrapping_add 32 x y.
Proof. unfold fadd, wrapping_add. change M32 with (Z.ones 32). apply Z.land_ones. lia. Qed.
Lemma frot_ok x r l : l = 32 - r -> frot x r l = rotate_right 32 x r.
Proof. intros ->. unfold frot, rotate_right. change M32 with (Z.ones 32). now rewrite Z.land_ones by lia. Qed.

Definition frnd (a b c d e f g h w_i k_i : Z) : Z * Z :=
  let t0 := fadd (fadd (fadd (fadd h (Z.lxor (Z.lxor (frot e 6 26) (frot e 11 21)) (frot e 25 7))) (Z.lxor (Z.land e f) (Z.land (M32 - e) g))) k_i) w_i in
  let t1 := fadd (Z.lxor (Z.lxor (frot a 2 30) (frot a 13 19)) (frot a 22 10)) (maj32 a b c) in
  (fadd d t0, fadd t0 t1).
Lemma frnd_ok a b c d e f g h w k : frnd a b c d e f g h w k = rnd32 a b c d e f g h w k.
Proof.
  unfold frnd, rnd32. cbv zeta. rewrite !fadd_ok. unfold sigma1_32, sigma0_32, ch32, wnot.
  rewrite (frot_ok e 6 26 eq_refl), (frot_ok e 11 21 eq_refl), (frot_ok e 25 7 eq_refl), (frot_ok a 2 30 eq_refl), (frot_ok a 13 19 eq_refl), (frot_ok a 22 10 eq_refl). reflexivity.
Qed.
Definition fexpand (w : list Z) : list Z :=
  fold_left
    (fun w i => let x := nth (i - 2) w 0 in let y := nth (i - 15) w 0 in
       upd i (fadd (fadd (fadd (Z.lxor (Z.lxor (frot x 17 15) (frot x 19 13)) (Z.shiftr x 10)) (nth (i - 7) w 0)) (Z.lxor (Z.lxor (frot y 7 25) (frot y 18 14)) (Z.shiftr y 3))) (nth (i - 16) w 0)) w)
    (seq 16 48) w.
Lemma fexpand_ok w : fexpand w = expand32 w.
Proof.
  unfold fexpand, expand32. generalize (seq 16 48). intros l. revert w. induction l as [|i l IH]; intros w; [reflexivity|]. cbn [fold_left]. rewrite <- IH. f_equal. f_equal.
  cbv zeta. rewrite !fadd_ok. unfold gamma1_32, gamma0_32. set (x := nth (i - 2) w 0). set (y := nth (i - 15) w 0).
  rewrite (frot_ok x 17 15 eq_refl), (frot_ok x 19 13 eq_refl), (frot_ok y 7 25 eq_refl), (frot_ok y 18 14 eq_refl). reflexivity.
Qed.
Lemma rounds_ext r r' s w : (forall a b c d e f g h W K, r a b c d e f g h W K = r' a b c d e f g h W K) -> rounds32_with r s w = rounds32_with r' s w.
Proof.
  intros H. unfold rounds32_with.
  do 64 (rewrite H; match goal with |- context [r' ?a ?b ?c ?d ?e ?f ?g ?h ?W ?K] => destruct (r' a b c d e f g h W K) as [? ?] end; cbv beta iota).
  reflexivity.
Qed.
Definition fcompress (block : list Z) (sw : list Z * list Z) : list Z * list Z :=
  let '(s, w) := sw in
  let w := load32 block w in
  let w := fexpand w in
  (rounds32_with frnd s w, w).
Lemma fcompress_ok block sw : fcompress block sw = compress32 block sw.
Proof. destruct sw as [s w]. unfold fcompress, compress32. cbv zeta. rewrite fexpand_ok. f_equal. apply rounds_ext. exact frnd_ok. Qed.
Lemma ffold_ok l sw : fold_left (fun sw block => fcompress block sw) l sw = fold_left (fun sw block => compress32 block sw) l sw.
Proof. revert sw. induction l as [|b l IH]; intros sw; [reflexivity|]. cbn [fold_left]. now rewrite fcompress_ok, IH. Qed.

Definition fsha256_digest (message : list Z) (sw : list Z * list Z) : outcome (list Z * (list Z * list Z)) :=
  let '(s, w) := sw in
  let s := S_SHA256 in
  let w := repeat 0 (length w) in
  let sw := fold_left (fun sw block => fcompress block sw) (chunks_exact 64 message) (s, w) in
  let remaining := remainder 64 message in
  l <- u64_mul (Z.of_nat (length message)) 8 ;;
  k <- calculate_k l (64 * 8) 64 ;;
  k7 <- u64_sub k 7 ;;
  let remaining := remaining ++ [0x80] in
  let remaining := remaining ++ repeat 0 (Z.to_nat (k7 / 8)) in
  let remaining := remaining ++ to_be 8 l in
  assert! (Nat.eqb (length remaining) 64 || Nat.eqb (length remaining) (64 * 2)) ;;
  let sw := fold_left (fun sw block => fcompress block sw) (chunks_exact 64 remaining) sw in
  Ret (flat_map (to_be 4) (fst sw), sw).
Lemma fsha256_ok m sw : fsha256_digest m sw = sha256_digest m sw.
Proof.
  destruct sw as [s w]. unfold fsha256_digest, sha256_digest. cbv zeta. rewrite ffold_ok.
  destruct (u64_mul (Z.of_nat (length m)) 8) as [l| |]; cbn [obind]; [|reflexivity|reflexivity].
  destruct (calculate_k l (64 * 8) 64) as [k| |]; cbn [obind]; [|reflexivity|reflexivity].
  destruct (u64_sub k 7) as [k7| |]; cbn [obind]; [|reflexivity|reflexivity].
  rewrite ffold_ok. reflexivity.
Qed.

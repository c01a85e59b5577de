(** SHA-2: constants and rounds of the model are those of FIPS 180-4. *)

From Verif Require Import Base M_Word M_Sha2 S_Sha2 P_BigInt3 P_Bits.
Open Scope Z_scope.

(** ** The constants *)
Lemma cube_root_from_spec n : forall r x, 0 <= r -> r ^ 3 <= x < (r + 2 ^ Z.of_nat n) ^ 3 ->
  let c := cube_root_from n r x in 0 <= c /\ c ^ 3 <= x < (c + 1) ^ 3.
Proof.
  induction n as [|n IH]; intros r x Hr H; cbn [cube_root_from].
  - change (2 ^ Z.of_nat 0) with 1 in H. cbn zeta. auto.
  - rewrite Nat2Z.inj_succ, Z.pow_succ_r in H by lia.
    assert (0 < 2 ^ Z.of_nat n) by (apply Z.pow_pos_nonneg; lia).
    cbn zeta. destruct (Z.leb_spec ((r + 2 ^ Z.of_nat n) ^ 3) x).
    + apply IH; [lia|]. split; [assumption|].
      replace (r + 2 ^ Z.of_nat n + 2 ^ Z.of_nat n) with (r + 2 * 2 ^ Z.of_nat n) by ring. apply H.
    + apply IH; [lia|]. split; [apply H|assumption].
Qed.
(** [cube_root] is the integer part of the cube root. *)
Lemma cube_root_spec n x : 0 <= x < (2 ^ Z.of_nat n) ^ 3 ->
  let c := cube_root n x in 0 <= c /\ c ^ 3 <= x < (c + 1) ^ 3.
Proof. intros H. apply cube_root_from_spec; [lia|]. exact H. Qed.

Definition K32_lits : list Z := Eval vm_compute in map (K 32) (seq 0 64).
Definition K64_lits : list Z := Eval vm_compute in map (K 64) (seq 0 80).
Lemma K32_eq : map (K 32) (seq 0 64) = K32_lits.
Proof. vm_cast_no_check (eq_refl K32_lits). Qed.
Lemma K64_eq : map (K 64) (seq 0 80) = K64_lits.
Proof. vm_cast_no_check (eq_refl K64_lits). Qed.

Definition vars_list (v : vars) : list Z :=
  let '(a, b, c, d, e, f, g, h) := v in [a; b; c; d; e; f; g; h].

Lemma IV256_eq : vars_list (initial 32 0) = S_SHA256.
Proof. vm_compute. reflexivity. Qed.
Lemma IV512_eq : vars_list (initial 64 0) = S_SHA512.
Proof. vm_compute. reflexivity. Qed.
Lemma IV384_eq : vars_list (initial 64 8) = S_SHA384.
Proof. vm_compute. reflexivity. Qed.

Lemma fold_left_ext_in {A B} (f g : A -> B -> A) l a :
  (forall x y, In y l -> f x y = g x y) -> fold_left f l a = fold_left g l a.
Proof.
  revert a. induction l as [|y t IH]; intros a H; [reflexivity|]. cbn [fold_left].
  rewrite H by (left; reflexivity). apply IH. intros x z Hz. apply H. now right.
Qed.

(** ** The rounds *)
Notation rot32 f := (f (2, 13, 22) (6, 11, 25)).
Notation rot64 f := (f (28, 34, 39) (14, 18, 41)).

Definition finish32 (H v : vars) : list Z :=
  let '(a, b, c, d, e, f, g, h) := v in
  let '(H0, H1, H2, H3, H4, H5, H6, H7) := H in
  vars_list (ADD 32 a H0, ADD 32 b H1, ADD 32 c H2, ADD 32 d H3, ADD 32 e H4, ADD 32 f H5, ADD 32 g H6, ADD 32 h H7).
Definition finish64 (H v : vars) : list Z :=
  let '(a, b, c, d, e, f, g, h) := v in
  let '(H0, H1, H2, H3, H4, H5, H6, H7) := H in
  vars_list (ADD 64 a H0, ADD 64 b H1, ADD 64 c H2, ADD 64 d H3, ADD 64 e H4, ADD 64 f H5, ADD 64 g H6, ADD 64 h H7).

Section Rounds.
Variable r : Z -> Z -> Z -> Z -> Z -> Z -> Z -> Z -> Z -> Z -> Z * Z.
Variable rd : Z -> Z -> vars -> vars.
Hypothesis Hr : forall K W a b c d e f g h,
  rd K W (a, b, c, d, e, f, g, h) =
  let '(d', h') := r a b c d e f g h W K in (h', a, b, c, d', e, f, g).

Ltac one_round :=
  rewrite Hr;
  match goal with
  | |- context [r ?a ?b ?c ?d ?e ?f ?g ?h ?W ?K] =>
      destruct (r a b c d e f g h W K) as [? ?]
  end; cbv beta iota.

Lemma rounds32_gen (H : vars) (w : list Z) (fin : vars -> vars -> list Z) :
  fin = finish32 ->
  rounds32_with r (vars_list H) w =
  fin H (fold_left (fun v kt => rd (fst kt) (nth (snd kt) w 0) v) (combine K32_lits (seq 0 64)) H).
Proof.
  intros Hf. destruct H as [[[[[[[a b] c] d] e] f] g] h].
  unfold rounds32_with, vars_list. cbn [nth].
  let l := eval cbv in (combine K32_lits (seq 0 64)) in change (combine K32_lits (seq 0 64)) with l.
  cbn [fold_left fst snd].
  do 64 one_round.
  rewrite Hf. reflexivity.
Qed.

Lemma rounds64_gen (H : vars) (w : list Z) (fin : vars -> vars -> list Z) :
  fin = finish64 ->
  rounds64_with r (vars_list H) w =
  fin H (fold_left (fun v kt => rd (fst kt) (nth (snd kt) w 0) v) (combine K64_lits (seq 0 80)) H).
Proof.
  intros Hf. destruct H as [[[[[[[a b] c] d] e] f] g] h].
  unfold rounds64_with, vars_list. cbn [nth].
  let l := eval cbv in (combine K64_lits (seq 0 80)) in change (combine K64_lits (seq 0 80)) with l.
  cbn [fold_left fst snd].
  do 80 one_round.
  rewrite Hf. reflexivity.
Qed.
End Rounds.

(** ** The functions *)
Lemma add32_eq x y : ADD 32 x y = wrapping_add 32 x y.
Proof. reflexivity. Qed.
Lemma ch32_eq x y z : Ch 32 x y z = ch32 x y z.
Proof. reflexivity. Qed.
Lemma maj32_eq x y z : Maj x y z = maj32 x y z.
Proof. reflexivity. Qed.
Lemma rotr32_eq r x : ROTR 32 r x = rotate_right 32 x r.
Proof. reflexivity. Qed.
Lemma sigma0_32_eq x : Big 32 (2, 13, 22) x = sigma0_32 x.
Proof. unfold Big, sigma0_32. now rewrite !rotr32_eq. Qed.
Lemma sigma1_32_eq x : Big 32 (6, 11, 25) x = sigma1_32 x.
Proof. unfold Big, sigma1_32. now rewrite !rotr32_eq. Qed.
Lemma gamma0_32_eq x : Small 32 (7, 18, 3) x = gamma0_32 x.
Proof. unfold Small, gamma0_32, SHR. now rewrite !rotr32_eq. Qed.
Lemma gamma1_32_eq x : Small 32 (17, 19, 10) x = gamma1_32 x.
Proof. unfold Small, gamma1_32, SHR. now rewrite !rotr32_eq. Qed.
Lemma round32_eq K W a b c d e f g h :
  round 32 (2, 13, 22) (6, 11, 25) K W (a, b, c, d, e, f, g, h) =
  let '(d', h') := rnd32 a b c d e f g h W K in (h', a, b, c, d', e, f, g).
Proof.
  unfold round, rnd32. cbv zeta.
  now rewrite !add32_eq, ch32_eq, maj32_eq, sigma0_32_eq, sigma1_32_eq.
Qed.
Lemma add64_eq x y : ADD 64 x y = wrapping_add 64 x y.
Proof. reflexivity. Qed.
Lemma ch64_eq x y z : Ch 64 x y z = ch64 x y z.
Proof. reflexivity. Qed.
Lemma maj64_eq x y z : Maj x y z = maj64 x y z.
Proof. reflexivity. Qed.
Lemma rotr64_eq r x : ROTR 64 r x = rotate_right 64 x r.
Proof. reflexivity. Qed.
Lemma sigma0_64_eq x : Big 64 (28, 34, 39) x = sigma0_64 x.
Proof. unfold Big, sigma0_64. now rewrite !rotr64_eq. Qed.
Lemma sigma1_64_eq x : Big 64 (14, 18, 41) x = sigma1_64 x.
Proof. unfold Big, sigma1_64. now rewrite !rotr64_eq. Qed.
Lemma gamma0_64_eq x : Small 64 (1, 8, 7) x = gamma0_64 x.
Proof. unfold Small, gamma0_64, SHR. now rewrite !rotr64_eq. Qed.
Lemma gamma1_64_eq x : Small 64 (19, 61, 6) x = gamma1_64 x.
Proof. unfold Small, gamma1_64, SHR. now rewrite !rotr64_eq. Qed.
Lemma round64_eq K W a b c d e f g h :
  round 64 (28, 34, 39) (14, 18, 41) K W (a, b, c, d, e, f, g, h) =
  let '(d', h') := rnd64 a b c d e f g h W K in (h', a, b, c, d', e, f, g).
Proof.
  unfold round, rnd64. cbv zeta.
  now rewrite !add64_eq, ch64_eq, maj64_eq, sigma0_64_eq, sigma1_64_eq.
Qed.

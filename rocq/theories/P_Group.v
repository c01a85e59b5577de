(** The group law of an elliptic curve in short Weierstrass form over any field of
    characteristic other than 2.

    The proof does not separate chords and tangents: a slope [m] from P to Q satisfies
      y_Q - y_P = m (x_Q - x_P)   and   m (y_P + y_Q) = x_P^2 + x_P x_Q + x_Q^2 + a,
    where for a chord the second equation follows from the first, and for a tangent the
    second one is the definition. *)

From Coq Require Import Field Ring Bool.

Section Group.
Variable F : Type.
Variables (f0 f1 : F) (fadd fmul fsub : F -> F -> F) (fopp finv : F -> F) (fdiv : F -> F -> F).
Hypothesis Fth : field_theory f0 f1 fadd fmul fsub fopp fdiv finv (@eq F).
Hypothesis eqd : forall x y : F, {x = y} + {x <> y}.
Add Field Ff : Fth.
Local Notation "0" := f0. Local Notation "1" := f1.
Local Infix "+" := fadd. Local Infix "*" := fmul. Local Infix "-" := fsub. Local Infix "/" := fdiv. Local Notation "- x" := (fopp x).
Variables (a b : F).
Hypothesis char2 : 1 + 1 <> 0.
Local Notation "2" := (1 + 1). Local Notation "3" := (1 + 1 + 1).
Hypothesis disc : 2 * 2 * a * a * a + 3 * 3 * 3 * b * b <> 0.

Lemma integral x y : x * y = 0 -> x = 0 \/ y = 0.
Proof.
  intros H. destruct (eqd x 0) as [E|N]; [auto|]. right. transitivity (finv x * (x * y)); [|rewrite H; ring]. field. assumption.
Qed.
Lemma cancel x y z : x <> 0 -> x * y = x * z -> y = z.
Proof.
  intros N H. destruct (integral x (y - z)) as [E|E]; [transitivity (x * y - x * z); [ring|rewrite H; ring]|contradiction|].
  transitivity (z + (y - z)); [ring|rewrite E; ring].
Qed.
Lemma sub0 x y : x - y = 0 -> x = y.
Proof. intros E. transitivity (y + (x - y)); [ring|rewrite E; ring]. Qed.
Lemma sub_nz x y : x <> y -> y - x <> 0.
Proof. intros H E. apply H. symmetry. now apply sub0. Qed.
Lemma move x y : x = y -> x - y = 0.
Proof. intros ->. ring. Qed.
Lemma self_opp x : x = - x -> x = 0.
Proof. intros H. apply (cancel 2); [assumption|]. transitivity (x + x); [ring|]. rewrite H at 2. ring. Qed.

Definition pt := option (F * F).
Definition on_curve (P : pt) : Prop := match P with None => True | Some (x, y) => y * y = x * x * x + a * x + b end.
Definition neg (P : pt) : pt := match P with None => None | Some (x, y) => Some (x, - y) end.
Definition third (m x1 y1 x2 : F) : pt := let x3 := m * m - x1 - x2 in Some (x3, m * (x1 - x3) - y1).
Definition add (P Q : pt) : pt :=
  match P, Q with
  | None, _ => Q
  | _, None => P
  | Some (x1, y1), Some (x2, y2) =>
      if eqd x1 x2 then
        if eqd (y1 + y2) 0 then None
        else third ((3 * x1 * x1 + a) / (2 * y1)) x1 y1 x2
      else third ((y2 - y1) / (x2 - x1)) x1 y1 x2
  end.

Lemma nonsing x y : y = 0 -> y * y = x * x * x + a * x + b -> 3 * x * x + a = 0 -> False.
Proof.
  intros -> H E. apply disc.
  transitivity ((3 * x * x + 2 * 2 * a) * ((3 * x * x + a) * (3 * x * x + a)) - 3 * 3 * 3 * (x * x * x + a * x - b) * (x * x * x + a * x + b)); [ring|].
  rewrite E, <- H. ring.
Qed.
Lemma same_x x y1 y2 : y1 * y1 = x * x * x + a * x + b -> y2 * y2 = x * x * x + a * x + b -> y1 + y2 <> 0 -> y1 = y2.
Proof.
  intros H1 H2 N. apply sub0. destruct (integral (y1 + y2) (y1 - y2)); [|contradiction|assumption].
  transitivity (y1 * y1 - y2 * y2); [ring|]. rewrite H1, H2. ring.
Qed.

(** ** Slopes *)
Definition sl (x1 y1 x2 y2 m : F) : Prop :=
  y2 - y1 = m * (x2 - x1) /\ m * (y1 + y2) = x1 * x1 + x1 * x2 + x2 * x2 + a.
(** not opposite *)
Definition nv (x1 y1 x2 y2 : F) : Prop := x1 <> x2 \/ y1 + y2 <> 0.
Lemma sl_unique x1 y1 x2 y2 m m' : nv x1 y1 x2 y2 -> sl x1 y1 x2 y2 m -> sl x1 y1 x2 y2 m' -> m = m'.
Proof.
  intros [N|N] [S1 S2] [S1' S2'].
  - apply (cancel (x2 - x1)); [now apply sub_nz|]. transitivity (m * (x2 - x1)); [ring|]. rewrite <- S1, S1'. ring.
  - apply (cancel (y1 + y2)); [assumption|]. transitivity (m * (y1 + y2)); [ring|]. rewrite S2, <- S2'. ring.
Qed.
Lemma chord_sl x1 y1 x2 y2 m : on_curve (Some (x1, y1)) -> on_curve (Some (x2, y2)) -> x1 <> x2 -> y2 - y1 = m * (x2 - x1) -> sl x1 y1 x2 y2 m.
Proof.
  cbn. intros H1 H2 N E. split; [assumption|]. apply (cancel (x2 - x1)); [now apply sub_nz|].
  transitivity ((m * (x2 - x1)) * (y1 + y2)); [ring|]. rewrite <- E. transitivity (y2 * y2 - y1 * y1); [ring|]. rewrite H1, H2. ring.
Qed.
Lemma add_sl x1 y1 x2 y2 : on_curve (Some (x1, y1)) -> on_curve (Some (x2, y2)) -> nv x1 y1 x2 y2 ->
  exists m, sl x1 y1 x2 y2 m /\ add (Some (x1, y1)) (Some (x2, y2)) = third m x1 y1 x2.
Proof.
  intros H1 H2 N. cbn [add]. destruct (eqd x1 x2) as [->|NX].
  - destruct N as [N|N]; [contradiction|]. destruct (eqd (y1 + y2) 0); [contradiction|]. cbn in H1, H2. pose proof (same_x x2 y1 y2 H1 H2 N) as ->.
    eexists. split; [|reflexivity]. assert (2 * y2 <> 0) by (intros E; apply N; rewrite <- E; ring). split; [ring|]. field.
    split; [|assumption]. intros E. apply N. rewrite E. ring.
  - eexists. split; [|reflexivity]. apply chord_sl; try assumption. field. now apply sub_nz.
Qed.
Lemma add_of_sl x1 y1 x2 y2 m : on_curve (Some (x1, y1)) -> on_curve (Some (x2, y2)) -> nv x1 y1 x2 y2 -> sl x1 y1 x2 y2 m ->
  add (Some (x1, y1)) (Some (x2, y2)) = third m x1 y1 x2.
Proof.
  intros H1 H2 N S. destruct (add_sl x1 y1 x2 y2 H1 H2 N) as (m' & S' & E). now rewrite (sl_unique x1 y1 x2 y2 m m' N S S').
Qed.
Lemma add_vertical x1 y1 x2 y2 : x1 = x2 -> y1 + y2 = 0 -> add (Some (x1, y1)) (Some (x2, y2)) = None.
Proof. intros -> E. cbn. destruct (eqd x2 x2); [|contradiction]. destruct (eqd (y1 + y2) 0); [reflexivity|contradiction]. Qed.
Lemma nv_dec x1 y1 x2 y2 : {nv x1 y1 x2 y2} + {x1 = x2 /\ y1 + y2 = 0}.
Proof.
  unfold nv. destruct (eqd x1 x2) as [E|]; [|left; now left]. destruct (eqd (y1 + y2) 0) as [E'|]; [|left; now right]. right. now split.
Qed.

(** ** Closure *)
Lemma third_on_curve x1 y1 x2 y2 m : on_curve (Some (x1, y1)) -> sl x1 y1 x2 y2 m -> on_curve (third m x1 y1 x2).
Proof.
  cbn. intros H1 [S1 S2]. set (x3 := m * m - x1 - x2).
  (* y2 = y1 + m (x2 - x1) *)
  assert (Y : y2 = y1 + m * (x2 - x1)) by (rewrite <- S1; ring). rewrite Y in S2.
  apply sub0. assert (B : b = y1 * y1 - x1 * x1 * x1 - a * x1) by (rewrite H1; ring).
  assert (A : a = m * (y1 + (y1 + m * (x2 - x1))) - (x1 * x1 + x1 * x2 + x2 * x2)) by (rewrite S2; ring).
  rewrite B, A. unfold x3. ring.
Qed.
Lemma add_closed P Q : on_curve P -> on_curve Q -> on_curve (add P Q).
Proof.
  destruct P as [[x1 y1]|]; [|trivial]. destruct Q as [[x2 y2]|]; [|trivial]. intros H1 H2.
  destruct (nv_dec x1 y1 x2 y2) as [N|[E1 E2]].
  - destruct (add_sl x1 y1 x2 y2 H1 H2 N) as (m & S & ->). eapply third_on_curve; eauto.
  - now rewrite add_vertical.
Qed.
Lemma neg_closed P : on_curve P -> on_curve (neg P).
Proof. destruct P as [[x y]|]; [|trivial]. cbn. intros H. rewrite <- H. ring. Qed.

(** ** Easy laws *)
Lemma add_0_l P : add None P = P. Proof. reflexivity. Qed.
Lemma add_0_r P : add P None = P. Proof. destruct P as [[x y]|]; reflexivity. Qed.
Lemma neg_neg P : neg (neg P) = P.
Proof. destruct P as [[x y]|]; [|reflexivity]. cbn. do 2 f_equal. ring. Qed.
Lemma add_neg P : add P (neg P) = None.
Proof. destruct P as [[x y]|]; [|reflexivity]. cbn [neg]. apply add_vertical; [reflexivity|ring]. Qed.
Lemma sl_sym x1 y1 x2 y2 m : sl x1 y1 x2 y2 m -> sl x2 y2 x1 y1 m.
Proof. intros [S1 S2]. split; [transitivity (- (y2 - y1)); [ring|rewrite S1; ring]|]. transitivity (m * (y1 + y2)); [ring|rewrite S2; ring]. Qed.
Lemma add_comm P Q : on_curve P -> on_curve Q -> add P Q = add Q P.
Proof.
  destruct P as [[x1 y1]|]; [|intros; cbn; now rewrite add_0_r]. destruct Q as [[x2 y2]|]; [|intros; cbn; reflexivity]. intros H1 H2.
  destruct (nv_dec x1 y1 x2 y2) as [N|[E1 E2]].
  - destruct (add_sl x1 y1 x2 y2 H1 H2 N) as (m & S & ->). rewrite (add_of_sl x2 y2 x1 y1 m); [|assumption|assumption| |now apply sl_sym].
    + unfold third. destruct S as [S1 S2]. f_equal. f_equal; [ring|]. set (x3 := m * m - x1 - x2). replace (m * m - x2 - x1) with x3 by (unfold x3; ring).
      apply sub0. transitivity (y2 - y1 - m * (x2 - x1)); [ring|]. now apply move.
    + destruct N as [N|N]; [left; congruence|right]. intros E. apply N. rewrite <- E. ring.
  - rewrite !add_vertical; auto. rewrite <- E2. ring.
Qed.
Lemma neg_add P Q : on_curve P -> on_curve Q -> neg (add P Q) = add (neg P) (neg Q).
Proof.
  destruct P as [[x1 y1]|]; [|reflexivity]. destruct Q as [[x2 y2]|]; [|reflexivity]. intros H1 H2.
  destruct (nv_dec x1 y1 x2 y2) as [N|[E1 E2]].
  - destruct (add_sl x1 y1 x2 y2 H1 H2 N) as (m & S & ->). cbn [neg]. rewrite (add_of_sl x1 (- y1) x2 (- y2) (- m)).
    + unfold third, neg. f_equal. f_equal; ring.
    + now apply (neg_closed (Some (x1, y1))).
    + now apply (neg_closed (Some (x2, y2))).
    + destruct N as [N|N]; [now left|right]. intros E. apply N. transitivity (- (- y1 + - y2)); [ring|rewrite E; ring].
    + destruct S as [S1 S2]. split; [transitivity (- (y2 - y1)); [ring|rewrite S1; ring]|]. transitivity (m * (y1 + y2)); [ring|exact S2].
  - rewrite add_vertical by assumption. cbn [neg]. symmetry. apply add_vertical; [assumption|]. transitivity (- (y1 + y2)); [ring|rewrite E2; ring].
Qed.

(** ** (P + Q) - Q = P *)
Lemma add_cancel P Q : on_curve P -> on_curve Q -> add (add P Q) (neg Q) = P.
Proof.
  destruct P as [[x1 y1]|]; [|intros; cbn [add]; apply add_neg]. destruct Q as [[x2 y2]|]; [|intros; reflexivity]. intros H1 H2.
  destruct (nv_dec x1 y1 x2 y2) as [N|[-> E2]].
  2:{ rewrite add_vertical by auto. cbn [add neg]. do 2 f_equal. apply sub0. transitivity (- (y1 + y2)); [ring|rewrite E2; ring]. }
  destruct (add_sl x1 y1 x2 y2 H1 H2 N) as (m & S & E). rewrite E. unfold third. cbn [neg].
  pose proof (add_closed _ _ H1 H2) as HC. rewrite E in HC. unfold third in HC. cbv zeta in HC |- *.
  destruct S as [S1 S2]. remember (m * m - x1 - x2) as x3 eqn:X3. remember (m * (x1 - x3) - y1) as y3 eqn:Y3.
  assert (T1 : - y2 - y3 = - m * (x2 - x3)).
  { apply sub0. transitivity (- (y2 - y1 - m * (x2 - x1))); [rewrite Y3; ring|]. rewrite S1. ring. }
  assert (T2 : - m * (y3 + - y2) = x3 * x3 + x3 * x2 + x2 * x2 + a).
  { assert (Y : y2 = y1 + m * (x2 - x1)) by (rewrite <- S1; ring).
    assert (A : a = m * (y1 + (y1 + m * (x2 - x1))) - (x1 * x1 + x1 * x2 + x2 * x2)) by (rewrite <- Y, S2; ring).
    rewrite A, Y3, X3, Y. ring. }
  destruct (nv_dec x3 y3 x2 (- y2)) as [N'|[EX EY]].
  - rewrite (add_of_sl x3 y3 x2 (- y2) (- m)); [|assumption|now apply (neg_closed (Some (x2, y2)))|assumption|split; assumption].
    unfold third. f_equal. assert (X1 : - m * - m - x3 - x2 = x1) by (rewrite X3; ring). rewrite X1. f_equal. rewrite Y3. ring.
  - exfalso. rewrite EX in T1. assert (Y2 : y2 = 0).
    { apply self_opp. apply sub0. transitivity (- (- y2 - y3) - (y3 + - y2)); [ring|]. rewrite T1, EY. ring. }
    apply (nonsing x2 y2 Y2 H2). rewrite EX in T2. transitivity (x2 * x2 + x2 * x2 + x2 * x2 + a); [ring|]. rewrite <- T2, EY. ring.
Qed.
Lemma cancel_l P Q : on_curve P -> on_curve Q -> add (neg P) (add P Q) = Q.
Proof.
  intros H1 H2. rewrite add_comm; [|now apply neg_closed|now apply add_closed]. rewrite (add_comm P Q) by assumption. now apply add_cancel.
Qed.

Lemma cancel_neg P Q : on_curve P -> on_curve Q -> add Q (neg (add P Q)) = neg P.
Proof.
  intros H1 H2. rewrite <- (neg_neg Q) at 1. rewrite <- neg_add; [|now apply neg_closed|now apply add_closed]. f_equal.
  rewrite add_comm; [|now apply neg_closed|now apply add_closed]. now apply add_cancel.
Qed.

(** ** Associativity *)
(** two slopes give a third: the slope from P+Q to R *)
Lemma slopes x1 y1 x2 y2 x3 y3 m n g : sl x1 y1 x2 y2 m -> sl x2 y2 x3 y3 n -> m <> n -> (n - m) * g = x1 - x3 ->
  let x12 := m * m - x1 - x2 in sl x12 (m * (x1 - x12) - y1) x3 y3 (- (g + m)).
Proof.
  intros [S1 S2] [T1 T2] N G. cbv zeta. unfold sl.
  assert (Y1 : y1 = y2 - m * (x2 - x1)) by (rewrite <- S1; ring). assert (Y3 : y3 = y2 + n * (x3 - x2)) by (rewrite <- T1; ring).
  assert (X1 : x1 = x3 + (n - m) * g) by (rewrite G; ring).
  assert (A : a = m * (y1 + y2) - (x1 * x1 + x1 * x2 + x2 * x2)) by (rewrite S2; ring). rewrite A in T2 |- *.
  rewrite Y1, Y3 in *. rewrite X1 in *. clear S1 S2 T1 G A X1 Y1 Y3.
  assert (NM : n - m <> 0) by now apply sub_nz.
  (* Y = 2 y2 expressed without division *)
  assert (Y : y2 + y2 = g * (m * m - (x3 + (n - m) * g) - x2 - x3) - (m + n) * (x3 - x2)).
  { apply (cancel (n - m)); [assumption|]. apply sub0. apply move in T2. rewrite <- T2. ring. }
  clear T2. split.
  - apply sub0. apply move in Y. rewrite <- Y. ring.
  - apply sub0. apply move in Y. 
    transitivity ((y2 + y2 - (g * (m * m - (x3 + (n - m) * g) - x2 - x3) - (m + n) * (x3 - x2))) * - m); [ring|rewrite Y; ring].
Qed.
Lemma opp_eq x y : x + y = 0 -> x = - y.
Proof. intros E. apply sub0. rewrite <- E. ring. Qed.
Lemma nv_sym x1 y1 x2 y2 : nv x1 y1 x2 y2 -> nv x2 y2 x1 y1.
Proof. intros [N|N]; [left; congruence|right]. intros E. apply N. rewrite <- E. ring. Qed.
Lemma not_neg x y R : nv x y (fst R) (snd R) \/ Some (x, y) = neg (Some R).
Proof.
  destruct R as [u v]. cbn. destruct (nv_dec x y u v) as [N|[-> E]]; [now left|right]. do 2 f_equal. now apply opp_eq.
Qed.
Lemma add_assoc_swap P Q R : on_curve P -> on_curve Q -> on_curve R -> add (add P Q) R = add (add R Q) P.
Proof.
  destruct P as [[x1 y1]|]; [|intros; cbn [add]; rewrite add_0_r; now apply add_comm].
  destruct Q as [[x2 y2]|]; [|intros; rewrite !add_0_r; now apply add_comm].
  destruct R as [[x3 y3]|]; [|intros; rewrite !add_0_r, add_0_l; now apply add_comm].
  intros H1 H2 H3.
  pose proof (add_closed _ _ H1 H2) as C12. pose proof (add_closed _ _ H3 H2) as C32.
  (* the cases with a vertical line *)
  assert (V : forall P Q R, on_curve P -> on_curve Q -> on_curve R -> P = neg Q -> add (add P Q) R = add (add R Q) P).
  { intros P Q R HP HQ HR ->. rewrite (add_comm (neg Q)), add_neg by (assumption || now apply neg_closed). cbn [add]. symmetry. now apply add_cancel. }
  assert (W : forall P Q R, on_curve P -> on_curve Q -> on_curve R -> add P Q = neg R -> add (add P Q) R = add (add R Q) P).
  { intros P Q R HP HQ HR E. rewrite E. assert (ER : R = neg (add P Q)) by (rewrite E; now rewrite neg_neg).
    rewrite (add_comm (neg R)), add_neg by (assumption || now apply neg_closed).
    rewrite (add_comm R Q) by assumption. rewrite ER, cancel_neg by assumption. now rewrite add_comm, add_neg by (assumption || now apply neg_closed). }
  destruct (not_neg x1 y1 (x2, y2)) as [N1|E]; [|now apply V]. cbn [fst snd] in N1.
  destruct (not_neg x3 y3 (x2, y2)) as [N2|E]; [|symmetry; now apply V]. cbn [fst snd] in N2.
  destruct (add_sl x1 y1 x2 y2 H1 H2 N1) as (m & S & E12). destruct (add_sl x3 y3 x2 y2 H3 H2 N2) as (n & T & E32).
  destruct (eqd m n) as [<-|NM].
  - (* one line through the three points *)
    destruct S as [S1 S2]. destruct T as [T1 T2].
    assert (Y1 : y1 = y2 - m * (x2 - x1)) by (rewrite <- S1; ring). assert (Y3 : y3 = y2 - m * (x2 - x3)) by (rewrite <- T1; ring).
    destruct (integral (x1 - x3) (m * m - x1 - x2 - x3)) as [E|E].
    + rewrite Y1 in S2. rewrite Y3 in T2. apply move in S2, T2. transitivity (0 - 0); [|ring]. rewrite <- S2 at 1. rewrite <- T2. ring.
    + apply sub0 in E. assert (y1 = y3) by (rewrite Y1, Y3, E; reflexivity). subst x3. congruence.
    + apply W; try assumption. rewrite E12. unfold third, neg. apply sub0 in E. rewrite E. do 2 f_equal. rewrite Y1, Y3. ring.
  - set (g := (x1 - x3) / (n - m)). assert (NM' : n - m <> 0) by now apply sub_nz.
    assert (G : (n - m) * g = x1 - x3) by (unfold g; field; assumption).
    assert (G' : (m - n) * g = x3 - x1) by (transitivity (- ((n - m) * g)); [ring|rewrite G; ring]).
    pose proof (slopes x1 y1 x2 y2 x3 y3 m n g S (sl_sym _ _ _ _ _ T) NM G) as L.
    assert (MN : n <> m) by congruence.
    pose proof (slopes x3 y3 x2 y2 x1 y1 n m g T (sl_sym _ _ _ _ _ S) MN G') as R. cbv zeta in L, R.
    rewrite E12 in *. rewrite E32 in *. unfold third in *. cbv zeta in *.
    remember (m * m - x1 - x2) as u eqn:U. remember (m * (x1 - u) - y1) as v eqn:V'.
    remember (n * n - x3 - x2) as u' eqn:U'. remember (n * (x3 - u') - y3) as v' eqn:V''.
    destruct (not_neg u v (x3, y3)) as [N3|E].
    2:{ rewrite E, <- E32. pose proof (W (Some (x1, y1)) (Some (x2, y2)) (Some (x3, y3)) H1 H2 H3) as Z. rewrite E12, E in Z. apply Z. reflexivity. }
    destruct (not_neg u' v' (x1, y1)) as [N4|E].
    2:{ rewrite E, <- E12. symmetry. pose proof (W (Some (x3, y3)) (Some (x2, y2)) (Some (x1, y1)) H3 H2 H1) as Z. rewrite E32, E in Z. apply Z. reflexivity. }
    cbn [fst snd] in N3, N4.
    rewrite (add_of_sl u v x3 y3 _ C12 H3 N3 L), (add_of_sl u' v' x1 y1 _ C32 H1 N4 R). unfold third. 
    destruct S as [S1 S2]. destruct T as [T1 T2].
    assert (X : - (g + m) * - (g + m) - u - x3 = - (g + n) * - (g + n) - u' - x1).
    { rewrite U, U'. apply sub0. apply move in G. transitivity (- ((n - m) * g - (x1 - x3) + ((n - m) * g - (x1 - x3)))); [ring|rewrite G; ring]. }
    rewrite <- X. do 2 f_equal. rewrite V', V''.
    replace y1 with (y2 - m * (x2 - x1)) by (rewrite <- S1; ring). replace y3 with (y2 - n * (x2 - x3)) by (rewrite <- T1; ring).
    assert (X1 : x1 = x3 + (n - m) * g) by (rewrite G; ring). rewrite U, U', X1. ring.
Qed.
Theorem add_assoc P Q R : on_curve P -> on_curve Q -> on_curve R -> add (add P Q) R = add P (add Q R).
Proof.
  intros H1 H2 H3. rewrite add_assoc_swap by assumption. rewrite (add_comm R Q) by assumption.
  apply add_comm; [now apply add_closed|assumption].
Qed.
End Group.

(** The group law and signing, computed with small powers: the same functions, quicker to evaluate. *)

From Coq Require Import Zpow_facts Lia.
From Verif Require Import Base S_Curve S_Ecdsa.
Open Scope Z_scope.

Definition finv (p x : Z) : Z := Zpow_mod x (p - 2) p.
Lemma finv_ok p x : 1 < p -> finv p x = zinv p x.
Proof.
  intros H. unfold finv, zinv. destruct (Z.eq_dec p 1) as [->|]; [lia|]. apply Zpow_mod_correct. lia.
Qed.
Definition feadd (C : ecurve) (P Q : epoint) : epoint :=
  match P, Q with
  | None, _ => Q
  | _, None => P
  | Some (x1, y1), Some (x2, y2) =>
      if (x1 =? x2) && ((y1 + y2) mod ep C =? 0) then None
      else
        let m := (if x1 =? x2 then (3 * x1 * x1 + ea C) * finv (ep C) (2 * y1)
                 else (y2 - y1) * finv (ep C) (x2 - x1)) in
        let x3 := (m * m - x1 - x2) mod ep C in
        Some (x3, (m * (x1 - x3) - y1) mod ep C)
  end.
Lemma feadd_ok C P Q : 1 < ep C -> feadd C P Q = eadd C P Q.
Proof. intros H. destruct P as [[x1 y1]|], Q as [[x2 y2]|]; try reflexivity. unfold feadd, eadd. now rewrite !finv_ok by assumption. Qed.
Definition femul (C : ecurve) (k : Z) (P : epoint) : epoint := Nat.iter (Z.to_nat k) (feadd C P) None.
Lemma femul_ok C k P : 1 < ep C -> femul C k P = emul C k P.
Proof.
  intros H. unfold femul, emul. induction (Z.to_nat k) as [|m IH]; [reflexivity|]. cbn [Nat.iter nat_rect]. unfold Nat.iter in *. cbn [nat_rect]. now rewrite IH, feadd_ok.
Qed.
Definition fsign (D : eparams) (d e k : Z) : option (Z * Z) :=
  match femul (e_curve D) k (e_base D) with
  | None => None
  | Some (x, y) =>
      let r := x mod e_order D in
      let s := (finv (e_order D) k * (e + r * d)) mod e_order D in
      if (r =? 0) || (s =? 0) then None else Some (r, s)
  end.
Lemma fsign_ok D d e k : 1 < ep (e_curve D) -> 1 < e_order D -> fsign D d e k = ecdsa_sign D d e k.
Proof.
  intros H1 H2. unfold fsign, ecdsa_sign. rewrite femul_ok by assumption. destruct (emul (e_curve D) k (e_base D)) as [[x y]|]; [|reflexivity].
  now rewrite finv_ok by assumption.
Qed.

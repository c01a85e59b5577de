(** secp256k1 meets the hypotheses of the ECDSA theorems. *)
From Coq Require Import Lia.
From Verif Require Import Base M_BigInt M_Curve M_Ecdsa S_BigInt S_Curve S_EcModel S_Ecdsa S_Sign P_Secp P_EcEx.
Open Scope Z_scope.

Lemma secp_sign_ok : forall cfg : digit_cfg, exists D, secp256k1 = Ret D /\ code_params D /\ nbits (order D) < 2 ^ 60 /\ recoverable D /\ covers D /\
  (forall hash, length hash = 32%nat -> strict_ok (order D) hash).
Proof.
  intros cfg. destruct (secp_code cfg) as (D & E & HD & VD & _). exists D. split; [exact E|]. split; [exact HD|].
  assert (EO : order D = e_order SECP256K1) by (change (order D) with (e_order (params_val D)); now rewrite VD).
  assert (PP : bi_val (c_p (d_curve D)) = ep (e_curve SECP256K1)) by (change (bi_val (c_p (d_curve D))) with (ep (e_curve (params_val D))); now rewrite VD).
  assert (CF : d_cofactor D = 1) by (change (d_cofactor D) with (e_cofactor (params_val D)); now rewrite VD).
  split. { rewrite EO. vm_compute. reflexivity. }
  split. { split; [rewrite CF; split; [discriminate|reflexivity]|now left]. }
  split. { unfold covers. rewrite PP, CF, EO. vm_compute. discriminate. }
  intros hash L. rewrite EO. split; [vm_compute; reflexivity|]. rewrite L. vm_compute. reflexivity.
Qed.

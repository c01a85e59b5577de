(** The bytes obtained from the operating system. *)

From Coq Require Import Lia.
From Verif Require Import Base M_Random S_Random M_BigInt M_Curve M_Ecdsa M_Hmac M_Rfc6979 S_Sign.
Open Scope Z_scope.

Lemma buffer_full r buf : length (os_written r) = length buf -> os_buffer r buf = os_written r.
Proof. intros H. unfold os_buffer. rewrite H, skipn_all. apply app_nil_r. Qed.

Definition linux_result (o : os) (len : nat) (start : nat) (done : list Z) (r : result get_os_random_bytes_error (list Z)) : Prop :=
  match r with
  | Ok bs => bs = done ++ flat_map (reply o len) (seq start (requests len - start)) /\ (forall i, (start <= i < requests len)%nat -> filled o len i)
  | Err e => exists i, (start <= i < requests len)%nat /\ (forall j, (start <= j < i)%nat -> filled o len j) /\
      (os_ret (o i (request len i)) = -1 /\ e = LinuxGetRandom (os_errno (o i (request len i))) \/
       os_ret (o i (request len i)) <> -1 /\ (length (reply o len i) < request len i)%nat /\ e = LinuxGetRandomCopiedNumberLessThanRequested)
  end.
Lemma linux_loop_spec o len : linux_os o -> forall fuel i l done, length l = (len - 256 * i)%nat -> (length l <= fuel)%nat ->
  exists r, linux_loop o i done (chunks fuel 256 l) = Ret r /\ linux_result o len i done r.
Proof.
  intros HO. induction fuel as [|f IH]; intros i l done HL HF.
  - destruct l; [|cbn in HF; lia]. cbn [chunks linux_loop]. eexists. split; [reflexivity|]. cbn [linux_result]. cbn [length] in HL.
    assert (R : (requests len <= i)%nat).
    { unfold requests. apply Nat.lt_succ_r. apply Nat.div_lt_upper_bound; lia. }
    replace (requests len - i)%nat with 0%nat by lia. cbn [seq flat_map]. split; [now rewrite app_nil_r|]. intros. lia.
  - destruct l as [|b l'].
    { cbn [chunks linux_loop]. eexists. split; [reflexivity|]. cbn [linux_result]. cbn [length] in HL.
      assert (R : (requests len <= i)%nat). { unfold requests. apply Nat.lt_succ_r. apply Nat.div_lt_upper_bound; lia. }
      replace (requests len - i)%nat with 0%nat by lia. cbn [seq flat_map]. split; [now rewrite app_nil_r|]. intros. lia. }
    remember (b :: l') as l eqn:El. assert (L0 : (0 < length l)%nat) by (subst l; cbn; lia).
    assert (EC : chunks (S f) 256 l = firstn 256 l :: chunks f 256 (skipn 256 l)) by (subst l; reflexivity). rewrite EC. clear EC. cbn [linux_loop].
    assert (RQ : length (firstn 256 l) = request len i) by (rewrite firstn_length; unfold request; lia).
    assert (RI : (i < requests len)%nat). { unfold requests. apply Nat.div_le_lower_bound; lia. }
    rewrite RQ. destruct (HO i (request len i)) as (HB & HLW & HR). set (r := o i (request len i)) in *. unfold getrandom.
    destruct (Z.eqb_spec (os_ret r) (-1)) as [E|E].
    + eexists. split; [reflexivity|]. exists i. split; [lia|]. split; [intros; lia|]. left. split; [exact E|reflexivity].
    + destruct HR as [HR|HR]; [congruence|]. destruct (Z.leb_spec 0 (os_ret r)) as [_|]; [|lia]. cbn [oassert].
      destruct (Z.eqb_spec (os_ret r) (Z.of_nat (request len i))) as [E2|E2]; cbn [negb].
      * assert (F : length (os_written r) = request len i) by lia.
        rewrite buffer_full by congruence. destruct (IH (S i) (skipn 256 l) (done ++ os_written r)) as (res & -> & HRes).
        { rewrite skipn_length. lia. } { rewrite skipn_length. lia. }
        exists res. split; [reflexivity|]. assert (FI : filled o len i) by (split; [exact F|exact E]). destruct res as [bs|e]; cbn [linux_result] in *.
        -- destruct HRes as [-> HF']. replace (requests len - i)%nat with (S (requests len - S i)) by lia. cbn [seq flat_map]. split; [now rewrite <- app_assoc|].
           intros j Hj. destruct (Nat.eq_dec j i) as [->|]; [exact FI|apply HF'; lia].
        -- destruct HRes as (k & Hk & HP & HE). exists k. split; [lia|]. split; [|exact HE]. intros j Hj. destruct (Nat.eq_dec j i) as [->|]; [exact FI|apply HP; lia].
      * eexists. split; [reflexivity|]. exists i. split; [lia|]. split; [intros; lia|]. right. split; [exact E|]. split; [|reflexivity]. unfold reply. fold r. lia.
Qed.

Lemma flat_length o len : (forall i, (i < requests len)%nat -> filled o len i) ->
  forall k, (k <= requests len)%nat -> length (flat_map (reply o len) (seq 0 k)) = Nat.min len (256 * k).
Proof.
  intros HF. induction k as [|k IH]; intros Hk; [cbn; lia|]. rewrite seq_S, flat_map_app, app_length, IH by lia. cbn [flat_map Nat.add]. rewrite app_nil_r.
  destruct (HF k ltac:(lia)) as [-> _]. unfold request. lia.
Qed.
Lemma flat_bytes o len l : linux_os o -> bytes (flat_map (reply o len) l).
Proof.
  intros HO. apply Forall_forall. intros x Hx. apply in_flat_map in Hx as (i & _ & Hx). destruct (HO i (request len i)) as (HB & _). eapply Forall_forall in HB; [exact HB|exact Hx].
Qed.

Lemma linux_random_spec o len : linux_os o -> 0 <= len < 2 ^ 32 -> let n := Z.to_nat len in
  exists r, get_os_random_bytes Linux o len = Ret r /\
    match r with
    | Ok bs => Z.of_nat (length bs) = len /\ bytes bs /\ bs = flat_map (reply o n) (seq 0 (requests n)) /\ (forall i, (i < requests n)%nat -> filled o n i)
    | Err e => exists i, (i < requests n)%nat /\ (forall j, (j < i)%nat -> filled o n j) /\
        (os_ret (o i (request n i)) = -1 /\ e = LinuxGetRandom (os_errno (o i (request n i))) \/
         os_ret (o i (request n i)) <> -1 /\ (length (reply o n i) < request n i)%nat /\ e = LinuxGetRandomCopiedNumberLessThanRequested)
    end.
Proof.
  intros HO HL n. unfold get_os_random_bytes, linux_random. cbv zeta. fold n.
  destruct (linux_loop_spec o n HO (length (repeat 0 n)) 0 (repeat 0 n) []) as (r & -> & HR); [rewrite repeat_length; lia|lia|].
  exists r. split; [reflexivity|]. destruct r as [bs|e]; cbn [linux_result] in HR.
  - destruct HR as [-> HF]. rewrite Nat.sub_0_r in *. cbn [app]. assert (HF' : forall i, (i < requests n)%nat -> filled o n i) by (intros; apply HF; lia).
    split; [|split; [now apply flat_bytes|auto]]. rewrite (flat_length o n HF') by lia.
    assert (n <= 256 * requests n)%nat. { unfold requests. pose proof (Nat.div_mod (n + 255) 256 ltac:(lia)). pose proof (Nat.mod_upper_bound (n + 255) 256 ltac:(lia)). lia. }
    unfold n in *. lia.
  - destruct HR as (i & Hi & HP & HE). exists i. split; [lia|]. split; [|exact HE]. intros j Hj. apply HP. lia.
Qed.
Lemma macos_random_spec o len : macos_os o -> 0 <= len < 2 ^ 32 -> let n := Z.to_nat len in
  exists r, get_os_random_bytes MacOs o len = Ret r /\
    match r with
    | Ok bs => Z.of_nat (length bs) = len /\ bytes bs /\ bs = os_written (o 0%nat n)
    | Err e => os_ret (o 0%nat n) <> 0 /\ e = AppleSecRandom (os_ret (o 0%nat n))
    end.
Proof.
  intros HO HL n. unfold get_os_random_bytes, apple_random. cbv zeta. fold n. rewrite repeat_length. destruct (HO 0%nat n) as (HB & _ & HR).
  destruct (Z.eqb_spec (os_ret (o 0%nat n)) 0) as [E|E]; (eexists; split; [reflexivity|]).
  - specialize (HR E). rewrite buffer_full by (rewrite repeat_length; exact HR). split; [unfold n in *; lia|]. split; [exact HB|reflexivity].
  - split; [exact E|reflexivity].
Qed.
Lemma windows_random_spec o len : windows_os o -> 0 <= len < 2 ^ 32 -> let n := Z.to_nat len in
  exists r, get_os_random_bytes Windows o len = Ret r /\
    match r with
    | Ok bs => Z.of_nat (length bs) = len /\ bytes bs /\ bs = os_written (o 0%nat n)
    | Err e => 3 * 2 ^ 30 <= os_ret (o 0%nat n) /\ e = WindowsBCryptGenRandom (os_ret (o 0%nat n))
    end.
Proof.
  intros HO HL n. unfold get_os_random_bytes, windows_random. cbv zeta. fold n. rewrite repeat_length. destruct (HO 0%nat n) as (HB & _ & HR & HF).
  rewrite Z.shiftr_div_pow2 by lia. change (2 ^ 32) with 4294967296 in HR. change (2 ^ 30) with 1073741824 in *. change (3 * 1073741824) with 3221225472 in *.
  destruct (Z.eqb_spec (os_ret (o 0%nat n) / 1073741824) 3) as [E|E]; (eexists; split; [reflexivity|]).
  - split; [|reflexivity]. pose proof (Z.div_mod (os_ret (o 0%nat n)) 1073741824 ltac:(lia)). pose proof (Z.mod_pos_bound (os_ret (o 0%nat n)) 1073741824 ltac:(lia)). lia.
  - assert (E3 : os_ret (o 0%nat n) < 3221225472).
    { destruct (Z.lt_ge_cases (os_ret (o 0%nat n)) 3221225472) as [|G]; [assumption|]. exfalso. apply E.
      assert (3 <= os_ret (o 0%nat n) / 1073741824) by (apply Z.div_le_lower_bound; lia). assert (os_ret (o 0%nat n) / 1073741824 < 4) by (apply Z.div_lt_upper_bound; lia). lia. }
    specialize (HF E3). rewrite buffer_full by (rewrite repeat_length; exact HF). split; [unfold n in *; lia|]. split; [exact HB|reflexivity].
Qed.

(** Signing asks for 32 bytes. *)
Lemma os_rng t (o : nat -> os) : (forall i, match t with Linux => linux_os (o i) | MacOs => macos_os (o i) | Windows => windows_os (o i) end) ->
  rng_ok (fun i => get_os_random_bytes t (o i) 32).
Proof.
  intros HO i. specialize (HO i). assert (R : 0 <= 32 < 2 ^ 32) by (split; [discriminate|reflexivity]).
  destruct t; [destruct (linux_random_spec (o i) 32 HO R) as ([bs|e] & -> & H)|destruct (macos_random_spec (o i) 32 HO R) as ([bs|e] & -> & H)|destruct (windows_random_spec (o i) 32 HO R) as ([bs|e] & -> & H)];
    (left; exists bs; split; [reflexivity|]; destruct H as (H1 & H2 & _); split; [exact H2|lia]) || (right; eauto).
Qed.
(** If each call fills its buffer, bytes are returned: 300 bytes here, in two calls. *)
Definition full_os : os := fun i len => mkReply (Z.of_nat len) (repeat (Z.of_nat i + 7) len) 0.
Lemma example_full : get_os_random_bytes Linux full_os 300 = Ret (Ok (repeat 7 256 ++ repeat 8 44)).
Proof. vm_compute. reflexivity. Qed.
(** A system whose first two replies are complete and whose other replies are one byte short. *)
Definition short_os : os := fun i len => let k := (if Nat.leb i 1 then len else len - 1)%nat in mkReply (Z.of_nat k) (repeat 7 k) 0.
Lemma example_short : linux_os short_os /\ get_os_random_bytes Linux short_os 512 = Ret (Ok (repeat 7 512)) /\
  get_os_random_bytes Linux short_os 513 = Ret (Err LinuxGetRandomCopiedNumberLessThanRequested).
Proof.
  split; [|split; vm_compute; reflexivity]. intros i len. cbn. rewrite repeat_length. split; [|split; [destruct (Nat.leb i 1); lia|now right]].
  apply Forall_forall. intros x Hx. apply repeat_spec in Hx. subst x. unfold byte. lia.
Qed.

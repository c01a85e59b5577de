(** Proofs about RLP. *)

From Verif Require Import Base M_BigInt M_BigText M_Rlp S_BigInt S_Rlp P_BigInt3 P_BigInt4.
Open Scope Z_scope.

Lemma pow256 n : 256 ^ Z.of_nat n = 2 ^ (8 * Z.of_nat n).
Proof. rewrite (Z.pow_mul_r 2 8) by lia. reflexivity. Qed.

(** ** BE *)
Lemma BE_minimal n : 0 <= n -> minimal_be (BE n) n.
Proof.
  intros Hn. unfold BE, minimal_be. destruct (Z.leb_spec n 0).
  - assert (n = 0) by lia. subst. repeat split; [constructor|now left].
  - pose proof (Z.log2_spec n ltac:(lia)) as [L1 L2]. pose proof (Z.log2_nonneg n).
    set (k := Z.log2 n / 8). assert (0 <= k) by (apply Z.div_pos; lia).
    assert (K : 8 * k <= Z.log2 n < 8 * k + 8) by (pose proof (Z.div_mod (Z.log2 n) 8); pose proof (Z.mod_pos_bound (Z.log2 n) 8); unfold k; lia).
    assert (B1 : 256 ^ k <= n).
    { change 256 with (2 ^ 8). rewrite <- Z.pow_mul_r by lia.
      apply Z.le_trans with (2 ^ Z.log2 n); [apply Z.pow_le_mono_r; lia|lia]. }
    assert (B2 : n < 256 ^ (k + 1)).
    { change 256 with (2 ^ 8). rewrite <- Z.pow_mul_r by lia.
      apply Z.lt_le_trans with (2 ^ Z.succ (Z.log2 n)); [lia|apply Z.pow_le_mono_r; lia]. }
    assert (V : be_val (to_be (Z.to_nat (k + 1)) n) = n) by (apply be_val_to_be; rewrite Z2Nat.id; lia).
    split; [apply to_be_bytes_range|]. split; [exact V|]. right.
    intros Hz. pose proof (to_be_length (Z.to_nat (k + 1)) n) as L.
    pose proof (to_be_bytes_range (Z.to_nat (k + 1)) n) as R.
    destruct (to_be (Z.to_nat (k + 1)) n) as [|x t]; [cbn in L; lia|].
    cbn [hd] in Hz. subst x. cbn [length] in L. rewrite be_val_cons in V.
    inversion R; subst. pose proof (be_val_bound t ltac:(assumption)) as Bt.
    replace (Z.of_nat (length t)) with k in Bt by lia. lia.
Qed.

Lemma BE_bytes n : bytes (BE n).
Proof. unfold BE. destruct (n <=? 0); [constructor|apply to_be_bytes_range]. Qed.
Lemma be_val_BE n : 0 <= n -> be_val (BE n) = n.
Proof. intros H. apply (BE_minimal n H). Qed.
Lemma minimal_BE l n : 0 <= n -> minimal_be l n -> l = BE n.
Proof. intros Hn H. eapply minimal_be_unique; [exact H|now apply BE_minimal]. Qed.
Lemma BE_length k n : 0 <= n < 256 ^ Z.of_nat k -> (length (BE n) <= k)%nat.
Proof.
  intros [H1 H2]. destruct (BE_minimal n H1) as (Hb & Hv & [E|E]); [rewrite E; cbn; lia|].
  destruct (BE n) as [|x t]; [cbn; lia|]. cbn [hd] in E. rewrite be_val_cons in Hv.
  inversion Hb as [|? ? Hx Ht]; subst. unfold byte in Hx. pose proof (be_val_bound t Ht) as Bt.
  assert (256 ^ Z.of_nat (length t) < 256 ^ Z.of_nat k) by nia.
  apply Z.pow_lt_mono_r_iff in H; [cbn [length]; lia|lia|lia].
Qed.
Lemma BE_length_pos n : 0 < n -> (1 <= length (BE n))%nat.
Proof.
  intros H. destruct (BE_minimal n ltac:(lia)) as (_ & Hv & _). destruct (BE n); [cbn in Hv; lia|cbn; lia].
Qed.

Lemma slice_from_ok {A} (l : list A) i : (i <= length l)%nat -> slice_from l i = Ret (skipn i l).
Proof.
  intros H. unfold slice_from, slice. destruct (Nat.leb_spec i (length l)); [|lia].
  rewrite Nat.leb_refl. cbn [andb]. rewrite firstn_all2; [reflexivity|]. rewrite skipn_length. lia.
Qed.
Lemma slice_to_ok {A} (l : list A) i : (i <= length l)%nat -> slice_to l i = Ret (firstn i l).
Proof.
  intros H. unfold slice_to, slice. destruct (Nat.leb_spec i (length l)); [|lia].
  cbn [Nat.leb andb skipn]. now rewrite Nat.sub_0_r.
Qed.

Lemma strip_spec bs : bytes bs -> exists l, strip_leading_zeros bs = Ret l /\ minimal_be l (be_val bs).
Proof.
  unfold strip_leading_zeros. intros Hb.
  assert (G : forall bs, bytes bs ->
    match position (fun x => negb (x =? 0)) bs with
    | Some i => (i <= length bs)%nat /\ minimal_be (skipn i bs) (be_val bs)
    | None => be_val bs = 0 end).
  { clear. induction bs as [|x t IH]; intros Hb; [reflexivity|]. cbn [position].
    inversion Hb as [|? ? Hx Ht]; subst. destruct (Z.eqb_spec x 0) as [->|Hx0]; cbn [negb].
    - rewrite be_val_cons. replace (0 * 256 ^ Z.of_nat (length t) + be_val t) with (be_val t) by lia.
      specialize (IH Ht). destruct (position _ t) as [i|]; [|exact IH].
      cbn [length skipn]. destruct IH. split; [lia|assumption].
    - cbn [skipn]. split; [lia|]. split; [exact Hb|]. split; [reflexivity|now right]. }
  specialize (G bs Hb). destruct (position _ bs) as [i|].
  - destruct G as [H1 H2]. rewrite slice_from_ok by assumption. eauto.
  - exists []. split; [reflexivity|]. rewrite G. split; [constructor|]. split; [reflexivity|now left].
Qed.
Lemma strip_BE bs : bytes bs -> strip_leading_zeros bs = Ret (BE (be_val bs)).
Proof.
  intros H. destruct (strip_spec bs H) as (l & -> & M). f_equal. apply minimal_BE; [apply be_val_bound, H|exact M].
Qed.
Lemma strip_to_be n : 0 <= n < 2 ^ 64 -> strip_leading_zeros (to_be 8 n) = Ret (BE n).
Proof.
  intros H. rewrite strip_BE by apply to_be_bytes_range. now rewrite be_val_to_be by (change (256 ^ Z.of_nat 8) with (2 ^ 64); lia).
Qed.

(** ** Encoding *)
Lemma encode_list_spec x e : with_length 192 x = Some e -> encode_item List x = Ret e.
Proof.
  unfold with_length, encode_item, encode_payload_length. cbn [item_type_eqb andb obind].
  destruct (Z.ltb_spec (Z.of_nat (length x)) 56).
  - intros [= <-]. rewrite Z.mod_small by lia. unfold u8_add.
    destruct (Z.ltb_spec (192 + Z.of_nat (length x)) 256); [|lia]. reflexivity.
  - destruct (Z.ltb_spec (Z.of_nat (length x)) (2 ^ 64)); [|discriminate]. intros [= <-].
    rewrite strip_to_be by lia. cbn [obind].
    assert (L : (length (BE (Z.of_nat (length x))) <= 8)%nat) by (apply BE_length; change (256 ^ Z.of_nat 8) with (2 ^ 64); lia).
    unfold MAX_BYTE_LENGTH_OF_PAYLOAD_BYTE_LENGTH. destruct (Nat.leb_spec (length (BE (Z.of_nat (length x)))) 8); [|lia].
    cbn [oassert]. rewrite Z.mod_small by lia. unfold u8_add.
    destruct (Z.ltb_spec (247 + Z.of_nat (length (BE (Z.of_nat (length x))))) 256); [|lia]. reflexivity.
Qed.
Lemma encode_single_spec x e : R_b x = Some e -> encode_single_value x = Ret e.
Proof.
  unfold encode_single_value, R_b. intros H.
  assert (D : (exists b, x = [b] /\ b < 128) \/ (with_length 128 x = Some e /\ forall b, x = [b] -> 128 <= b)).
  { destruct x as [|b [|c t]].
    - right. split; [exact H|]. intros; discriminate.
    - destruct (Z.ltb_spec b 128); [left; eauto|right; split; [exact H|]]. intros ? [= <-]. assumption.
    - right. split; [exact H|]. intros; discriminate. }
  destruct D as [(b & -> & Hb)|(H' & Hb)].
  - destruct (Z.ltb_spec b 128); [|lia]. injection H as <-.
    unfold encode_item, encode_payload_length. cbn [item_type_eqb andb length Z.of_nat Z.eqb Pos.eqb index nth_error obind].
    destruct (Z.ltb_spec b 128); [|lia]. reflexivity.
  - clear H. unfold with_length in H'. unfold encode_item, encode_payload_length. cbn [item_type_eqb andb].
    assert (EB : (if Z.of_nat (length x) =? 1 then x0 <- index x 0;; Ret (x0 <? 128) else Ret false) = Ret false).
    { destruct (Z.eqb_spec (Z.of_nat (length x)) 1); [|reflexivity]. destruct x as [|b [|? ?]]; cbn [length] in *; try lia.
      cbn [index nth_error obind]. specialize (Hb b eq_refl). destruct (Z.ltb_spec b 128); [lia|reflexivity]. }
    rewrite EB. cbn [obind].
    destruct (Z.ltb_spec (Z.of_nat (length x)) 56).
    + injection H' as <-. rewrite Z.mod_small by lia. unfold u8_add.
      destruct (Z.ltb_spec (128 + Z.of_nat (length x)) 256); [|lia]. reflexivity.
    + destruct (Z.ltb_spec (Z.of_nat (length x)) (2 ^ 64)); [|discriminate]. injection H' as <-.
      rewrite strip_to_be by lia. cbn [obind].
      assert (L : (length (BE (Z.of_nat (length x))) <= 8)%nat) by (apply BE_length; change (256 ^ Z.of_nat 8) with (2 ^ 64); lia).
      unfold MAX_BYTE_LENGTH_OF_PAYLOAD_BYTE_LENGTH. destruct (Nat.leb_spec (length (BE (Z.of_nat (length x)))) 8); [|lia].
      cbn [oassert]. rewrite Z.mod_small by lia. unfold u8_add.
      destruct (Z.ltb_spec (183 + Z.of_nat (length (BE (Z.of_nat (length x))))) 256); [|lia]. reflexivity.
Qed.

Lemma encode_bytes_spec x e it : R_b x = Some e -> encode_bytes x it = Ret (it ++ e).
Proof. intros H. unfold encode_bytes. now rewrite (encode_single_spec x e H). Qed.
Lemma encode_list_payload_spec x e it : with_length 192 x = Some e -> encode_list_payload x it = Ret (it ++ e).
Proof.
  intros H. apply encode_list_spec in H. unfold encode_item in H. unfold encode_list_payload.
  destruct (encode_payload_length List x); cbn [obind] in *; [|discriminate|discriminate].
  injection H as <-. now rewrite <- app_assoc.
Qed.

(** induction over trees *)
Lemma item_rect' (P : item -> Prop) :
  (forall b, P (Str b)) -> (forall l, Forall P l -> P (Lst l)) -> forall i, P i.
Proof.
  intros H1 H2. fix IH 1. intros [b|l]; [apply H1|apply H2]. induction l; constructor; [apply IH|assumption].
Qed.

(** the serialisation of a list of trees *)
Fixpoint RLPs (l : list item) : option (list Z) :=
  match l with
  | [] => Some []
  | i :: l' => match RLP i, RLPs l' with Some x, Some y => Some (x ++ y) | _, _ => None end
  end.
Lemma RLP_Lst l : RLP (Lst l) = match RLPs l with Some x => with_length 192 x | None => None end.
Proof.
  cbn [RLP]. match goal with |- context [match ?f l with _ => _ end] => assert (E : f l = RLPs l) end.
  { induction l as [|i l IH]; [reflexivity|]. cbn [RLPs]. now rewrite <- IH. }
  now rewrite E.
Qed.
Lemma item_bytes_Lst l : item_bytes (Lst l) <-> Forall item_bytes l.
Proof.
  cbn [item_bytes]. induction l as [|i l IH]; [split; [constructor|auto]|].
  rewrite IH. split; [intros []; now constructor|intros H; inversion H; auto].
Qed.

Lemma encode_tree_Lst l it : encode_tree (Lst l) it =
  (sub <- encode_all encode_tree l enc_new ;; encode_list_payload sub it).
Proof.
  cbn [encode_tree]. match goal with |- context [obind (?f l _) _] => assert (E : forall it, f l it = encode_all encode_tree l it) end.
  { induction l as [|i l IH]; intros it'; [reflexivity|]. cbn [encode_all]. destruct (encode_tree i it') as [a| |]; cbn [obind]; [apply IH|reflexivity|reflexivity]. }
  now rewrite E.
Qed.

Lemma encode_tree_spec i : forall e it, RLP i = Some e -> encode_tree i it = Ret (it ++ e).
Proof.
  induction i as [b|l IH] using item_rect'; intros e it H.
  - cbn [encode_tree]. now apply encode_bytes_spec.
  - rewrite encode_tree_Lst. rewrite RLP_Lst in H. destruct (RLPs l) as [x|] eqn:E; [|discriminate].
    assert (G : forall it, encode_all encode_tree l it = Ret (it ++ x)).
    { clear H. revert x E. induction l as [|i l IHl]; intros x E it'; cbn [RLPs encode_all] in *.
      - injection E as <-. now rewrite app_nil_r.
      - inversion IH as [|? ? Hi Hl]; subst. destruct (RLP i) as [xi|] eqn:Ei; [|discriminate].
        destruct (RLPs l) as [y|]; [|discriminate]. injection E as <-.
        rewrite (Hi _ it' eq_refl). cbn [obind]. rewrite (IHl Hl y eq_refl). now rewrite app_assoc. }
    rewrite G. cbn [obind app enc_new]. now apply encode_list_payload_spec.
Qed.

(** encodings consist of bytes *)
Lemma with_length_bytes o x e : 0 <= o <= 192 -> bytes x -> with_length o x = Some e -> bytes e.
Proof.
  intros Ho Hx. unfold with_length. destruct (Z.ltb_spec (Z.of_nat (length x)) 56).
  - intros [= <-]. constructor; [unfold byte; lia|exact Hx].
  - destruct (Z.ltb_spec (Z.of_nat (length x)) (2 ^ 64)); [|discriminate]. intros [= <-].
    assert (L : (length (BE (Z.of_nat (length x))) <= 8)%nat) by (apply BE_length; change (256 ^ Z.of_nat 8) with (2 ^ 64); lia).
    constructor; [unfold byte; lia|]. apply Forall_app. split; [apply BE_bytes|exact Hx].
Qed.
Lemma R_b_bytes x e : bytes x -> R_b x = Some e -> bytes e.
Proof.
  intros Hx. unfold R_b. destruct x as [|b [|c t]]; try (intros; eapply with_length_bytes in H; [exact H|lia|assumption]).
  destruct (b <? 128); [intros [= <-]; exact Hx|]. intros; eapply with_length_bytes in H; [exact H|lia|assumption].
Qed.
Lemma RLP_bytes i : forall e, item_bytes i -> RLP i = Some e -> bytes e.
Proof.
  induction i as [b|l IH] using item_rect'; intros e Hi H; [now apply (R_b_bytes b)|].
  rewrite RLP_Lst in H. apply item_bytes_Lst in Hi. destruct (RLPs l) as [x|] eqn:E; [|discriminate].
  refine (with_length_bytes 192 x e _ _ H); [lia|]. clear H.
  revert x E. induction l as [|i l IHl]; intros x E; cbn [RLPs] in E; [injection E as <-; constructor|].
  inversion IH as [|? ? IH1 IH2]; inversion Hi as [|? ? Hi1 Hi2]; subst.
  destruct (RLP i) eqn:Ei; [|discriminate]. destruct (RLPs l); [|discriminate].
  injection E as <-. apply Forall_app. split; [now apply IH1|now apply (IHl IH2 Hi2)].
Qed.

(** ** Headers *)
Lemma header_length t h n : header t h n -> (1 <= length h <= 9)%nat /\ 0 <= n.
Proof.
  destruct 1; cbn [length]; try lia; pose proof (be_val_bound l ltac:(assumption)); lia.
Qed.
Lemma header_bytes t h n : header t h n -> bytes h.
Proof.
  destruct 1; constructor; try (unfold byte; lia); try constructor; assumption.
Qed.

Lemma usize_add_ok dbg a b : a + b < 2 ^ 64 -> usize_add dbg a b = Ret (a + b).
Proof. intros H. unfold usize_add. destruct (Z.ltb_spec (a + b) (2 ^ 64)); [reflexivity|lia]. Qed.
Lemma u8_add_ok a b : a + b < 256 -> u8_add a b = Ret (a + b).
Proof. intros H. unfold u8_add. destruct (Z.ltb_spec (a + b) 256); [reflexivity|lia]. Qed.

(** the long branch, once the length bytes are there *)
Lemma decode_long_eval dbg t x l r : bytes l -> (1 <= length l <= 8)%nat ->
  Z.of_nat (length (x :: l ++ r)) < 2 ^ 63 ->
  decode_long_header dbg t (Z.of_nat (length l)) (x :: l ++ r) =
  (if 1 + Z.of_nat (length l) + be_val l <? 2 ^ 64 then
     if be_val l <=? Z.of_nat (length r) then Ret (Ok (t, 1 + Z.of_nat (length l), be_val l)) else Ret (Err InvalidFormat)
   else if dbg then Panic else Ret (Ok (t, 1 + Z.of_nat (length l), be_val l))).
Proof.
  intros Hl L63 Hlen. unfold decode_long_header. rewrite usize_add_ok by lia. cbn [obind].
  cbn [length] in *. rewrite app_length in *.
  destruct (Z.ltb_spec (Z.of_nat (S (length l + length r))) (1 + Z.of_nat (length l))); [lia|].
  destruct (Z.leb_spec (Z.of_nat (length l)) 8); [|lia]. cbn [oassert].
  rewrite Nat2Z.id.
  assert (ES : slice (x :: l ++ r) 1 (length l + 1) = Ret l).
  { unfold slice. cbn [length]. rewrite app_length. destruct (Nat.leb_spec 1 (length l + 1)); [|lia].
    destruct (Nat.leb_spec (length l + 1) (S (length l + length r))); [|lia]. cbn [andb skipn].
    replace (length l + 1 - 1)%nat with (length l) by lia. now rewrite firstn_app, firstn_all, Nat.sub_diag, app_nil_r. }
  rewrite ES. cbn [obind].
  assert (EB : be_val (repeat 0 (8 - length l) ++ l) = be_val l) by (rewrite be_val_app, be_val_zeros; lia).
  rewrite EB. pose proof (be_val_bound l Hl) as [B1 B2].
  assert (B3 : 256 ^ Z.of_nat (length l) <= 2 ^ 64) by (change (2 ^ 64) with (256 ^ 8); apply Z.pow_le_mono_r; lia).
  rewrite (u8_add_ok 1) by lia. cbn [obind].
  unfold usize_add. destruct (Z.ltb_spec (1 + Z.of_nat (length l) + be_val l) (2 ^ 64)); cbn [obind].
  - destruct (Z.leb_spec (be_val l) (Z.of_nat (length r)));
      destruct (Z.ltb_spec (Z.of_nat (S (length l + length r))) (1 + Z.of_nat (length l) + be_val l)); try lia; reflexivity.
  - destruct dbg; [reflexivity|]. cbn [obind].
    assert (M : (1 + Z.of_nat (length l) + be_val l) mod 2 ^ 64 = 1 + Z.of_nat (length l) + be_val l - 2 ^ 64).
    { symmetry. apply Z.mod_unique with 1; lia. }
    rewrite M. destruct (Z.ltb_spec (Z.of_nat (S (length l + length r))) (1 + Z.of_nat (length l) + be_val l - 2 ^ 64)); [lia|reflexivity].
Qed.

Lemma leb_t a b : a <= b -> (a <=? b) = true. Proof. apply Z.leb_le. Qed.
Lemma leb_f a b : b < a -> (a <=? b) = false. Proof. apply Z.leb_gt. Qed.

Ltac lb := match goal with |- context [?a <=? ?b] =>
  first [rewrite (leb_t a b) by lia | rewrite (leb_f a b) by lia] end.

(** a header and enough payload behind it *)
Lemma dh_complete dbg t h n r : header t h n -> n <= Z.of_nat (length r) -> Z.of_nat (length (h ++ r)) < 2 ^ 63 ->
  decode_data_header dbg (h ++ r) = Ret (Ok (t, Z.of_nat (length h), n)).
Proof.
  intros H. destruct H as [n Hn|n Hn|l Hl Ll|l Hl Ll]; intros Hr Hlen.
  - cbn [app decode_data_header]. do 2 lb. cbn [length]. do 3 f_equal. f_equal; lia.
  - cbn [app decode_data_header]. do 4 lb. do 3 f_equal. f_equal; lia.
  - cbn [app decode_data_header]. do 3 lb.
    replace (183 + Z.of_nat (length l) - 183) with (Z.of_nat (length l)) by lia.
    rewrite decode_long_eval by (auto; cbn [app] in Hlen; assumption).
    rewrite app_length in Hlen. cbn [length] in *. pose proof (be_val_bound l Hl).
    destruct (Z.ltb_spec (1 + Z.of_nat (length l) + be_val l) (2 ^ 64)); [|lia]. rewrite leb_t by lia.
    do 3 f_equal. f_equal. lia.
  - cbn [app decode_data_header]. do 4 lb.
    replace (247 + Z.of_nat (length l) - 247) with (Z.of_nat (length l)) by lia.
    rewrite decode_long_eval by (auto; cbn [app] in Hlen; assumption).
    rewrite app_length in Hlen. cbn [length] in *. pose proof (be_val_bound l Hl).
    destruct (Z.ltb_spec (1 + Z.of_nat (length l) + be_val l) (2 ^ 64)); [|lia]. rewrite leb_t by lia.
    do 3 f_equal. f_equal. lia.
Qed.

(** all results of decode_data_header *)
Inductive dh (dbg : bool) : list Z -> outcome (result RlpDataDecodingError (RlpItemType * Z * Z)) -> Prop :=
| dh_nil : dh dbg [] (Ret (Err InvalidFormat))
| dh_trunc x r : Z.of_nat (length r) < 8 -> 183 < x < 256 -> dh dbg (x :: r) (Ret (Err InvalidFormat))
| dh_byte b r : 0 <= b < 128 -> dh dbg (b :: r) (Ret (Ok (SingleValue, 0, 1)))
| dh_ok t h r n : header t h n -> (length h = 1%nat \/ n <= Z.of_nat (length r)) ->
    Z.of_nat (length h) + n < 2 ^ 64 ->
    dh dbg (h ++ r) (Ret (Ok (t, Z.of_nat (length h), n)))
| dh_err t h r n : header t h n -> Z.of_nat (length r) < n -> dh dbg (h ++ r) (Ret (Err InvalidFormat))
| dh_over t h r n : header t h n -> 2 ^ 64 <= Z.of_nat (length h) + n ->
    dh dbg (h ++ r) (if dbg then Panic else Ret (Ok (t, Z.of_nat (length h), n))).

Lemma dh_long dbg t o x r : 1 <= x - o <= 8 -> 183 < x < 256 ->
  (forall l, bytes l -> (1 <= length l <= 8)%nat -> header t ((o + Z.of_nat (length l)) :: l) (be_val l)) ->
  bytes r -> Z.of_nat (length (x :: r)) < 2 ^ 63 -> dh dbg (x :: r) (decode_long_header dbg t (x - o) (x :: r)).
Proof.
  intros Hx Hx' Hh Hr Hlen.
  destruct (Z.ltb_spec (Z.of_nat (length r)) (x - o)).
  - unfold decode_long_header. rewrite usize_add_ok by lia. cbn [obind length].
    destruct (Z.ltb_spec (Z.of_nat (S (length r))) (1 + (x - o))); [|lia]. apply dh_trunc; lia.
  - set (k := Z.to_nat (x - o)). assert (Hk : Z.of_nat k = x - o) by (unfold k; lia).
    assert (E : exists l r', r = l ++ r' /\ length l = k).
    { exists (firstn k r), (skipn k r). rewrite firstn_skipn, firstn_length. split; [reflexivity|lia]. }
    clearbody k. destruct E as (l & r' & -> & Ll).
    assert (Bl : bytes l) by (apply Forall_app in Hr; apply Hr).
    replace (x - o) with (Z.of_nat (length l)) by lia.
    rewrite decode_long_eval by (auto; lia).
    assert (Ex : x = o + Z.of_nat (length l)) by lia.
    pose proof (Hh l Bl ltac:(lia)) as HH. rewrite <- Ex in HH.
    destruct (Z.ltb_spec (1 + Z.of_nat (length l) + be_val l) (2 ^ 64)).
    + destruct (Z.leb_spec (be_val l) (Z.of_nat (length r'))).
      * change (x :: l ++ r') with ((x :: l) ++ r').
        replace (1 + Z.of_nat (length l)) with (Z.of_nat (length (x :: l))) by (cbn [length]; lia).
        apply dh_ok; [exact HH|now right|cbn [length]; lia].
      * change (x :: l ++ r') with ((x :: l) ++ r'). apply (dh_err _ _ _ _ _ HH). assumption.
    + change (x :: l ++ r') with ((x :: l) ++ r').
      replace (1 + Z.of_nat (length l)) with (Z.of_nat (length (x :: l))) by (cbn [length]; lia).
      apply dh_over; [exact HH|cbn [length]; lia].
Qed.

Lemma dh_spec dbg data : bytes data -> Z.of_nat (length data) < 2 ^ 63 -> dh dbg data (decode_data_header dbg data).
Proof.
  destruct data as [|x r]; intros Hb Hlen; [constructor|]. inversion Hb as [|? ? Hx Hr]; subst. unfold byte in Hx.
  unfold decode_data_header.
  destruct (Z.leb_spec x 127); [apply dh_byte; lia|].
  destruct (Z.leb_spec x 183).
  { apply (dh_ok dbg SingleValue [x] r (x - 128)); [|left; reflexivity|cbn [length]; lia].
    replace [x] with [128 + (x - 128)] by (f_equal; lia). constructor. lia. }
  destruct (Z.leb_spec x 191); [apply dh_long; auto; try lia; intros; now apply header_long_str|].
  destruct (Z.leb_spec x 247).
  { apply (dh_ok dbg List [x] r (x - 192)); [|left; reflexivity|cbn [length]; lia].
    replace [x] with [192 + (x - 192)] by (f_equal; lia). constructor. lia. }
  apply dh_long; auto; try lia; intros; now apply header_long_list.
Qed.

(** overflow occurs with 8 length bytes only *)
Lemma header_over t h n r : header t h n -> 2 ^ 64 <= Z.of_nat (length h) + n ->
  overflowing_header (h ++ r) /\ length h = 9%nat /\ n < 2 ^ 64.
Proof.
  intros H Ho. assert (G : forall l, bytes l -> (1 <= length l <= 8)%nat -> 2 ^ 64 <= 1 + Z.of_nat (length l) + be_val l ->
    length l = 8%nat /\ be_val l < 2 ^ 64).
  { intros l Hl L1 L2. pose proof (be_val_bound l Hl) as [B1 B2].
    destruct (Nat.eq_dec (length l) 8) as [E|E]; [rewrite E in B2; change (256 ^ Z.of_nat 8) with (2 ^ 64) in B2; auto|exfalso].
    assert (256 ^ Z.of_nat (length l) <= 256 ^ 7) by (apply Z.pow_le_mono_r; lia).
    change (256 ^ 7) with 72057594037927936 in *. lia. }
  destruct H as [n Hn|n Hn|l Hl Ll|l Hl Ll]; cbn [length] in Ho; try lia.
  - destruct (G l Hl Ll ltac:(lia)) as [G1 G2]. split; [|split; [cbn [length]; lia|assumption]].
    exists 0xbf, l, r. rewrite G1 in *. repeat split; auto. lia.
  - destruct (G l Hl Ll ltac:(lia)) as [G1 G2]. split; [|split; [cbn [length]; lia|assumption]].
    exists 0xff, l, r. rewrite G1 in *. repeat split; auto. lia.
Qed.

(** ** decode_data *)
(** the two ways to read one item off the front of the data *)
Inductive reads : list Z -> RlpItemType -> list Z -> list Z -> Prop :=
| reads_byte b r : 0 <= b < 128 -> reads (b :: r) SingleValue [b] r
| reads_header t h p r : header t h (Z.of_nat (length p)) -> reads (h ++ p ++ r) t p r.

Lemma skipn_app_exact {A} (a b : list A) : skipn (length a) (a ++ b) = b.
Proof. rewrite skipn_app, skipn_all, Nat.sub_diag. reflexivity. Qed.
Lemma firstn_app_exact {A} (a b : list A) : firstn (length a) (a ++ b) = a.
Proof. rewrite firstn_app, firstn_all, Nat.sub_diag, firstn_O. apply app_nil_r. Qed.

Lemma decode_data_ok dbg data t p : reads data t p [] -> Z.of_nat (length data) < 2 ^ 63 ->
  decode_data dbg data = Ret (Ok (t, p)).
Proof.
  intros H Hlen. unfold decode_data. inversion H as [b r Hb|t' h p' r Hh]; subst.
  - unfold decode_data_header. rewrite leb_t by lia. cbn [rbind]. rewrite usize_add_ok by lia. cbn [obind length Z.of_nat Z.eqb Pos.eqb Z.add Pos.of_succ_nat negb Z.to_nat].
    rewrite slice_from_ok by (cbn; lia). reflexivity.
  - rewrite app_nil_r in *. rewrite (dh_complete dbg t h _ p Hh) by (auto; lia). cbn [rbind].
    rewrite app_length in *. rewrite usize_add_ok by lia. cbn [obind].
    rewrite Nat2Z.inj_add, Z.eqb_refl. cbn [negb]. rewrite Nat2Z.id, slice_from_ok by (rewrite app_length; lia).
    cbn [obind]. now rewrite skipn_app_exact.
Qed.

Lemma decode_data_inv dbg data : bytes data -> Z.of_nat (length data) < 2 ^ 63 ->
  (exists t p, decode_data dbg data = Ret (Ok (t, p)) /\ reads data t p []) \/
  decode_data dbg data = Ret (Err InvalidFormat) \/
  (decode_data dbg data = Panic /\ dbg = true /\ overflowing_header data).
Proof.
  intros Hb Hlen. pose proof (dh_spec dbg data Hb Hlen) as D. unfold decode_data.
  remember (decode_data_header dbg data) as o. destruct D as [|x r Lr Hx|b r Hb'|t h r n H L1 L2|t h r n H L1|t h r n H L1]; subst; cbn [rbind].
  - auto.
  - auto.
  - rewrite usize_add_ok by lia. cbn [obind]. destruct (Z.eqb_spec (Z.of_nat (length (b :: r))) (0 + 1)) as [E|E]; cbn [negb]; [|auto].
    left. destruct r; [|cbn [length] in E; lia]. exists SingleValue, [b].
    rewrite slice_from_ok by (cbn; lia). split; [reflexivity|now constructor].
  - rewrite usize_add_ok by lia. cbn [obind]. rewrite app_length.
    destruct (Z.eqb_spec (Z.of_nat (length h + length r)) (Z.of_nat (length h) + n)) as [E|E]; cbn [negb]; [|auto].
    left. exists t, r. rewrite Nat2Z.id, slice_from_ok by (rewrite app_length; lia). cbn [obind]. rewrite skipn_app_exact.
    split; [reflexivity|]. replace n with (Z.of_nat (length r)) in H by lia.
    rewrite <- (app_nil_r r) at 1. now constructor.
  - auto.
  - destruct (header_over t h n r H L1) as (O & L9 & Hn). destruct dbg; cbn [rbind]; [auto|].
    right. left. unfold usize_add. destruct (Z.ltb_spec (Z.of_nat (length h) + n) (2 ^ 64)); [lia|]. cbn [obind].
    assert (M : (Z.of_nat (length h) + n) mod 2 ^ 64 = Z.of_nat (length h) + n - 2 ^ 64).
    { symmetry. apply Z.mod_unique with 1; lia. }
    rewrite M, app_length. destruct (Z.eqb_spec (Z.of_nat (length h + length r)) (Z.of_nat (length h) + n - 2 ^ 64)); [lia|reflexivity].
Qed.

(** one step of the list loop *)
Lemma list_step dbg fuel data acc t p r : reads data t p r -> Z.of_nat (length data) < 2 ^ 63 ->
  decode_list_loop dbg (S fuel) data acc = decode_list_loop dbg fuel r (acc ++ [(t, p)]).
Proof.
  intros H Hlen. inversion H as [b r' Hb|t' h p' r' Hh]; subst.
  - cbn [decode_list_loop]. unfold decode_data_header. rewrite leb_t by lia. cbn [rbind]. rewrite usize_add_ok by lia. cbn [obind].
    destruct (Z.ltb_spec (Z.of_nat (length (b :: r))) (0 + 1)); [cbn [length] in *; lia|].
    change (Z.to_nat (0 + 1)) with 1%nat. rewrite slice_to_ok, slice_from_ok by (cbn; lia). cbn [obind firstn skipn].
    rewrite slice_from_ok by (cbn; lia). reflexivity.
  - assert (Lh : (1 <= length h)%nat) by (apply header_length in Hh; lia).
    rewrite !app_length in Hlen.
    assert (E : exists x y, h ++ p ++ r = x :: y) by (destruct h; [cbn in Lh; lia|cbn; eauto]).
    destruct E as (x & y & E).
    assert (S1 : decode_list_loop dbg (S fuel) (h ++ p ++ r) acc =
       ('(item_type, header_byte_length, payload_byte_length) <-? decode_data_header dbg (h ++ p ++ r) ;;
          t <- usize_add dbg header_byte_length payload_byte_length ;;
          if Z.of_nat (length (h ++ p ++ r)) <? t then Ret (Err InvalidFormat) else
          data1 <- slice_to (h ++ p ++ r) (Z.to_nat t) ;;
          data2 <- slice_from (h ++ p ++ r) (Z.to_nat t) ;;
          payload <- slice_from data1 (Z.to_nat header_byte_length) ;;
          decode_list_loop dbg fuel data2 (acc ++ [(item_type, payload)]))) by (rewrite E; reflexivity).
    rewrite S1. rewrite (dh_complete dbg t h _ (p ++ r) Hh) by (rewrite !app_length; lia). cbn [rbind].
    rewrite usize_add_ok by lia. cbn [obind]. rewrite !app_length.
    destruct (Z.ltb_spec (Z.of_nat (length h + (length p + length r))) (Z.of_nat (length h) + Z.of_nat (length p))); [lia|].
    rewrite <- Nat2Z.inj_add, Nat2Z.id. rewrite slice_to_ok, slice_from_ok by (rewrite !app_length; lia). cbn [obind].
    rewrite app_assoc, <- app_length, firstn_app_exact, skipn_app_exact.
    rewrite Nat2Z.id, slice_from_ok by (rewrite app_length; lia). cbn [obind]. now rewrite skipn_app_exact.
Qed.

Lemma list_step_inv dbg fuel data acc : bytes data -> Z.of_nat (length data) < 2 ^ 63 -> data <> [] ->
  (exists t p r, reads data t p r /\ decode_list_loop dbg (S fuel) data acc = decode_list_loop dbg fuel r (acc ++ [(t, p)])) \/
  decode_list_loop dbg (S fuel) data acc = Ret (Err InvalidFormat) \/
  (decode_list_loop dbg (S fuel) data acc = Panic /\ overflowing_header data).
Proof.
  intros Hb Hlen Hne. pose proof (dh_spec dbg data Hb Hlen) as D.
  assert (S1 : decode_list_loop dbg (S fuel) data acc =
       ('(item_type, header_byte_length, payload_byte_length) <-? decode_data_header dbg data ;;
          t <- usize_add dbg header_byte_length payload_byte_length ;;
          if Z.of_nat (length data) <? t then Ret (Err InvalidFormat) else
          data1 <- slice_to data (Z.to_nat t) ;;
          data2 <- slice_from data (Z.to_nat t) ;;
          payload <- slice_from data1 (Z.to_nat header_byte_length) ;;
          decode_list_loop dbg fuel data2 (acc ++ [(item_type, payload)]))) by (destruct data; [congruence|reflexivity]).
  remember (decode_data_header dbg data) as o.
  destruct D as [|x r Lr Hx|b r Hb'|t h r n H L1 L2|t h r n H L1|t h r n H L1].
  - congruence.
  - rewrite S1; subst; auto.
  - left. exists SingleValue, [b], r. assert (R : reads (b :: r) SingleValue [b] r) by now constructor.
    split; [exact R|]. now apply list_step.
  - destruct (Z.leb_spec n (Z.of_nat (length r))).
    + left. exists t, (firstn (Z.to_nat n) r), (skipn (Z.to_nat n) r).
      assert (0 <= n) by (apply header_length in H; lia).
      assert (R : reads (h ++ r) t (firstn (Z.to_nat n) r) (skipn (Z.to_nat n) r)).
      { rewrite <- (firstn_skipn (Z.to_nat n) r) at 1. constructor.
        rewrite firstn_length. replace (Z.of_nat (Nat.min (Z.to_nat n) (length r))) with n by lia. exact H. }
      split; [exact R|]. now apply list_step.
    + right. left. rewrite S1; subst. cbn [rbind]. rewrite usize_add_ok by lia. cbn [obind]. rewrite app_length.
      destruct (Z.ltb_spec (Z.of_nat (length h + length r)) (Z.of_nat (length h) + n)); [reflexivity|lia].
  - rewrite S1; subst; auto.
  - right. right. destruct (header_over t h n r H L1) as (O & L9 & Hn). rewrite S1; subst. split; [|exact O].
    destruct dbg; cbn [rbind]; [reflexivity|].
    unfold usize_add. destruct (Z.ltb_spec (Z.of_nat (length h) + n) (2 ^ 64)); [lia|]. cbn [obind].
    assert (M : (Z.of_nat (length h) + n) mod 2 ^ 64 = Z.of_nat (length h) + n - 2 ^ 64).
    { symmetry. apply Z.mod_unique with 1; lia. }
    rewrite M, app_length.
    destruct (Z.ltb_spec (Z.of_nat (length h + length r)) (Z.of_nat (length h) + n - 2 ^ 64)); [lia|].
    rewrite slice_to_ok, slice_from_ok by (rewrite app_length; lia). cbn [obind].
    unfold slice_from, slice. rewrite firstn_length, app_length, Nat2Z.id.
    destruct (Nat.leb_spec (length h) (Nat.min (Z.to_nat (Z.of_nat (length h) + n - 2 ^ 64)) (length h + length r))); [lia|reflexivity].
Qed.

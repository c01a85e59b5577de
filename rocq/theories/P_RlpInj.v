(** RLP is injective and prefix-free; what is signed of a transaction determines the payload. *)

From Coq Require Import Lia.
From Verif Require Import Base M_BigInt M_Rlp M_EthTypes M_Tx S_BigInt S_Rlp S_EthTypes S_Tx S_Eoa.
From Verif Require Import P_Rlp P_TxSign.
Open Scope Z_scope.

Lemma app_split {A} (a b u v : list A) : length a = length b -> a ++ u = b ++ v -> a = b /\ u = v.
Proof. revert b. induction a as [|x a IH]; intros [|y b] L E; try discriminate; [auto|]. cbn in *. injection E as -> E. destruct (IH b ltac:(lia) E) as [-> ->]. auto. Qed.

(** The head of an encoding. *)
Lemma wl_head o x a : with_length o x = Some a -> exists h t, a = h :: t /\ o <= h <= o + 63.
Proof.
  unfold with_length. destruct (Z.ltb_spec (Z.of_nat (length x)) 56).
  - intros E. injection E as <-. eexists _, _. split; [reflexivity|lia].
  - destruct (Z.ltb_spec (Z.of_nat (length x)) (2 ^ 64)); [|discriminate]. intros E. injection E as <-. eexists _, _. split; [reflexivity|].
    assert (L : (length (BE (Z.of_nat (length x))) <= 8)%nat) by (apply BE_length; change (256 ^ Z.of_nat 8) with (2 ^ 64); lia). lia.
Qed.
Lemma wl_inj o x y a b u v : with_length o x = Some a -> with_length o y = Some b -> a ++ u = b ++ v -> x = y /\ u = v.
Proof.
  unfold with_length. intros Ea Eb E.
  assert (LB : forall z : list Z, Z.of_nat (length z) < 56 \/ 56 <= Z.of_nat (length z) -> Z.of_nat (length z) < 2 ^ 64 -> 56 <= Z.of_nat (length z) -> (1 <= length (BE (Z.of_nat (length z))))%nat).
  { intros z _ _ H. apply BE_length_pos. lia. }
  destruct (Z.ltb_spec (Z.of_nat (length x)) 56) as [X|X], (Z.ltb_spec (Z.of_nat (length y)) 56) as [Y|Y].
  - injection Ea as <-. injection Eb as <-. cbn [app] in E. injection E as L E. apply app_split in E; [exact E|lia].
  - destruct (Z.ltb_spec (Z.of_nat (length y)) (2 ^ 64)) as [Y'|]; [|discriminate]. injection Ea as <-. injection Eb as <-. cbn [app] in E. injection E as L E. pose proof (LB y ltac:(lia) Y' Y). lia.
  - destruct (Z.ltb_spec (Z.of_nat (length x)) (2 ^ 64)) as [X'|]; [|discriminate]. injection Ea as <-. injection Eb as <-. cbn [app] in E. injection E as L E. pose proof (LB x ltac:(lia) X' X). lia.
  - destruct (Z.ltb_spec (Z.of_nat (length x)) (2 ^ 64)) as [X'|]; [|discriminate]. destruct (Z.ltb_spec (Z.of_nat (length y)) (2 ^ 64)) as [Y'|]; [|discriminate].
    injection Ea as <-. injection Eb as <-. cbn [app] in E. injection E as L E. rewrite <- !app_assoc in E. apply app_split in E; [|lia]. destruct E as [B E].
    assert (N : Z.of_nat (length x) = Z.of_nat (length y)) by (rewrite <- (be_val_BE (Z.of_nat (length x))), <- (be_val_BE (Z.of_nat (length y))), B by lia; reflexivity).
    apply app_split in E; [exact E|lia].
Qed.
Lemma rb_head x a : bytes x -> R_b x = Some a -> exists h t, a = h :: t /\ 0 <= h < 192.
Proof.
  intros Hb. unfold R_b. assert (G : with_length 128 x = Some a -> exists h t, a = h :: t /\ 0 <= h < 192).
  { intros E. destruct (wl_head _ _ _ E) as (h & t & -> & H). exists h, t. split; [reflexivity|lia]. }
  destruct x as [|b [|c x]]; try exact G. destruct (Z.ltb_spec b 128); [|exact G]. intros E. injection E as <-.
  exists b, []. split; [reflexivity|]. inversion Hb as [|? ? B]. unfold byte in B. lia.
Qed.
Lemma rb_inj x y a b u v : bytes x -> bytes y -> R_b x = Some a -> R_b y = Some b -> a ++ u = b ++ v -> x = y /\ u = v.
Proof.
  intros Hx Hy Ea Eb E.
  assert (S : forall z c, R_b z = Some c -> (exists d, z = [d] /\ d < 128 /\ c = [d]) \/ (with_length 128 z = Some c)).
  { intros z c. unfold R_b. destruct z as [|d [|d' z]]; auto. destruct (Z.ltb_spec d 128); auto. intros K. injection K as <-. left. eauto. }
  destruct (S _ _ Ea) as [(d & -> & Hd & ->)|Wa], (S _ _ Eb) as [(d' & -> & Hd' & ->)|Wb].
  - cbn [app] in E. injection E as -> ->. auto.
  - destruct (wl_head _ _ _ Wb) as (h & t & -> & H). cbn [app] in E. injection E as -> _. lia.
  - destruct (wl_head _ _ _ Wa) as (h & t & -> & H). cbn [app] in E. injection E as -> _. lia.
  - eapply wl_inj; eassumption.
Qed.
Lemma rlp_head i a : item_bytes i -> RLP i = Some a -> exists h t, a = h :: t /\ match i with Str _ => 0 <= h < 192 | Lst _ => 192 <= h end.
Proof.
  destruct i as [b|l]; intros Hb E.
  - destruct (rb_head b a Hb E) as (h & t & -> & H). eauto.
  - rewrite RLP_Lst in E. destruct (RLPs l) as [x|]; [|discriminate]. destruct (wl_head _ _ _ E) as (h & t & -> & H). exists h, t. split; [reflexivity|lia].
Qed.

Fixpoint isize (i : item) : nat := match i with Str _ => 1%nat | Lst l => S ((fix go (l : list item) : nat := match l with [] => O | i :: l' => (isize i + go l')%nat end) l) end.
Fixpoint lsize (l : list item) : nat := match l with [] => O | i :: l' => (isize i + lsize l')%nat end.
Lemma isize_Lst l : isize (Lst l) = S (lsize l). Proof. cbn. f_equal. Qed.
Lemma isize_pos i : (1 <= isize i)%nat. Proof. destruct i; cbn; lia. Qed.

Lemma rlp_inj_aux N : forall i j a b u v, (isize i <= N)%nat -> item_bytes i -> item_bytes j -> RLP i = Some a -> RLP j = Some b -> a ++ u = b ++ v -> i = j /\ u = v.
Proof.
  induction N as [|N IH]; intros i j a b u v HN Hi Hj Ea Eb E; [pose proof (isize_pos i); lia|].
  destruct i as [x|l], j as [y|l'].
  - destruct (rb_inj x y a b u v Hi Hj Ea Eb E) as [-> ->]. auto.
  - exfalso. destruct (rlp_head _ _ Hi Ea) as (h & t & -> & H). destruct (rlp_head _ _ Hj Eb) as (h' & t' & -> & H'). cbn [app] in E. injection E as -> _. lia.
  - exfalso. destruct (rlp_head _ _ Hi Ea) as (h & t & -> & H). destruct (rlp_head _ _ Hj Eb) as (h' & t' & -> & H'). cbn [app] in E. injection E as -> _. lia.
  - rewrite isize_Lst in HN. rewrite RLP_Lst in Ea, Eb. destruct (RLPs l) as [x|] eqn:Ex; [|discriminate]. destruct (RLPs l') as [y|] eqn:Ey; [|discriminate].
    destruct (wl_inj _ _ _ _ _ _ _ Ea Eb E) as [-> ->]. split; [|reflexivity]. f_equal. apply item_bytes_Lst in Hi. apply item_bytes_Lst in Hj.
    clear Ea Eb E. revert l' y Ex Ey Hj. induction l as [|i l IHl]; intros [|j l'] y Ex Ey Hj; cbn [RLPs lsize] in *.
    + reflexivity.
    + injection Ex as <-. destruct (RLP j) as [b'|] eqn:Ej; [|discriminate]. inversion Hj as [|? ? J1 J2]; subst. destruct (rlp_head _ _ J1 Ej) as (h & t & -> & _). destruct (RLPs l'); discriminate.
    + injection Ey as <-. destruct (RLP i) as [b'|] eqn:Ei; [|discriminate]. inversion Hi as [|? ? J1 J2]; subst. destruct (rlp_head _ _ J1 Ei) as (h & t & -> & _). destruct (RLPs l); discriminate.
    + destruct (RLP i) as [a'|] eqn:Ei; [|discriminate]. destruct (RLPs l) as [c|] eqn:El; [|discriminate]. injection Ex as EX.
      destruct (RLP j) as [b'|] eqn:Ej; [|discriminate]. destruct (RLPs l') as [d|] eqn:El'; [|discriminate]. injection Ey as EY.
      inversion Hi as [|? ? I1 I2]; subst. inversion Hj as [|? ? J1 J2]; subst.
      destruct (IH i j a' b' c d ltac:(lia) I1 J1 Ei Ej ltac:(congruence)) as [-> ->]. f_equal. apply (IHl ltac:(lia) I2 l' d eq_refl El' J2).
Qed.
Lemma rlp_inj i j a u b v : item_bytes i -> item_bytes j -> RLP i = Some a -> RLP j = Some b -> a ++ u = b ++ v -> i = j /\ u = v.
Proof. intros. eapply rlp_inj_aux; eauto. Qed.
Lemma rlp_injective i j a : item_bytes i -> item_bytes j -> RLP i = Some a -> RLP j = Some a -> i = j.
Proof. intros Hi Hj Ei Ej. now apply (rlp_inj i j a [] a []). Qed.

(** Payloads. *)
Section WithCfg.
Context {cfg : digit_cfg}.
Lemma BE_inj a b : 0 <= a -> 0 <= b -> BE a = BE b -> a = b.
Proof. intros Ha Hb E. rewrite <- (be_val_BE a Ha), <- (be_val_BE b Hb). now rewrite E. Qed.
Lemma map_Str_inj (l l' : list (list Z)) : map Str l = map Str l' -> l = l'.
Proof. revert l'. induction l as [|x l IH]; intros [|y l'] E; try discriminate; [reflexivity|]. cbn in E. injection E as -> E. f_equal. now apply IH. Qed.
Lemma access_inj l l' : access l = access l' -> l = l'.
Proof.
  unfold access. intros E. injection E as E. revert l' E. induction l as [|x l IH]; intros [|y l'] E; try discriminate; [reflexivity|]. cbn [map] in E.
  injection E as E1 E2 E3. destruct x as [a k], y as [a' k']. cbn in *. apply map_Str_inj in E2. subst. f_equal. now apply IH.
Qed.

Lemma preimage_determines p q m : payload_ok p -> payload_ok q -> PREIMAGE p = Some m -> PREIMAGE q = Some m -> payload_same p q.
Proof.
  assert (HD : forall l l' s s', item_bytes (Lst l) -> RLP (Lst l) = Some s -> option_map (cons l') s' = Some s -> 0 <= l' < 192 -> False).
  { intros l l' s s' Hb E1 E2 R. destruct (rlp_head _ _ Hb E1) as (h & t & -> & H). destruct s'; [|discriminate]. cbn in E2. injection E2 as -> _. lia. }
  assert (H1 : forall i j k k' s, item_bytes i -> item_bytes j -> option_map (cons k) (RLP i) = Some s -> option_map (cons k') (RLP j) = Some s -> k = k' /\ i = j).
  { intros i j k k' s Hi Hj Ei Ej. destruct (RLP i) as [a|] eqn:A; [|discriminate]. destruct (RLP j) as [b|] eqn:B; [|discriminate]. cbn in Ei, Ej. injection Ei as <-. injection Ej as -> ->.
    split; [reflexivity|]. eapply rlp_injective; eauto. }
  intros Hp Hq Ep Eq.
  destruct p as [p|p|p|p], q as [q|q|q|q]; cbn [PREIMAGE payload_ok payload_same] in *;
    try (exfalso; first
      [ refine (HD _ _ _ _ _ Ep Eq _); [first [exact (payload_legacy_bytes p Hp)|exact (payload_155_bytes p Hp)]|lia]
      | refine (HD _ _ _ _ _ Eq Ep _); [first [exact (payload_legacy_bytes q Hq)|exact (payload_155_bytes q Hq)]|lia] ]).
  - pose proof (rlp_injective _ _ _ (payload_legacy_bytes p Hp) (payload_legacy_bytes q Hq) Ep Eq) as E. unfold signed_item_legacy, items_legacy, num, big in E. injection E as E1 E2 E3 E4 E5 E6.
    destruct Hp as ([P1 _] & [_ P2] & [P3 _] & _ & [_ P5] & _), Hq as ([Q1 _] & [W2 Q2] & [Q3 _] & _ & [W5 Q5] & _).
    apply BE_inj in E1, E2, E3, E5; try assumption. unfold payload_same_legacy, same_int. auto 10.
  - pose proof (rlp_injective _ _ _ (payload_legacy_bytes p Hp) (payload_155_bytes q Hq) Ep Eq) as E. discriminate.
  - pose proof (rlp_injective _ _ _ (payload_155_bytes p Hp) (payload_legacy_bytes q Hq) Ep Eq) as E. discriminate.
  - pose proof (rlp_injective _ _ _ (payload_155_bytes p Hp) (payload_155_bytes q Hq) Ep Eq) as E. unfold signed_item_155, items_155, num, big in E. cbn [app] in E. injection E as E1 E2 E3 E4 E5 E6 E7.
    destruct Hp as ([_ P7] & [P1 _] & [_ P2] & [P3 _] & _ & [_ P5] & _), Hq as ([W7 Q7] & [Q1 _] & [W2 Q2] & [Q3 _] & _ & [W5 Q5] & _).
    apply BE_inj in E1, E2, E3, E5, E7; try assumption. unfold payload_same_but_chain_155, same_int. auto 12.
  - destruct (H1 _ _ _ _ _ (payload_2930_bytes p Hp) (payload_2930_bytes q Hq) Ep Eq) as [_ E]. unfold signed_item_2930, items_2930, num, big in E. injection E as E0 E1 E2 E3 E4 E5 E6 E7.
    destruct Hp as ([_ P0] & [P1 _] & [_ P2] & [P3 _] & _ & [_ P5] & _), Hq as ([W0 Q0] & [Q1 _] & [W2 Q2] & [Q3 _] & _ & [W5 Q5] & _).
    apply BE_inj in E0, E1, E2, E3, E5; try assumption. assert (E8 : access (p2930_access_list p) = access (p2930_access_list q)) by (unfold access; now rewrite E7). apply access_inj in E8. unfold payload_same_2930, same_int. auto 12.
  - destruct (H1 _ _ _ _ _ (payload_2930_bytes p Hp) (payload_1559_bytes q Hq) Ep Eq) as [K _]. discriminate.
  - destruct (H1 _ _ _ _ _ (payload_1559_bytes p Hp) (payload_2930_bytes q Hq) Ep Eq) as [K _]. discriminate.
  - destruct (H1 _ _ _ _ _ (payload_1559_bytes p Hp) (payload_1559_bytes q Hq) Ep Eq) as [_ E]. unfold signed_item_1559, items_1559, num, big in E. injection E as E0 E1 E2 E3 E3' E4 E5 E6 E7.
    destruct Hp as ([_ P0] & [P1 _] & [_ P2] & [_ P2'] & [P3 _] & _ & [_ P5] & _), Hq as ([W0 Q0] & [Q1 _] & [W2 Q2] & [W2' Q2'] & [Q3 _] & _ & [W5 Q5] & _).
    apply BE_inj in E0, E1, E2, E3, E3', E5; try assumption. assert (E8 : access (p1559_access_list p) = access (p1559_access_list q)) by (unfold access; now rewrite E7). apply access_inj in E8. unfold payload_same_1559, same_int. auto 14.
Qed.
Lemma same_preimage p q : payload_same p q -> PREIMAGE p = PREIMAGE q.
Proof.
  destruct p as [p|p|p|p], q as [q|q|q|q]; cbn [PREIMAGE payload_same]; try contradiction.
  - intros (E1 & (_ & E2) & E3 & E4 & (_ & E5) & E6). unfold signed_item_legacy, items_legacy, big. now rewrite E1, E2, E3, E4, E5, E6.
  - intros ((E1 & (_ & E2) & E3 & E4 & (_ & E5) & E6) & (_ & E7)). unfold signed_item_155, items_155, big. now rewrite E1, E2, E3, E4, E5, E6, E7.
  - intros ((_ & E0) & E1 & (_ & E2) & E3 & E4 & (_ & E5) & E6 & E7). unfold signed_item_2930, items_2930, big. now rewrite E0, E1, E2, E3, E4, E5, E6, E7.
  - intros ((_ & E0) & E1 & (_ & E2) & (_ & E3) & E3' & E4 & (_ & E5) & E6 & E7). unfold signed_item_1559, items_1559, big. now rewrite E0, E1, E2, E3, E3', E4, E5, E6, E7.
Qed.
Lemma preimage_iff p q m m' : payload_ok p -> payload_ok q -> PREIMAGE p = Some m -> PREIMAGE q = Some m' -> (m = m' <-> payload_same p q).
Proof. intros Hp Hq Ep Eq. split; [intros <-; now apply (preimage_determines p q m)|]. intros S. apply same_preimage in S. congruence. Qed.
End WithCfg.
Lemma encode_prefix_free i j a b u v : item_bytes i -> item_bytes j -> RLP i <> None -> RLP j <> None ->
  encode encode_tree i = Ret a -> encode encode_tree j = Ret b -> a ++ u = b ++ v -> i = j /\ u = v.
Proof.
  intros Hi Hj Ni Nj Ea Eb. destruct (RLP i) as [a'|] eqn:Ri; [|congruence]. destruct (RLP j) as [b'|] eqn:Rj; [|congruence].
  unfold encode in *. rewrite (encode_tree_spec i a' _ Ri) in Ea. rewrite (encode_tree_spec j b' _ Rj) in Eb. cbn in Ea, Eb. injection Ea as <-. injection Eb as <-. now apply rlp_inj.
Qed.

(** The same payment on two chains. *)
Definition payload_on (c : Z) : payload :=
  P155 {| p155_chain_id := mkBig [c] 1 Positive; p155_nonce := 9; p155_gas_price := mkBig [66] 1 Positive; p155_gas_limit := 21000;
          p155_destination := repeat 7 20; p155_amount := mkBig [1] 1 Positive; p155_data := [] |}.
Lemma payload_on_ok : forall cfg : digit_cfg, payload_ok (payload_on 1) /\ payload_ok (payload_on 5) /\ ~ payload_same (payload_on 1) (payload_on 5) /\
  exists m m', PREIMAGE (payload_on 1) = Some m /\ PREIMAGE (payload_on 5) = Some m' /\ length m = 32%nat.
Proof.
  assert (B : forall (cfg : digit_cfg) n, 0 <= n < 256 -> big_ok (mkBig [n] 1 Positive)).
  { intros cfg n H. split; [|cbn; lia]. apply P_BigProp.wf_b_ok. unfold P_BigProp.wf_b. cbn. destruct cfg; cbn; rewrite !andb_true_r; (apply andb_true_iff; split; [apply Z.leb_le|apply Z.ltb_lt]); unfold digit_base; cbn; lia. }
  assert (K : forall (cfg : digit_cfg) c, 0 <= c < 256 -> payload_ok (payload_on c)).
  { intros cfg c H. cbn. unfold payload_ok_155. cbn. split; [now apply B|]. split; [unfold nonce_ok; lia|]. split; [apply B; lia|]. split; [unfold u64_ok; lia|].
    split; [split; [repeat constructor; unfold byte; lia|reflexivity]|]. split; [apply B; lia|constructor]. }
  intros cfg. split; [apply K; lia|]. split; [apply K; lia|]. split.
  - cbn. intros (_ & _ & E). destruct cfg; discriminate.
  - destruct cfg; eexists _, _; (split; [vm_compute; reflexivity|]; split; [vm_compute; reflexivity|reflexivity]).
Qed.

(** Proofs about RLP: lists, trees, acceptance. *)

From Verif Require Import Base M_BigInt M_BigText M_Rlp S_BigInt S_Rlp P_BigInt3 P_BigInt4 P_Rlp.
Open Scope Z_scope.

Definition over (data : list Z) : Prop := exists pre suf, data = pre ++ suf /\ overflowing_header suf.

Lemma over_app_l a b : over b -> over (a ++ b).
Proof. intros (p & s & -> & H). exists (a ++ p), s. now rewrite app_assoc. Qed.
Lemma over_app_r a b : over a -> over (a ++ b).
Proof.
  intros (p & s & -> & (x & l & rest & H1 & H2 & H3 & ->)). exists p, (x :: l ++ (rest ++ b)).
  split; [cbn [app]; rewrite <- !app_assoc; cbn [app]; now rewrite <- app_assoc|].
  exists x, l, (rest ++ b). auto.
Qed.

Inductive reads_all : list Z -> list decoding_item -> Prop :=
| ra_nil : reads_all [] []
| ra_cons data t p r ds : reads data t p r -> reads_all r ds -> reads_all data ((t, p) :: ds).

Lemma reads_shape data t p r : reads data t p r ->
  (length r < length data)%nat /\ (t = List -> (length p < length data)%nat) /\
  (bytes data -> bytes p /\ bytes r) /\ data <> [] /\ (over p -> over data) /\ (over r -> over data) /\
  (length p <= length data)%nat.
Proof.
  destruct 1 as [b r Hb|t h p r H].
  - cbn [length]. split; [lia|]. split; [discriminate|].
    split; [intros X; inversion X; subst; split; [constructor; [assumption|constructor]|assumption]|].
    split; [discriminate|]. split; [intros X; now apply (over_app_r [b] r)|].
    split; [intros X; now apply (over_app_l [b] r)|]. lia.
  - apply header_length in H. rewrite !app_length.
    split; [lia|]. split; [lia|]. split; [intros X; apply Forall_app in X; destruct X as [_ X]; now apply Forall_app in X|].
    split; [intros X; apply (f_equal (@length Z)) in X; rewrite app_length in X; cbn [length] in X; lia|].
    split; [intros X; now apply over_app_l, over_app_r|]. split; [intros X; now apply over_app_l, over_app_l|]. lia.
Qed.

Lemma list_loop_ok dbg data ds : reads_all data ds -> Z.of_nat (length data) < 2 ^ 63 ->
  forall fuel acc, (length data < fuel)%nat -> decode_list_loop dbg fuel data acc = Ret (Ok (acc ++ ds)).
Proof.
  induction 1 as [|data t p r ds R RA IH]; intros Hlen fuel acc Hf; (destruct fuel as [|fuel]; [lia|]).
  - cbn [decode_list_loop]. now rewrite app_nil_r.
  - destruct (reads_shape _ _ _ _ R) as (L1 & _). rewrite (list_step dbg fuel data acc t p r R Hlen).
    rewrite IH by lia. now rewrite <- app_assoc.
Qed.

Lemma list_loop_inv dbg fuel : forall data acc, bytes data -> Z.of_nat (length data) < 2 ^ 63 -> (length data < fuel)%nat ->
  (exists ds, decode_list_loop dbg fuel data acc = Ret (Ok (acc ++ ds)) /\ reads_all data ds) \/
  decode_list_loop dbg fuel data acc = Ret (Err InvalidFormat) \/
  (decode_list_loop dbg fuel data acc = Panic /\ over data).
Proof.
  induction fuel as [|fuel IH]; intros data acc Hb Hlen Hf; [lia|].
  destruct data as [|x y] eqn:E.
  - left. exists []. split; [cbn [decode_list_loop]; now rewrite app_nil_r|constructor].
  - rewrite <- E in *. assert (Hne : data <> []) by (rewrite E; discriminate). clear E x y.
    destruct (list_step_inv dbg fuel data acc Hb Hlen Hne) as [(t & p & r & R & ->)|[H|[H O]]].
    + destruct (reads_shape _ _ _ _ R) as (L1 & _ & B & _ & O1 & O2 & L2). destruct (B Hb) as [B1 B2].
      destruct (IH r (acc ++ [(t, p)]) B2 ltac:(lia) ltac:(lia)) as [(ds & -> & RA)|[H|[H O]]].
      * left. exists ((t, p) :: ds). rewrite <- app_assoc. split; [reflexivity|]. econstructor; eassumption.
      * auto.
      * right. right. auto.
    + auto.
    + right. right. split; [exact H|]. exists [], data. auto.
Qed.

Lemma decode_list_ok dbg data ds : reads_all data ds -> Z.of_nat (length data) < 2 ^ 63 ->
  decode_list_payload dbg data = Ret (Ok ds).
Proof. intros. unfold decode_list_payload. rewrite (list_loop_ok dbg data ds) by (auto; lia). reflexivity. Qed.
Lemma decode_list_inv dbg data : bytes data -> Z.of_nat (length data) < 2 ^ 63 ->
  (exists ds, decode_list_payload dbg data = Ret (Ok ds) /\ reads_all data ds) \/
  decode_list_payload dbg data = Ret (Err InvalidFormat) \/
  (decode_list_payload dbg data = Panic /\ over data).
Proof.
  intros Hb Hlen. unfold decode_list_payload.
  destruct (list_loop_inv dbg (S (length data)) data [] Hb Hlen ltac:(lia)) as [(ds & -> & R)|[->|[-> O]]]; eauto.
Qed.

(** ** Trees *)
Definition node (i : item) (d : decoding_item) : Prop :=
  match i with
  | Str b => d = (SingleValue, b)
  | Lst l => fst d = List /\ lax_items l (snd d)
  end.

Lemma lax_iff i data : bytes data -> lax_rlp i data <-> exists d, reads data (fst d) (snd d) [] /\ node i d.
Proof.
  intros Hb. split.
  - destruct 1 as [b Hb'|h x Hh Hx|h l x Hh Hl].
    + exists (SingleValue, [b]). split; [now constructor|reflexivity].
    + exists (SingleValue, x). split; [|reflexivity]. cbn [fst snd]. rewrite <- (app_nil_r x) at 1. now constructor.
    + exists (List, x). split; [|split; [reflexivity|exact Hl]]. cbn [fst snd]. rewrite <- (app_nil_r x) at 1. now constructor.
  - intros ((t & p) & R & N). cbn [fst snd] in *. inversion R as [b r Hb'|t' h p' r H]; subst.
    + destruct i as [b'|l]; cbn [node] in N; [|destruct N; discriminate]. injection N as <-. now constructor.
    + rewrite app_nil_r in *. apply Forall_app in Hb. destruct Hb as [_ Hp].
      destruct i as [b'|l]; cbn [node fst snd] in N.
      * injection N as -> <-. now constructor.
      * destruct N as [-> N]. now constructor.
Qed.
Lemma lax_items_iff l x : bytes x -> lax_items l x <-> exists ds, reads_all x ds /\ Forall2 node l ds.
Proof.
  intros Hb. split.
  - revert x Hb. induction l as [|i l IH]; intros x Hb H; inversion H as [|i' x1 l' y H1 H2]; subst.
    + exists []. split; constructor.
    + apply Forall_app in Hb. destruct Hb as [B1 B2]. destruct (IH y B2 H2) as (ds & RA & F).
      apply (lax_iff i x1 B1) in H1. destruct H1 as ((t & p) & R & N). cbn [fst snd] in R.
      exists ((t, p) :: ds). split; [|now constructor]. econstructor; [|exact RA].
      inversion R as [b r Hb'|t' h p' r Hh]; subst; [now constructor|]. rewrite app_nil_r, <- app_assoc. now constructor.
  - intros (ds & RA & F). revert x Hb RA. induction F as [|i d l ds N F IH]; intros x Hb RA; inversion RA as [|data t p r ds' R RA']; subst; [constructor|].
    destruct (reads_shape _ _ _ _ R) as (_ & _ & B & _). destruct (B Hb) as [B1 B2].
    inversion R as [b r' Hb'|t' h p' r' Hh]; subst.
    + apply (lax_cons i [b] l r); [|auto]. apply lax_iff; [exact B1|].
      exists (SingleValue, [b]). split; [now constructor|exact N].
    + rewrite app_assoc. apply lax_cons; [|auto]. apply lax_iff; [rewrite app_assoc in Hb; now apply Forall_app in Hb|].
      exists (t, p). split; [|exact N]. cbn [fst snd]. rewrite <- (app_nil_r p) at 1. now constructor.
Qed.

Definition fuel_ok (d : decoding_item) (fuel : nat) : Prop :=
  (1 <= fuel)%nat /\ (fst d = List -> (length (snd d) < fuel)%nat).

Lemma reads_all_shape x ds : reads_all x ds -> bytes x -> forall fuel, (length x < S fuel)%nat ->
  Forall (fun d => bytes (snd d) /\ (length (snd d) <= length x)%nat /\ fuel_ok d fuel /\ (over (snd d) -> over x)) ds.
Proof.
  induction 1 as [|x t p r ds R RA IH]; intros Hb fuel Hf; constructor.
  - destruct (reads_shape _ _ _ _ R) as (L1 & L2 & B & Hne & O1 & O2 & L3). destruct (B Hb). unfold fuel_ok. cbn [fst snd].
    assert (1 <= length x)%nat by (destruct x; [congruence|cbn [length]; lia]).
    split; [assumption|]. split; [lia|]. split; [|assumption]. split; [lia|].
    intros ->. specialize (L2 eq_refl). lia.
  - destruct (reads_shape _ _ _ _ R) as (L1 & L2 & B & Hne & O1 & O2 & L3). destruct (B Hb).
    eapply Forall_impl; [|apply (IH ltac:(assumption) fuel); lia]. intros d (X1 & X2 & X3 & X4). repeat split; auto; try lia; apply X3.
Qed.

Lemma tree_complete dbg i : forall d fuel, node i d -> bytes (snd d) -> Z.of_nat (length (snd d)) < 2 ^ 63 -> fuel_ok d fuel ->
  decode_tree dbg fuel d = Ret (Ok i).
Proof.
  induction i as [b|l IH] using item_rect'; intros [t p] fuel N Hb Hlen [F1 F2]; cbn [node fst snd] in *; (destruct fuel as [|fuel]; [lia|]).
  - injection N as -> ->. reflexivity.
  - destruct N as [-> N]. specialize (F2 eq_refl). apply lax_items_iff in N; [|assumption].
    destruct N as (ds & RA & F). cbn [decode_tree fst]. unfold decode_as_items. cbn [fst snd item_type_eqb negb].
    rewrite (decode_list_ok dbg p ds RA Hlen). cbn [rbind].
    pose proof (reads_all_shape p ds RA Hb fuel ltac:(lia)) as Sh. clear RA F2.
    assert (G : decode_all (decode_tree dbg fuel) ds = Ret (Ok l)).
    { induction F as [|i d l ds N F IHF]; [reflexivity|]. inversion IH as [|? ? IHi IHl]; subst.
      inversion Sh as [|? ? (S1 & S2 & S3 & _) Sh']; subst. cbn [decode_all].
      rewrite (IHi d fuel N S1 ltac:(lia) S3). cbn [rbind]. rewrite (IHF IHl Sh'). reflexivity. }
    rewrite G. reflexivity.
Qed.

Lemma tree_sound dbg fuel : forall d, bytes (snd d) -> Z.of_nat (length (snd d)) < 2 ^ 63 -> fuel_ok d fuel ->
  (exists i, decode_tree dbg fuel d = Ret (Ok i) /\ node i d) \/
  decode_tree dbg fuel d = Ret (Err InvalidFormat) \/
  (decode_tree dbg fuel d = Panic /\ over (snd d)).
Proof.
  induction fuel as [|fuel IH]; intros [t p] Hb Hlen [F1 F2]; cbn [fst snd] in *; [lia|].
  cbn [decode_tree fst]. destruct t.
  - left. exists (Str p). split; reflexivity.
  - specialize (F2 eq_refl). unfold decode_as_items. cbn [fst snd item_type_eqb negb].
    destruct (decode_list_inv dbg p Hb Hlen) as [(ds & -> & RA)|[->|[-> O]]]; cbn [rbind]; [|auto|auto].
    pose proof (reads_all_shape p ds RA Hb fuel ltac:(lia)) as Sh.
    assert (G : (exists l, decode_all (decode_tree dbg fuel) ds = Ret (Ok l) /\ Forall2 node l ds) \/
                decode_all (decode_tree dbg fuel) ds = Ret (Err InvalidFormat) \/
                (decode_all (decode_tree dbg fuel) ds = Panic /\ over p)).
    { clear RA. induction ds as [|d ds IHd]; [left; exists []; split; [reflexivity|constructor]|].
      inversion Sh as [|? ? (S1 & S2 & S3 & S4) Sh']; subst. cbn [decode_all].
      destruct (IH d S1 ltac:(lia) S3) as [(i & -> & N)|[->|[-> O]]]; cbn [rbind]; [|auto|auto].
      destruct (IHd Sh') as [(l & -> & F)|[->|[-> O]]]; cbn [rbind]; [|auto|auto].
      left. exists (i :: l). split; [reflexivity|now constructor]. }
    destruct G as [(l & -> & F)|[->|[-> O]]]; cbn [rbind]; [|auto|auto].
    left. exists (Lst l). split; [reflexivity|]. split; [reflexivity|]. cbn [snd]. apply lax_items_iff; [assumption|]. eauto.
Qed.

Lemma reads_end_shape data d : reads data (fst d) (snd d) [] -> bytes data -> fuel_ok d (S (length data)) /\ bytes (snd d) /\ (length (snd d) <= length data)%nat /\ (over (snd d) -> over data).
Proof.
  intros R Hb. destruct (reads_shape _ _ _ _ R) as (L1 & L2 & B & Hne & O1 & O2 & L3). destruct (B Hb).
  repeat split; auto; lia.
Qed.

(** decoding a tree, completely *)
Lemma decode_complete dbg i data : lax_rlp i data -> bytes data -> Z.of_nat (length data) < 2 ^ 63 ->
  decode dbg (decode_tree dbg (S (length data))) data = Ret (Ok i).
Proof.
  intros L Hb Hlen. apply lax_iff in L; [|assumption]. destruct L as (d & R & N).
  destruct (reads_end_shape data d R Hb) as (F & B & L & _).
  unfold decode, new_from_data. rewrite (decode_data_ok dbg data _ _ R Hlen). cbn [rbind].
  rewrite <- surjective_pairing. now apply tree_complete; try lia.
Qed.
Lemma decode_sound dbg data : bytes data -> Z.of_nat (length data) < 2 ^ 63 ->
  (exists i, decode dbg (decode_tree dbg (S (length data))) data = Ret (Ok i) /\ lax_rlp i data) \/
  decode dbg (decode_tree dbg (S (length data))) data = Ret (Err InvalidFormat) \/
  (decode dbg (decode_tree dbg (S (length data))) data = Panic /\ over data).
Proof.
  intros Hb Hlen. unfold decode, new_from_data.
  destruct (decode_data_inv dbg data Hb Hlen) as [(t & p & -> & R)|[->|(-> & _ & O)]]; cbn [rbind].
  - destruct (reads_end_shape data (t, p) R Hb) as (F & B & L & O). cbn [snd] in *.
    destruct (tree_sound dbg (S (length data)) (t, p) B ltac:(cbn [snd]; lia) F) as [(i & -> & N)|[->|[-> O']]].
    + left. exists i. split; [reflexivity|]. apply lax_iff; [assumption|]. exists (t, p). auto.
    + auto.
    + right. right. split; [reflexivity|]. apply O. exact O'.
  - auto.
  - right. right. split; [reflexivity|]. exists [], data. auto.
Qed.

(** ** RLP is accepted *)
Lemma with_length_header o t x e : (o = 128 /\ t = SingleValue \/ o = 192 /\ t = List) -> with_length o x = Some e ->
  exists h, e = h ++ x /\ header t h (Z.of_nat (length x)).
Proof.
  intros Ho. unfold with_length. destruct (Z.ltb_spec (Z.of_nat (length x)) 56).
  - intros [= <-]. exists [o + Z.of_nat (length x)]. split; [reflexivity|].
    destruct Ho as [[-> ->]|[-> ->]]; constructor; lia.
  - destruct (Z.ltb_spec (Z.of_nat (length x)) (2 ^ 64)); [|discriminate]. intros [= <-].
    set (n := Z.of_nat (length x)) in *. exists ((o + 55 + Z.of_nat (length (BE n))) :: BE n). split; [reflexivity|].
    assert (L : (length (BE n) <= 8)%nat) by (apply BE_length; change (256 ^ Z.of_nat 8) with (2 ^ 64); lia).
    pose proof (BE_length_pos n ltac:(lia)).
    assert (E : n = be_val (BE n)) by (rewrite be_val_BE; lia).
    assert (G : forall l, bytes l -> (1 <= length l <= 8)%nat -> header t ((o + 55 + Z.of_nat (length l)) :: l) (be_val l)).
    { destruct Ho as [[-> ->]|[-> ->]]; intros; now constructor. }
    specialize (G (BE n) (BE_bytes n) ltac:(lia)). rewrite <- E in G. exact G.
Qed.
Lemma R_b_reads x e : bytes x -> R_b x = Some e -> reads e SingleValue x [].
Proof.
  intros Hb H. assert (D : (exists b, x = [b] /\ b < 128 /\ e = [b]) \/ with_length 128 x = Some e).
  { unfold R_b in H. destruct x as [|b [|? ?]]; auto. destruct (Z.ltb_spec b 128); auto. injection H as <-. left; eauto. }
  destruct D as [(b & -> & Hlt & ->)|D].
  - inversion Hb; subst. constructor. unfold byte in *. lia.
  - destruct (with_length_header 128 SingleValue x e ltac:(auto) D) as (h & -> & H').
    rewrite <- (app_nil_r x) at 1. now constructor.
Qed.
Lemma with_length_reads x e : with_length 192 x = Some e -> reads e List x [].
Proof.
  intros D. destruct (with_length_header 192 List x e ltac:(auto) D) as (h & -> & H').
  rewrite <- (app_nil_r x) at 1. now constructor.
Qed.
Lemma reads_app data t p r x : reads data t p r -> reads (data ++ x) t p (r ++ x).
Proof. destruct 1; cbn [app]; [now constructor|]. rewrite <- !app_assoc. now constructor. Qed.

Lemma RLP_lax i : forall e, item_bytes i -> RLP i = Some e -> lax_rlp i e.
Proof.
  induction i as [b|l IH] using item_rect'; intros e Hi H.
  - cbn [item_bytes RLP] in *. apply lax_iff; [now apply (R_b_bytes b)|]. exists (SingleValue, b).
    split; [now apply R_b_reads|reflexivity].
  - pose proof (RLP_bytes _ _ Hi H) as Hb. rewrite RLP_Lst in H. apply item_bytes_Lst in Hi.
    destruct (RLPs l) as [x|] eqn:E; [|discriminate]. apply lax_iff; [assumption|].
    exists (List, x). split; [now apply with_length_reads|]. split; [reflexivity|]. cbn [snd]. clear H Hb e.
    revert x E. induction l as [|i l IHl]; intros x E; cbn [RLPs] in E; [injection E as <-; constructor|].
    inversion IH as [|? ? IH1 IH2]; inversion Hi as [|? ? Hi1 Hi2]; subst.
    destruct (RLP i) as [a|] eqn:Ei; [|discriminate]. destruct (RLPs l) as [y|]; [|discriminate].
    injection E as <-. constructor; [now apply IH1|now apply IHl].
Qed.

Lemma with_length_len o x e : with_length o x = Some e -> (length x <= length e)%nat.
Proof.
  unfold with_length. destruct (_ <? 56); [intros [= <-]; cbn; lia|]. destruct (_ <? _); [|discriminate].
  intros [= <-]. cbn [length]. rewrite app_length. lia.
Qed.

Lemma tree_roundtrip dbg i e : item_bytes i -> RLP i = Some e -> Z.of_nat (length e) < 2 ^ 63 ->
  encode encode_tree i = Ret e /\
  decode dbg (decode_tree dbg (S (length e))) e = Ret (Ok i).
Proof.
  intros Hi H Hlen. split.
  - unfold encode. rewrite (encode_tree_spec i e enc_new H). reflexivity.
  - apply decode_complete; [now apply RLP_lax|now apply (RLP_bytes i)|assumption].
Qed.

(** ** Prefix-freeness *)
Lemma app_eq_length_eq {A} (a b c d : list A) : a ++ c = b ++ d -> length a = length b -> a = b /\ c = d.
Proof.
  revert b. induction a as [|x a IH]; intros [|y b] H L; cbn [length app] in *; try lia; [auto|].
  injection H as -> H. destruct (IH b H ltac:(lia)). subst. auto.
Qed.
Lemma header_det t h n t' h' n' r r' : header t h n -> header t' h' n' -> h ++ r = h' ++ r' -> t = t' /\ h = h' /\ n = n' /\ r = r'.
Proof.
  intros H H' E.
  assert (L : t = t' /\ length h = length h').
  { apply (f_equal (hd 0)) in E.
    destruct H as [n Hn|n Hn|l Hl Ll|l Hl Ll]; destruct H' as [n' Hn'|n' Hn'|l' Hl' Ll'|l' Hl' Ll']; cbn [app hd length] in *;
      first [exfalso; lia | split; [reflexivity|lia]]. }
  destruct L as [-> L]. destruct (app_eq_length_eq h h' r r' E L) as [-> ->].
  split; [reflexivity|]. split; [reflexivity|]. split; [|reflexivity].
  assert (F : forall t0 h0 n0, header t0 h0 n0 -> n0 = match h0 with [x] => if x <? 192 then x - 128 else x - 192 | _ :: l => be_val l | [] => 0 end).
  { clear. destruct 1 as [n Hn|n Hn|l Hl Ll|l Hl Ll].
    - destruct (Z.ltb_spec (128 + n) 192); lia.
    - destruct (Z.ltb_spec (192 + n) 192); lia.
    - destruct l; [cbn in Ll; lia|reflexivity].
    - destruct l; [cbn in Ll; lia|reflexivity]. }
  rewrite (F _ _ _ H), (F _ _ _ H'). reflexivity.
Qed.
Lemma header_first t h n : header t h n -> exists x y, h = x :: y /\ 128 <= x.
Proof. destruct 1; do 2 eexists; (split; [reflexivity|lia]). Qed.
Lemma reads_det data t p r t' p' r' x : reads data t p r -> reads (data ++ x) t' p' r' -> t = t' /\ p = p' /\ r' = r ++ x.
Proof.
  intros R R'. inversion R as [b r0 Hb|t0 h p0 r0 H]; subst; inversion R' as [b' r1 Hb'|t1 h' p1 r1 H' E]; subst.
  - auto.
  - exfalso. destruct (header_first _ _ _ H') as (y & z & -> & Hy). injection E as -> E. lia.
  - exfalso. destruct (header_first _ _ _ H) as (y & z & -> & Hy). cbn [app] in H0. injection H0 as -> E. lia.
  - rewrite <- !app_assoc in E. destruct (header_det _ _ _ _ _ _ _ _ H' H E) as (-> & -> & N & E2).
    destruct (app_eq_length_eq p' p _ _ E2 ltac:(lia)) as [-> ->]. auto.
Qed.

Lemma reads_not_over data t p x : reads data t p [] -> bytes (data ++ x) -> Z.of_nat (length data) < 2 ^ 63 ->
  ~ overflowing_header (data ++ x).
Proof.
  intros R Hb Hlen (b & l & rest & Hbl & L8 & Hv & E).
  assert (Bl : bytes l) by (rewrite E in Hb; inversion Hb as [|? ? _ Hb']; subst; now apply Forall_app in Hb').
  assert (Hh : exists t', header t' (b :: l) (be_val l)).
  { destruct Hbl as [-> | ->]; [exists SingleValue|exists List].
    - replace 191 with (183 + Z.of_nat (length l)) by lia. constructor; [assumption|lia].
    - replace 255 with (247 + Z.of_nat (length l)) by lia. constructor; [assumption|lia]. }
  destruct Hh as (t' & Hh). change (b :: l ++ rest) with ((b :: l) ++ rest) in E.
  inversion R as [b' r' Hb'|t0 h p' r' H]; subst.
  - cbn [app] in E. injection E as -> E. destruct Hbl; subst; lia.
  - rewrite app_nil_r in *. rewrite <- app_assoc in E.
    destruct (header_det _ _ _ _ _ _ _ _ H Hh E) as (_ & _ & N & _). rewrite app_length in Hlen. lia.
Qed.

Lemma decode_data_prefix_free dbg data x t p : bytes (data ++ x) -> Z.of_nat (length (data ++ x)) < 2 ^ 63 -> x <> [] ->
  decode_data dbg data = Ret (Ok (t, p)) -> decode_data dbg (data ++ x) = Ret (Err InvalidFormat).
Proof.
  intros Hb Hlen Hx H. pose proof Hb as Hb'. apply Forall_app in Hb'. destruct Hb' as [B1 B2].
  pose proof Hlen as Hlen'. rewrite app_length in Hlen'.
  destruct (decode_data_inv dbg data B1 ltac:(lia)) as [(t1 & p1 & E1 & R1)|[E1|(E1 & _)]]; rewrite H in E1; try discriminate.
  destruct (decode_data_inv dbg (data ++ x) Hb Hlen) as [(t2 & p2 & E2 & R2)|[E2|(E2 & D & O)]]; [exfalso| |exfalso].
  - destruct (reads_det _ _ _ _ _ _ _ x R1 R2) as (_ & _ & E). cbn [app] in E. congruence.
  - exact E2.
  - exact (reads_not_over data t1 p1 x R1 Hb ltac:(lia) O).
Qed.

Lemma decode_data_prefix dbg data x t p : bytes (data ++ x) -> Z.of_nat (length (data ++ x)) < 2 ^ 63 -> x <> [] ->
  decode_data dbg (data ++ x) = Ret (Ok (t, p)) -> decode_data dbg data = Ret (Err InvalidFormat).
Proof.
  intros Hb Hlen Hx H. pose proof Hb as Hb'. apply Forall_app in Hb'. destruct Hb' as [B1 B2].
  pose proof Hlen as Hlen'. rewrite app_length in Hlen'.
  destruct (decode_data_inv dbg (data ++ x) Hb Hlen) as [(t2 & p2 & E2 & R2)|[E2|(E2 & _)]]; rewrite H in E2; try discriminate.
  destruct (decode_data_inv dbg data B1 ltac:(lia)) as [(t1 & p1 & E1 & R1)|[E1|(E1 & _ & O)]]; [exfalso|exact E1|exfalso].
  - destruct (reads_det _ _ _ _ _ _ _ x R1 R2) as (_ & _ & E). cbn [app] in E. congruence.
  - destruct O as (b & l & rest & O1 & O2 & O3 & ->).
    apply (reads_not_over _ _ _ [] R2); [now rewrite app_nil_r|assumption|].
    rewrite app_nil_r. exists b, l, (rest ++ x). cbn [app]. rewrite <- app_assoc. auto.
Qed.

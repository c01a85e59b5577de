(** Proofs for C73: what hex conversion leaks. *)

From Coq Require Import String.
From Verif Require Import Base M_Codec M_Leak S_Codec S_Leak.
From Verif Require Import P_Codec.
Open Scope Z_scope.
Local Open Scope list_scope.

Lemma exec_app len ch v out p q : exec len ch v out (p ++ q) =
  match exec len ch v out p with
  | (Go v' out', tr) => let '(r, tr') := exec len ch v' out' q in (r, tr ++ tr')
  | (r, tr) => (r, tr)
  end.
Proof.
  revert v out. induction p as [|s p IH]; intros v out; cbn [exec app].
  - destruct (exec len ch v out q). reflexivity.
  - destruct (exec1 len ch v out s) as [[v' out'|e|] tr]; [|reflexivity..]. rewrite IH.
    destruct (exec len ch v' out' p) as [[v'' out''|e|] tr']; [|reflexivity..].
    destruct (exec len ch v'' out'' q). rewrite app_assoc. reflexivity.
Qed.

(** * Encoding *)
Definition NIB : list obs := snd (eval 0 [] [("x"%string, (I8, 0))] (nibble_expr "x")).
Lemma nibble_eval len ch v x n : lookup x v = Some (I8, n) -> 0 <= n < 16 ->
  eval len ch v (nibble_expr x) = (Some (U8, nibble_char n), NIB).
Proof.
  intros L R. unfold nibble_expr, i8. cbn [eval]. rewrite L. clear L.
  assert (H : forall m, (m < 16)%nat -> n = Z.of_nat m -> eval len ch v (ECast U8 (EBin OAdd (EBin OAdd (i8 87) (ELit I8 n)) (EBin OAnd (EBin OShr (EBin OSub (ELit I8 n) (i8 10)) (i8 7)) (i8 (-39)))))
    = (Some (U8, nibble_char n), NIB)).
  { intros m Hm ->. do 16 (destruct m as [|m]; [reflexivity|]). lia. }
  exact (H (Z.to_nat n) ltac:(lia) ltac:(lia)).
Qed.
Definition ENC (k : nat) : list obs :=
  ObIter :: [ObRead 0; ObOp (Some OAnd) U8; ObCast I8; ObRead 0; ObOp (Some OShr) U8; ObCast I8] ++ (NIB ++ [ObPush k]) ++ NIB ++ [ObPush (S k)].
Lemma byte_nibbles b : byte b -> wrap I8 (Z.land b 15) = Z.land b 15 /\ 0 <= Z.land b 15 < 16 /\ wrap I8 (Z.shiftr b 4) = Z.shiftr b 4 /\ 0 <= Z.shiftr b 4 < 16.
Proof.
  intros Hb. destruct (nibble_split b Hb) as [-> ->]. destruct Hb as [B0 B1].
  pose proof (Z.mod_pos_bound b 16 ltac:(lia)). assert (0 <= b / 16 < 16) by (split; [apply Z.div_pos; lia|apply Z.div_lt_upper_bound; lia]).
  unfold wrap. cbn [ity_low ity_size]. rewrite !Z.mod_small by lia. repeat split; lia.
Qed.
Lemma encode_chunk len b out : byte b ->
  exists v, exec len [b] [] out (f_body BYTES_TO_LOWER_HEX) =
    (Go v (out ++ [nibble_char (Z.shiftr b 4); nibble_char (Z.land b 15)]), tl (ENC (length out))).
Proof.
  intros Hb. destruct (byte_nibbles b Hb) as (E1 & R1 & E2 & R2). unfold BYTES_TO_LOWER_HEX, f_body.
  set (v1 := [("low_nibble"%string, (I8, Z.land b 15))]). set (v2 := ("high_nibble"%string, (I8, Z.shiftr b 4)) :: v1). exists v2.
  cbn [exec]. unfold exec1 at 1. unfold u8. cbn [eval nth_error ity_eqb checked binop_value]. rewrite E1. fold v1.
  unfold exec1 at 1. cbn [eval nth_error ity_eqb checked binop_value]. rewrite E2. fold v2.
  unfold exec1 at 1. rewrite (nibble_eval len [b] v2 "high_nibble" _ eq_refl R2).
  unfold exec1 at 1. rewrite (nibble_eval len [b] v2 "low_nibble" _ eq_refl R1).
  rewrite <- app_assoc, !app_length. cbn [length app]. rewrite Nat.add_1_r. unfold ENC. cbn [tl app].
  rewrite ?app_nil_r, <- ?app_assoc. reflexivity.
Qed.
Lemma chunks_one fuel l : (length l <= fuel)%nat -> chunks_exact fuel 1 l = map (fun b => [b]) l.
Proof.
  revert l. induction fuel as [|f IH]; intros [|b l] H; cbn [length] in H; try lia; [reflexivity..|].
  cbn. rewrite IH by lia. reflexivity.
Qed.
Fixpoint enc_trace (n k : nat) : list obs := match n with O => [] | S n' => ENC k ++ enc_trace n' (S (S k)) end.
Lemma encode_loop len bs : bytes bs -> forall out, exists v,
  loop len (f_body BYTES_TO_LOWER_HEX) (map (fun b => [b]) bs) out = (Go v (out ++ bytes_to_lower_hex bs), enc_trace (length bs) (length out)).
Proof.
  induction 1 as [|b bs Hb HH IH]; intros out; cbn [map loop].
  - exists []. cbn. rewrite app_nil_r. reflexivity.
  - destruct (encode_chunk len b out Hb) as [v ->]. destruct (IH (out ++ [nibble_char (Z.shiftr b 4); nibble_char (Z.land b 15)])) as [v' ->].
    exists v'. cbn [length enc_trace]. rewrite app_length. cbn [length]. rewrite <- app_assoc. rewrite (Nat.add_comm (length out) 2). cbn [Nat.add]. reflexivity.
Qed.
Definition enc_head (n : nat) : list obs := [ObOp (Some OMul) USIZE; ObCheck true; ObAlloc (Z.of_nat n * 2)].
Theorem encode_call bs : bytes bs -> Z.of_nat (length bs) < 2 ^ 63 ->
  call BYTES_TO_LOWER_HEX bs = (Ret (Ok (bytes_to_lower_hex bs)), enc_head (length bs) ++ enc_trace (length bs) 0).
Proof.
  intros Hb Hl. unfold call. change (f_head BYTES_TO_LOWER_HEX) with [SAlloc (EBin OMul ELen (us 2))].
  assert (R : in_range USIZE (Z.of_nat (length bs) * 2) = true).
  { unfold in_range. cbn [ity_low ity_size]. change (0 + 2 ^ 64) with (2 * 2 ^ 63). apply andb_true_intro. split; [apply Z.leb_le; lia|apply Z.ltb_lt; lia]. }
  cbn [exec]. unfold exec1, us. cbn [eval ity_eqb checked binop_value]. rewrite R.
  change (f_chunk BYTES_TO_LOWER_HEX) with 1%nat. rewrite chunks_one by reflexivity.
  destruct (encode_loop (Z.of_nat (length bs)) bs Hb []) as [v E]. rewrite E. reflexivity.
Qed.
Theorem encode_value bs : bytes bs -> Z.of_nat (length bs) < 2 ^ 63 -> fst (call BYTES_TO_LOWER_HEX bs) = Ret (Ok (bytes_to_lower_hex bs)).
Proof. intros A B. rewrite (encode_call bs A B). reflexivity. Qed.
Theorem encode_constant bs bs' : bytes bs -> bytes bs' -> Z.of_nat (length bs) < 2 ^ 63 -> length bs = length bs' ->
  snd (call BYTES_TO_LOWER_HEX bs) = snd (call BYTES_TO_LOWER_HEX bs').
Proof. intros A B C D. rewrite (encode_call bs A C), (encode_call bs' B) by (rewrite <- D; exact C). cbn [snd]. rewrite D. reflexivity. Qed.

(** * Decoding *)
Definition isNone {A} (o : option A) : bool := match o with None => true | Some _ => false end.
Definition CH (i : nat) (bad : bool) : list obs :=
  [ObRead i; ObCast U16; ObOp (Some OXor) U16; ObOp (Some OWrappingSub) U16; ObOp (Some OShr) U16; ObOp None U16; ObOp (Some OAnd) U16; ObOp (Some OWrappingSub) U16;
   ObOp (Some OWrappingSub) U16; ObOp (Some OWrappingSub) U16; ObOp (Some OXor) U16; ObOp (Some OShr) U16; ObOp (Some OOr) U16; ObTest bad] ++
  (if bad then [] else [ObOp (Some OAnd) U16; ObOp (Some OAnd) U16; ObOp (Some OOr) U16]).
Lemma wrap16 z : wrap U16 z = z mod 65536.
Proof. unfold wrap. cbn [ity_low ity_size]. rewrite Z.sub_0_r, Z.add_0_r. reflexivity. Qed.
Lemma wrap8 z : wrap U8 z = z mod 256.
Proof. unfold wrap. cbn [ity_low ity_size]. rewrite Z.sub_0_r, Z.add_0_r. reflexivity. Qed.
Lemma char_exec len ch v out i c : nth_error ch i = Some c -> byte c ->
  match hex_char c with
  | None => exec len ch v out (char_stmts i) = (Return InvalidCharFound, CH i true)
  | Some x => exists v' y, exec len ch v out (char_stmts i) = (Go v' out, CH i false) /\
      lookup "c_val" v' = Some (U16, y) /\ y mod 256 = x /\ lookup "c_acc" v' = lookup "c_acc" v
  end.
Proof.
  intros N B. unfold hex_char, char_stmts.
  unfold u16. cbn [exec]. unfold exec1. cbn [eval]. rewrite N.
  repeat (cbn [eval ity_eqb checked binop_value lookup String.eqb Ascii.eqb Bool.eqb exec]).
  assert (W : wrap U16 c = c) by (rewrite wrap16; apply Z.mod_small; unfold byte in B; lia). rewrite W.
  change (wrap U16 (Z.lnot 32)) with 65503. rewrite !wrap16. fold (wsub16 (Z.land c 65503) 55). fold (wsub16 (Z.lxor c 48) 10).
  fold (wsub16 (wsub16 (Z.land c 65503) 55) 10). fold (wsub16 (wsub16 (Z.land c 65503) 55) 16).
  set (c_num := Z.lxor c 48). set (c_num0 := Z.shiftr (wsub16 c_num 10) 8). set (c_alpha := wsub16 (Z.land c 65503) 55).
  set (c_alpha0 := Z.shiftr (Z.lxor (wsub16 c_alpha 10) (wsub16 c_alpha 16)) 8).
  destruct (Z.lor c_num0 c_alpha0 =? 0) eqn:E.
  - cbn. reflexivity.
  - eexists _, _. split; [reflexivity|]. cbn [lookup String.eqb Ascii.eqb Bool.eqb]. split; [reflexivity|]. split; reflexivity.
Qed.
Definition bad (c : Z) : bool := isNone (hex_char c).
Definition PAIR (h l : bool) (k : nat) : list obs :=
  CH 0 h ++ if h then [] else [ObCast U8; ObOp (Some OShl) U8] ++ CH 1 l ++ if l then [] else [ObCast U8; ObOp (Some OOr) U8; ObPush k].
Lemma decode_chunk len h l out : byte h -> byte l ->
  match hex_char h, hex_char l with
  | Some x, Some y => exists v, exec len [h; l] [] out (f_body HEX_TO_BYTES) = (Go v (out ++ [Z.lor ((x * 16) mod 256) y]), PAIR false false (length out))
  | _, _ => exec len [h; l] [] out (f_body HEX_TO_BYTES) = (Return InvalidCharFound, PAIR (bad h) (bad l) (length out))
  end.
Proof.
  intros Hh Hl. pose proof (char_exec len [h; l] [] out 0 h eq_refl Hh) as A. unfold bad.
  remember (exec len [h; l] [] out (f_body HEX_TO_BYTES)) as X eqn:EX.
  change (f_body HEX_TO_BYTES) with (char_stmts 0 ++ SLet "c_acc" (EBin OShl (ECast U8 (EVar "c_val")) (u8 4)) :: (char_stmts 1 ++
    [SLet "c_acc" (EBin OOr (EVar "c_acc") (ECast U8 (EVar "c_val"))); SPush (EVar "c_acc")])) in EX.
  rewrite exec_app in EX. destruct (hex_char h) as [x|]; [|rewrite A in EX; exact EX].
  destruct A as (v1 & y1 & E1 & L1 & M1 & _). rewrite E1 in EX. cbn [exec] in EX. unfold exec1 at 1, u8 in EX. cbn [eval] in EX. rewrite L1 in EX.
  cbn [ity_eqb checked binop_value] in EX.
  set (acc := wrap U8 (Z.shiftl (wrap U8 y1) 4)) in EX. set (v2 := ("c_acc"%string, (U8, acc)) :: v1) in EX.
  pose proof (char_exec len [h; l] v2 out 1 l eq_refl Hl) as B. rewrite exec_app in EX.
  destruct (hex_char l) as [y|]; [|rewrite B in EX; exact EX].
  destruct B as (v3 & y2 & E3 & L2 & M2 & A2). rewrite E3 in EX. cbn [exec] in EX. unfold exec1 at 1 in EX. cbn [eval] in EX. rewrite A2, L2 in EX.
  change (lookup "c_acc" v2) with (Some (U8, acc)) in EX. cbn [ity_eqb checked binop_value] in EX.
  unfold exec1 at 1 in EX. cbn [eval lookup String.eqb Ascii.eqb Bool.eqb] in EX. eexists.
  assert (V : Z.lor acc (wrap U8 y2) = Z.lor ((x * 16) mod 256) y).
  { unfold acc. rewrite !wrap8, M1, M2. rewrite Z.shiftl_mul_pow2 by lia. reflexivity. }
  rewrite V in EX. exact EX.
Qed.
Lemma chunks_two fuel h l r : chunks_exact (S (S fuel)) 2 (h :: l :: r) = [h; l] :: chunks_exact (S fuel) 2 r.
Proof. reflexivity. Qed.
Lemma chunks_fuel f l : (length l <= f)%nat -> forall g, (length l <= g)%nat -> chunks_exact f 2 l = chunks_exact g 2 l.
Proof.
  revert l. induction f as [|f IH]; intros l Hf g Hg.
  - destruct l; [|cbn in Hf; lia]. destruct g; reflexivity.
  - destruct g as [|g]; [destruct l; [reflexivity|cbn in Hg; lia]|]. cbn [chunks_exact].
    destruct l as [|a [|b l]]; [reflexivity..|]. cbn [length Nat.ltb Nat.leb firstn skipn] in *. f_equal. apply IH; lia.
Qed.
Fixpoint dec_trace (s : list Z) (k : nat) : list obs :=
  match s with
  | h :: l :: r => ObIter :: PAIR (bad h) (bad l) k ++ if bad h || bad l then [] else dec_trace r (S k)
  | _ => []
  end.
Definition to_flow (out : list Z) (r : result codecs_error (list Z)) (f : flow) : Prop :=
  match r with Ok bs => exists v, f = Go v (out ++ bs) | Err e => f = Return e end.
Lemma decode_loop len s : bytes s -> Nat.even (length s) = true -> forall out,
  exists f, loop len (f_body HEX_TO_BYTES) (chunks_exact (length s) 2 s) out = (f, dec_trace s (length out)) /\ to_flow out (hex_pairs s) f.
Proof.
  intros B E. revert B. revert s E. apply (even_ind (fun s => bytes s -> forall out, exists f, loop len (f_body HEX_TO_BYTES) (chunks_exact (length s) 2 s) out = (f, dec_trace s (length out)) /\ to_flow out (hex_pairs s) f)).
  - intros _ out. exists (Go [] out). split; [reflexivity|]. exists []. rewrite app_nil_r. reflexivity.
  - intros h l r IH B out. inversion B as [|? ? Hh B1]; subst. inversion B1 as [|? ? Hl B2]; subst. cbn [length]. rewrite chunks_two.
    rewrite (chunks_fuel (S (length r)) r ltac:(lia) (length r) ltac:(lia)). cbn [loop].
    pose proof (decode_chunk len h l out Hh Hl) as C. cbn [dec_trace hex_pairs]. destruct (hex_char h) as [x|] eqn:Xh; [destruct (hex_char l) as [y|] eqn:Xl|].
    + destruct C as [v ->]. destruct (IH B2 (out ++ [Z.lor ((x * 16) mod 256) y])) as (f & -> & F). exists f. split.
      * unfold bad. rewrite Xh, Xl. cbn [isNone orb]. rewrite app_length, Nat.add_1_r. reflexivity.
      * unfold to_flow in *. destruct (hex_pairs r) as [bs|e]; [|exact F]. destruct F as [v' ->]. exists v'. rewrite <- app_assoc. reflexivity.
    + rewrite C. exists (Return InvalidCharFound). split; [|reflexivity]. unfold bad. rewrite Xh, Xl. cbn [isNone orb]. rewrite app_nil_r. reflexivity.
    + rewrite C. exists (Return InvalidCharFound). split; [|reflexivity]. unfold bad. rewrite Xh. cbn [isNone orb]. rewrite app_nil_r. reflexivity.
Qed.
Definition dec_head (s : list Z) : list obs :=
  [ObOp (Some OAnd) USIZE; ObTest (Nat.even (length s))] ++
  if Nat.even (length s) then [ObOp (Some ODiv) USIZE; ObAlloc (Z.of_nat (length s) / 2)] else [].
Theorem decode_call s : bytes s ->
  call HEX_TO_BYTES s = (Ret (hex_to_bytes s), dec_head s ++ if Nat.even (length s) then dec_trace s 0 else []).
Proof.
  intros B. unfold call, hex_to_bytes.
  change (f_head HEX_TO_BYTES) with [SErrUnless (EBin OAnd ELen (us 1)) 0 NotByteAligned; SAlloc (EBin ODiv ELen (us 2))].
  cbn [exec]. unfold exec1, us. cbn [eval ity_eqb checked binop_value]. unfold dec_head.
  pose proof (len_even_land s) as L. destruct (Z.land (Z.of_nat (length s)) 1 =? 0); rewrite <- L; cbn [negb].
  - change (f_chunk HEX_TO_BYTES) with 2%nat. destruct (decode_loop (Z.of_nat (length s)) s B (eq_sym L) []) as (f & -> & F).
    f_equal. unfold to_flow in F. destruct (hex_pairs s) as [bs|e]; [destruct F as [v ->]|rewrite F]; reflexivity.
  - reflexivity.
Qed.
Theorem decode_value s : bytes s -> fst (call HEX_TO_BYTES s) = Ret (hex_to_bytes s).
Proof. intros B. rewrite (decode_call s B). reflexivity. Qed.

(** What can be read off a trace: the number of tests which failed, and whether one succeeded *)
Definition fails (t : list obs) : nat := length (filter (fun x => match x with ObTest false => true | _ => false end) t).
Definition hits (t : list obs) : nat := length (filter (fun x => match x with ObTest true => true | _ => false end) t).
Lemma fails_app t u : fails (t ++ u) = (fails t + fails u)%nat.
Proof. unfold fails. rewrite filter_app, app_length. reflexivity. Qed.
Lemma hits_app t u : hits (t ++ u) = (hits t + hits u)%nat.
Proof. unfold hits. rewrite filter_app, app_length. reflexivity. Qed.
Lemma bad_first c s : byte c -> first_bad (c :: s) = if bad c then Some O else match first_bad s with Some i => Some (S i) | None => None end.
Proof.
  intros B. unfold bad. rewrite (hex_char_spec c B). unfold hex_value. cbn [first_bad].
  destruct (alnum_value c) as [v|]; [|reflexivity]. destruct (v <? 16); reflexivity.
Qed.
Lemma trace_first s : Nat.even (length s) = true -> bytes s -> forall k,
  match first_bad s with
  | Some i => hits (dec_trace s k) = 1%nat /\ fails (dec_trace s k) = i
  | None => hits (dec_trace s k) = O
  end.
Proof.
  revert s. apply (even_ind (fun s => bytes s -> forall k, match first_bad s with Some i => hits (dec_trace s k) = 1%nat /\ fails (dec_trace s k) = i | None => hits (dec_trace s k) = O end)).
  - intros _ k. reflexivity.
  - intros h l r IH B k. inversion B as [|? ? Hh B1]; subst. inversion B1 as [|? ? Hl B2]; subst.
    rewrite (bad_first h _ Hh), (bad_first l _ Hl). cbn [dec_trace]. specialize (IH B2 (S k)).
    destruct (bad h); cbn [orb]; [split; reflexivity|]. destruct (bad l); [split; reflexivity|].
    match goal with |- context [dec_trace r ?n] => set (T := dec_trace r n) in * end.
    change (ObIter :: PAIR false false k ++ T) with ((ObIter :: PAIR false false k) ++ T). rewrite hits_app, fails_app.
    change (hits (ObIter :: PAIR false false k)) with O. change (fails (ObIter :: PAIR false false k)) with 2%nat.
    destruct (first_bad r) as [i|]; [destruct IH as [-> ->]; split; reflexivity|rewrite IH; reflexivity].
Qed.
Lemma trace_same s : Nat.even (length s) = true -> forall s', bytes s -> bytes s' -> length s = length s' -> first_bad s = first_bad s' ->
  forall k, dec_trace s k = dec_trace s' k.
Proof.
  revert s. apply (even_ind (fun s => forall s', bytes s -> bytes s' -> length s = length s' -> first_bad s = first_bad s' -> forall k, dec_trace s k = dec_trace s' k)).
  - intros [|? ?] _ _ L _ k; [reflexivity|discriminate].
  - intros h l r IH s' B B' L F k. destruct s' as [|h' [|l' r']]; cbn [length] in L; try lia.
    inversion B as [|? ? Hh B1]; subst. inversion B1 as [|? ? Hl B2]; subst.
    inversion B' as [|? ? Hh' B1']; subst. inversion B1' as [|? ? Hl' B2']; subst.
    rewrite (bad_first h _ Hh), (bad_first l _ Hl), (bad_first h' _ Hh'), (bad_first l' _ Hl') in F. cbn [dec_trace].
    destruct (bad h), (bad h'), (bad l), (bad l'); cbn [orb] in *;
      destruct (first_bad r) eqn:Fr; destruct (first_bad r') eqn:Fr'; try discriminate F; try reflexivity;
      f_equal; f_equal; apply IH; try assumption; try lia; congruence.
Qed.
Theorem decode_leaks s s' : bytes s -> bytes s' ->
  (snd (call HEX_TO_BYTES s) = snd (call HEX_TO_BYTES s') <->
   Nat.even (length s) = false /\ Nat.even (length s') = false \/
   Nat.even (length s) = true /\ length s = length s' /\ first_bad s = first_bad s').
Proof.
  intros B B'. rewrite (decode_call s B), (decode_call s' B'). cbn [snd]. unfold dec_head.
  destruct (Nat.even (length s)) eqn:E, (Nat.even (length s')) eqn:E'; cbn [app].
  - split.
    + intros H. injection H as HL HT. right. split; [reflexivity|]. split.
      * apply Nat.even_spec in E as [m Em]. apply Nat.even_spec in E' as [m' Em'].
        rewrite Em, Em', !Nat2Z.inj_mul, !(Z.mul_comm (Z.of_nat 2)) in HL. change (Z.of_nat 2) with 2 in HL. rewrite !Z.div_mul in HL by lia. lia.
      * pose proof (trace_first s E B 0) as T. pose proof (trace_first s' E' B' 0) as T'. rewrite HT in T.
        destruct (first_bad s), (first_bad s'); [f_equal; lia|lia|lia|reflexivity].
    + intros [[? _]|(_ & L & F)]; [discriminate|]. rewrite L. rewrite (trace_same s E s' B B' L F 0). reflexivity.
  - split; [discriminate|]. intros [[? _]|(_ & L & _)]; [discriminate|]. rewrite L in E. congruence.
  - split; [discriminate|]. intros [[_ ?]|(? & _)]; discriminate.
  - split; [|reflexivity]. auto.
Qed.
Lemma first_bad_digits s vs : digits_of 16 s vs -> first_bad s = None.
Proof.
  induction 1 as [|c v s vs [A V] H IH]; [reflexivity|]. cbn [first_bad]. rewrite A. destruct (Z.ltb_spec v 16); [|lia]. rewrite IH. reflexivity.
Qed.
Theorem decode_constant s s' vs vs' : digits_of 16 s vs -> digits_of 16 s' vs' -> length s = length s' ->
  snd (call HEX_TO_BYTES s) = snd (call HEX_TO_BYTES s').
Proof.
  intros H H' L. assert (BB : forall s vs, digits_of 16 s vs -> bytes s).
  { clear. induction 1 as [|c v s vs [A V] H IH]; constructor; [|exact IH]. unfold byte. unfold alnum_value in A.
    destruct ((48 <=? c) && (c <=? 57))%bool eqn:E1; [lia|]. destruct ((65 <=? c) && (c <=? 90))%bool eqn:E2; [lia|].
    destruct ((97 <=? c) && (c <=? 122))%bool eqn:E3; [lia|discriminate]. }
  apply decode_leaks; [eapply BB; eassumption..|]. destruct (Nat.even (length s)) eqn:E; [right|left].
  - split; [reflexivity|]. split; [exact L|]. rewrite (first_bad_digits s vs H), (first_bad_digits s' vs' H'). reflexivity.
  - rewrite <- L. auto.
Qed.

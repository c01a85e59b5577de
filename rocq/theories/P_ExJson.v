(** Proofs about examples/ethereum/rlp_decoder.rs: the text is a JSON document of the tree, and no other tree has it. *)

From Coq Require Import String.
From Verif Require Import Base M_Codec M_BigInt M_Rlp M_Tx M_TxSign M_Display M_Examples S_Codec S_Rlp S_Tx S_Eoa S_Display S_Examples.
From Verif Require Import P_BigInt3 P_Codec P_Rlp P_Rlp2 P_RlpNorm P_Display P_Examples.
Open Scope Z_scope.
Local Open Scope list_scope.

Fixpoint json_of (i : item) : json :=
  match i with Str b => JString (txt "0x" ++ bytes_to_lower_hex b) | Lst l => JArray (map json_of l) end.
Definition res_json (r : result RlpDataDecodingError item) : result RlpDataDecodingError json := match r with Ok i => Ok (json_of i) | Err e => Err e end.
Lemma all_json (f : decoding_item -> outcome (result RlpDataDecodingError item)) (g : decoding_item -> outcome (result RlpDataDecodingError json)) :
  (forall d, g d = r <- f d ;; Ret (res_json r)) ->
  forall ds, decode_all g ds = r <- decode_all f ds ;; Ret (match r with Ok l => Ok (map json_of l) | Err e => Err e end).
Proof.
  intros H. induction ds as [|d ds IH]; [reflexivity|]. cbn [decode_all]. rewrite H, IH.
  destruct (f d) as [[v|e]| |]; cbn [obind rbind res_json]; try reflexivity.
  destruct (decode_all f ds) as [[l|e]| |]; reflexivity.
Qed.
Lemma json_tree dbg f : forall d, decode_json dbg f d = r <- decode_tree dbg f d ;; Ret (res_json r).
Proof.
  induction f as [|f IH]; intros d; [reflexivity|]. cbn [decode_json decode_tree]. destruct (fst d) eqn:T.
  - unfold decode_as_bytes. rewrite T. reflexivity.
  - unfold decode_vec. rewrite T. cbn [item_type_eqb]. rewrite orb_true_r. cbn [oassert].
    destruct (decode_as_items dbg d) as [[ds|e]| |]; cbn [rbind obind res_json]; try reflexivity.
    rewrite (all_json _ _ IH). destruct (decode_all (decode_tree dbg f) ds) as [[l|e]| |]; reflexivity.
Qed.
Lemma decode_json_tree dbg f data : decode dbg (decode_json dbg f) data = r <- decode dbg (decode_tree dbg f) data ;; Ret (res_json r).
Proof.
  unfold decode. destruct (new_from_data dbg data) as [[d|e]| |]; cbn [rbind obind res_json]; try reflexivity. apply json_tree.
Qed.

(** ** The text is a document of the tree *)
Lemma indent_ws n : ws (json_indent n).
Proof. unfold json_indent. constructor; [lia|]. induction n as [|n IH]; cbn [repeat concat app]; [constructor|]. constructor; [lia|]. constructor; [lia|]. exact IH. Qed.
Lemma ws_nil : ws []. Proof. constructor. Qed.
Lemma pretty_text i : item_bytes i -> forall n, json_text i (pretty n (json_of i)).
Proof.
  induction i as [b|l IH] using item_rect'; intros B n.
  - cbn [json_of pretty]. rewrite hex_is by exact B. cbn [item_bytes] in B. replace (34 :: (txt "0x" ++ hex b) ++ [34]) with (34 :: ascii "0x" ++ hex b ++ [34]) by (rewrite <- app_assoc; reflexivity).
    now constructor.
  - apply item_bytes_Lst in B. cbn [json_of]. destruct l as [|i0 l]; cbn [map pretty]; [apply (jt_empty []); constructor|].
    inversion IH as [|? ? I0 I1]; subst. inversion B as [|? ? B0 B1]; subst.
    assert (G : forall i, json_text i (pretty (S n) (json_of i)) -> forall w, ws w ->
      json_elements (i :: l) (w ++ pretty (S n) (json_of i) ++ flat_map (fun v => 44 :: json_indent (S n) ++ pretty (S n) v) (map json_of l) ++ json_indent n)).
    { clear I0 B0 i0 IH B. induction I1 as [|j l J0 J1 IHl]; intros i Hi w W.
      - cbn [map flat_map app]. apply je_last; [exact W|exact Hi|apply indent_ws].
      - inversion B1 as [|? ? B2 B3]; subst. cbn [map flat_map]. specialize (IHl B3 j (J0 B2 (S n)) (json_indent (S n)) (indent_ws (S n))).
        replace ((44 :: json_indent (S n) ++ pretty (S n) (json_of j)) ++ flat_map (fun v => 44 :: json_indent (S n) ++ pretty (S n) v) (map json_of l))
          with (ascii "," ++ json_indent (S n) ++ pretty (S n) (json_of j) ++ flat_map (fun v => 44 :: json_indent (S n) ++ pretty (S n) v) (map json_of l))
          by (cbn [ascii map list_ascii_of_string app]; rewrite <- !app_assoc; reflexivity).
        pose proof (je_more i w (pretty (S n) (json_of i)) [] (j :: l) _ W Hi ws_nil IHl) as K. cbn [app] in K. rewrite <- !app_assoc in *. exact K. }
    specialize (G i0 (I0 B0 (S n)) (json_indent (S n)) (indent_ws (S n))). apply jt_array in G. change (ascii "[") with [91] in G. change (ascii "]") with [93] in G.
    cbn [app] in G. rewrite <- !app_assoc in G. exact G.
Qed.

(** ** No other tree has it *)
Scheme json_text_mind := Minimality for json_text Sort Prop with json_elements_mind := Minimality for json_elements Sort Prop.
Definition blank (c : Z) : Prop := c = 32 \/ c = 9 \/ c = 10 \/ c = 13.
Lemma ws_cut w w' c c' r r' : ws w -> ws w' -> ~ blank c -> ~ blank c' -> w ++ c :: r = w' ++ c' :: r' -> w = w' /\ c = c' /\ r = r'.
Proof.
  intros W W' N N'. revert w' W'. induction W as [|x w X W IH]; intros [|y w'] W' E; cbn [app] in E.
  - injection E as -> ->. auto.
  - injection E as -> _. inversion W' as [|? ? Y _]; subst. contradiction.
  - injection E as -> _. contradiction.
  - injection E as -> E. inversion W'; subst. destruct (IH w' ltac:(assumption) E) as (-> & -> & ->). auto.
Qed.
Lemma text_head i t : json_text i t -> exists c u, t = c :: u /\ (c = 34 \/ c = 91).
Proof. intros H. destruct H; cbn [ascii map list_ascii_of_string app]; eexists; eexists; (split; [reflexivity|cbn; auto]). Qed.
Lemma head_solid c : c = 34 \/ c = 91 \/ c = 93 \/ c = 44 -> ~ blank c.
Proof. unfold blank. lia. Qed.
Lemma hex_quote b : bytes b -> ~ In 34 (hex b).
Proof. intros B. apply hex_not_in; [lia|exact B]. Qed.
Lemma elements_head l t : json_elements l t -> exists w c u, t = w ++ c :: u /\ ws w /\ (c = 34 \/ c = 91).
Proof.
  intros H. destruct H as [i w t w' W T W'|i w t w' l u W T W' L]; destruct (text_head _ _ T) as (c & v & -> & C); exists w, c; (eexists; split; [|split; [exact W|exact C]]); cbn [app]; reflexivity.
Qed.
Lemma json_cut : forall i t, json_text i t -> forall j u r r', json_text j u -> t ++ r = u ++ r' -> i = j /\ r = r'.
Proof.
  apply (json_text_mind (fun i t => forall j u r r', json_text j u -> t ++ r = u ++ r' -> i = j /\ r = r')
    (fun l t => forall m u r r', json_elements m u -> t ++ 93 :: r = u ++ 93 :: r' -> l = m /\ r = r')).
  - intros b B j u r r' H E. destruct H as [b' B'|w' W'|m t' M]; cbn [ascii map list_ascii_of_string app] in E; try discriminate E.
    injection E as E. rewrite <- !app_assoc in E. cbn [app] in E. apply cut in E; [|now apply hex_quote|now apply hex_quote]. destruct E as [E ->].
    apply hex_inj in E; [|assumption|assumption]. now subst.
  - intros w W j u r r' H E. destruct H as [b' B'|w' W'|m t' M]; cbn [ascii map list_ascii_of_string app] in E; try discriminate E.
    + injection E as E. rewrite <- !app_assoc in E. cbn [app] in E. apply ws_cut in E; [|assumption|assumption|apply head_solid; cbn; auto|apply head_solid; cbn; auto].
      destruct E as (_ & _ & ->). auto.
    + injection E as E. destruct (elements_head _ _ M) as (v & c & x & -> & V & C). rewrite <- !app_assoc in E. cbn [app] in E.
      apply ws_cut in E; [|assumption|assumption|apply head_solid; cbn; auto|apply head_solid; tauto]. destruct E as (_ & E & _). cbn in E. lia.
  - intros l t L IH j u r r' H E. destruct H as [b' B'|w' W'|m t' M]; cbn [ascii map list_ascii_of_string app] in E; try discriminate E.
    + injection E as E. destruct (elements_head _ _ L) as (v & c & x & -> & V & C). rewrite <- !app_assoc in E. cbn [app] in E.
      apply ws_cut in E; [|assumption|assumption|apply head_solid; tauto|apply head_solid; cbn; auto]. destruct E as (_ & E & _). cbn in E. lia.
    + injection E as E. rewrite <- !app_assoc in E. destruct (IH m t' r r' M E) as [-> ->]. auto.
  - intros i w t w' W T IH W' m u r r' H E.
    destruct H as [j v x v' V X V'|j v x v' m y V X V' M]; destruct (text_head _ _ T) as (c & z & -> & C); destruct (text_head _ _ X) as (c' & z' & -> & C');
      rewrite <- !app_assoc in E; cbn [app] in E; apply ws_cut in E; try assumption; try (apply head_solid; tauto); destruct E as (-> & -> & E).
    + destruct (IH j (c' :: z') (w' ++ 93 :: r) (v' ++ 93 :: r') X) as [-> E']; [cbn [app]; f_equal; exact E|].
      apply ws_cut in E'; try assumption; try (apply head_solid; tauto). destruct E' as (_ & _ & ->). auto.
    + destruct (IH j (c' :: z') (w' ++ 93 :: r) (v' ++ (44 :: y) ++ 93 :: r') X) as [-> E']; [cbn [app]; f_equal; exact E|].
      cbn [app] in E'. apply ws_cut in E'; try assumption; try (apply head_solid; tauto). destruct E' as (_ & E' & _). discriminate E'.
  - intros i w t w' l u' W T IH W' L IHl m u r r' H E.
    destruct H as [j v x v' V X V'|j v x v' m y V X V' M]; destruct (text_head _ _ T) as (c & z & -> & C); destruct (text_head _ _ X) as (c' & z' & -> & C');
      rewrite <- !app_assoc in E; cbn [app] in E; apply ws_cut in E; try assumption; try (apply head_solid; tauto); destruct E as (-> & -> & E).
    + destruct (IH j (c' :: z') (w' ++ (44 :: u') ++ 93 :: r) (v' ++ 93 :: r') X) as [-> E']; [cbn [app]; f_equal; exact E|].
      cbn [app] in E'. apply ws_cut in E'; try assumption; try (apply head_solid; tauto). destruct E' as (_ & E' & _). discriminate E'.
    + destruct (IH j (c' :: z') (w' ++ (44 :: u') ++ 93 :: r) (v' ++ (44 :: y) ++ 93 :: r') X) as [-> E']; [cbn [app]; f_equal; exact E|].
      cbn [app] in E'. apply ws_cut in E'; try assumption; try (apply head_solid; tauto). destruct E' as (_ & _ & E').
      destruct (IHl m y r r' M E') as [-> ->]. auto.
Qed.
Lemma json_unique i j t : json_text i t -> json_text j t -> i = j.
Proof. intros H K. now destruct (json_cut i t H j t [] [] K eq_refl). Qed.

(** ** The program *)
Section Prog.
Variable dbg : bool.
Lemma rlp_decoder_tree arg i data : given arg data -> Z.of_nat (length data) < 2 ^ 63 -> lax_rlp i data ->
  exists t, rlp_decoder dbg arg = Ret (t ++ newline) /\ json_text i t.
Proof.
  intros G L X. destruct (given_decode _ _ G) as (s & -> & E & B). exists (pretty 0 (json_of i)). split; [|apply pretty_text, (lax_item_bytes i data X B)].
  unfold rlp_decoder. cbn [unwrap obind]. rewrite E, decode_json_tree, (decode_complete dbg i data X B L). reflexivity.
Qed.
Lemma rlp_decoder_not arg data : given arg data -> Z.of_nat (length data) < 2 ^ 63 -> (forall i, ~ lax_rlp i data) ->
  rlp_decoder dbg arg = Ret (ascii "Decoding failed: Invalid format" ++ newline) \/ rlp_decoder dbg arg = Panic /\ over data.
Proof.
  intros G L N. destruct (given_decode _ _ G) as (s & -> & E & B). unfold rlp_decoder. cbn [unwrap obind]. rewrite E, decode_json_tree.
  destruct (decode_sound dbg data B L) as [(i & _ & X)|[->|[-> O]]]; [now destruct (N i)|left|right]; [reflexivity|split; [reflexivity|exact O]].
Qed.
Lemma pairs_error n : forall s e, (length s <= n)%nat -> Nat.even (length s) = true -> hex_pairs s = Err e -> e = InvalidCharFound.
Proof.
  induction n as [|n IH]; intros [|h [|l s]] e L V E; cbn [length] in *; try discriminate; try lia. cbn [hex_pairs] in E.
  destruct (hex_char h); [|congruence]. destruct (hex_char l); [|congruence]. destruct (hex_pairs s) eqn:P; [discriminate|]. injection E as <-.
  apply (IH s e0); [lia|exact V|exact P].
Qed.
Lemma rlp_decoder_nohex s t : bytes s -> (forall data, ~ given (Some s) data) ->
  s = ascii "0x" ++ t \/ (forall u, s <> ascii "0x" ++ u) /\ s = t ->
  rlp_decoder dbg (Some s) = Ret (ascii "invalid hex input: " ++ (if Nat.even (length t) then ascii "Invalid char found" else ascii "Not 1-byte aligned") ++ newline).
Proof.
  intros B N H. assert (E0 : strip_0x s = t).
  { destruct H as [->|[H ->]]; [apply strip_0x_cons|]. apply strip_no. intros r E. apply (H r). exact E. }
  unfold rlp_decoder. cbn [unwrap obind]. destruct (hex_to_bytes (strip_0x s)) as [bs|e] eqn:E.
  - destruct (N bs). now apply decode_given.
  - rewrite E0 in E. pose proof E as E'. unfold hex_to_bytes in E. rewrite len_even_land in E. destruct (Nat.even (length t)) eqn:V; cbn [negb] in E.
    + assert (e = InvalidCharFound) as -> by (apply (pairs_error (length t) t e); [lia|exact V|exact E]). unfold println, newline. rewrite <- app_assoc. reflexivity.
    + injection E as <-. unfold println, newline. rewrite <- app_assoc. reflexivity.
Qed.
End Prog.

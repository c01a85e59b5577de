(** Debug and release builds, continued: ECDSA, encodings, RLP and transactions. The RLP decoder has a flag of its own for its checks. *)

From Verif Require Import Base M_Codec M_Loop M_BigInt M_BigText M_Gcd M_Modular M_Curve M_Parity M_Hmac M_Random M_Ecdsa M_Rfc6979 M_Encoding M_Rlp M_EthTypes M_Eoa M_Tx M_TxSign M_Display
  S_Release P_Release.
Open Scope Z_scope.
Local Notation "f ~ g" := (follows f g) (at level 70).

Section Ends.
Context {cfg : digit_cfg}.
Lemma hash_bits_en D : ends (bl <- bit_len (d_order D) ;; Ret (bl mod 8 =? 0)). Proof. en. Qed.
End Ends.

Section Ecdsa.
Context {cfg : digit_cfg}.
Local Notation rel := (release cfg).
Lemma in_range_fo v n : @in_range cfg v n ~ @in_range rel v n. Proof. unfold in_range. fo. Qed.
#[local] Hint Resolve in_range_fo : fo.
Lemma private_key_new_fo x D : @private_key_new cfg x D ~ @private_key_new rel x D. Proof. unfold private_key_new. fo. Qed.
#[local] Hint Resolve private_key_new_fo : fo.
Lemma public_key_new_fo x D : @public_key_new cfg x D ~ @public_key_new rel x D. Proof. unfold public_key_new. fo. Qed.
#[local] Hint Resolve public_key_new_fo : fo.
Lemma public_key_of_fo k : @public_key_of cfg k ~ @public_key_of rel k. Proof. unfold public_key_of. fo. Qed.
#[local] Hint Resolve public_key_of_fo : fo.
Lemma signature_new_fo r s D : @signature_new cfg r s D ~ @signature_new rel r s D. Proof. unfold signature_new. fo. Qed.
#[local] Hint Resolve signature_new_fo : fo.
Lemma is_low_s_signature_fo s : @is_low_s_signature cfg s ~ @is_low_s_signature rel s. Proof. unfold is_low_s_signature. fo. Qed.
#[local] Hint Resolve is_low_s_signature_fo : fo.
Lemma hash_fits_fo h D : @hash_fits cfg h D ~ @hash_fits rel h D. Proof. unfold hash_fits. fo. Qed.
#[local] Hint Resolve hash_fits_fo : fo.
Lemma sk_sign_fo k h n : @sk_sign cfg k h n ~ @sk_sign rel k h n. Proof. unfold sk_sign. fo. Qed.
#[local] Hint Resolve sk_sign_fo : fo.
Lemma pk_verify_fo k h s : @pk_verify cfg k h s ~ @pk_verify rel k h s. Proof. unfold pk_verify. fo. Qed.
#[local] Hint Resolve pk_verify_fo : fo.
Lemma hash_length_matches_fo l D : @hash_length_matches cfg l D ~ @hash_length_matches rel l D. Proof. unfold hash_length_matches. fo. Qed.
#[local] Hint Resolve hash_length_matches_fo : fo.
Lemma from_be_bytes_max_fo b m : @from_be_bytes_max cfg b m ~ @from_be_bytes_max rel b m. Proof. unfold from_be_bytes_max. fo. Qed.
#[local] Hint Resolve from_be_bytes_max_fo : fo.
Lemma verify_with_options_fo h s k o : @verify_with_options cfg h s k o ~ @verify_with_options rel h s k o. Proof. unfold verify_with_options. fo. Qed.
#[local] Hint Resolve verify_with_options_fo : fo.
Lemma verify_fo h s k : @verify cfg h s k ~ @verify rel h s k. Proof. unfold verify. fo. Qed.
#[local] Hint Resolve verify_fo : fo.
Lemma recover_candidate_fo s h e r R : @recover_candidate cfg s h e r R ~ @recover_candidate rel s h e r R. Proof. unfold recover_candidate. fo. Qed.
#[local] Hint Resolve recover_candidate_fo : fo.
Lemma recover_points_fo s h e r l : @recover_points cfg s h e r l ~ @recover_points rel s h e r l. Proof. induction l as [|R l IH]; [apply fo_refl|]. cbn [recover_points]. fo. Qed.
#[local] Hint Resolve recover_points_fo : fo.
Lemma recover_loop_fo s h e r i n j : @recover_loop cfg s h e r i n j ~ @recover_loop rel s h e r i n j. Proof. revert j. induction n as [|n IH]; intros j; [apply fo_refl|]. cbn [recover_loop]. fo. Qed.
#[local] Hint Resolve recover_loop_fo : fo.
Lemma recover_with_options_fo s h i o : @recover_with_options cfg s h i o ~ @recover_with_options rel s h i o. Proof. unfold recover_with_options. fo. Qed.
#[local] Hint Resolve recover_with_options_fo : fo.
Lemma recover_fo s h i : @recover cfg s h i ~ @recover rel s h i. Proof. unfold recover. fo. Qed.
#[local] Hint Resolve recover_fo : fo.
End Ecdsa.
#[export] Hint Resolve in_range_fo private_key_new_fo public_key_new_fo public_key_of_fo signature_new_fo is_low_s_signature_fo hash_fits_fo sk_sign_fo pk_verify_fo hash_length_matches_fo from_be_bytes_max_fo verify_with_options_fo verify_fo recover_candidate_fo recover_points_fo recover_loop_fo recover_with_options_fo recover_fo : fo.

Section Sign.
Context {cfg : digit_cfg}.
Local Notation rel := (release cfg).
Lemma rfc6979_new_fo q e : @rfc6979_new cfg q e ~ @rfc6979_new rel q e. Proof. unfold rfc6979_new. fo. Qed.
#[local] Hint Resolve rfc6979_new_fo : fo.
Lemma bits2int_fo s b : @bits2int cfg s b ~ @bits2int rel s b. Proof. unfold bits2int. fo. Qed.
#[local] Hint Resolve bits2int_fo : fo.
Lemma int2octets_fo s n : @int2octets cfg s n ~ @int2octets rel s n. Proof. unfold int2octets. fo. Qed.
#[local] Hint Resolve int2octets_fo : fo.
Lemma bits2octets_fo s b : @bits2octets cfg s b ~ @bits2octets rel s b. Proof. unfold bits2octets. fo. Qed.
#[local] Hint Resolve bits2octets_fo : fo.
Context (h : hasher).
Lemma nonce_body_fo s x : @nonce_body cfg h s x ~ @nonce_body rel h s x. Proof. unfold nonce_body. fo. Qed.
#[local] Hint Resolve nonce_body_fo : fo.
Lemma generate_nonce_fo f s l k r x : @generate_nonce cfg h f s l k r x ~ @generate_nonce rel h f s l k r x. Proof. unfold generate_nonce. fo. Qed.
#[local] Hint Resolve generate_nonce_fo : fo.
Lemma finish_fo o s i : @finish cfg o s i ~ @finish rel o s i. Proof. unfold finish. fo. Qed.
#[local] Hint Resolve finish_fo : fo.
Lemma sign_body_fo f l k o r s n x : @sign_body cfg h f l k o r s n x ~ @sign_body rel h f l k o r s n x. Proof. unfold sign_body. fo. Qed.
#[local] Hint Resolve sign_body_fo : fo.
Lemma sign_with_hasher_fo f l k o r x : @sign_with_hasher cfg h f l k o r x ~ @sign_with_hasher rel h f l k o r x. Proof. unfold sign_with_hasher. fo. Qed.
#[local] Hint Resolve sign_with_hasher_fo : fo.
End Sign.
#[export] Hint Resolve rfc6979_new_fo bits2int_fo int2octets_fo bits2octets_fo nonce_body_fo generate_nonce_fo finish_fo sign_body_fo sign_with_hasher_fo : fo.

Section Sign2.
Context {cfg : digit_cfg}.
Local Notation rel := (release cfg).
Lemma sign_with_options_fo b f l k o r : @sign_with_options cfg b f l k o r ~ @sign_with_options rel b f l k o r. Proof. unfold sign_with_options. fo. Qed.
#[local] Hint Resolve sign_with_options_fo : fo.
Lemma sign_default_fo b f l k r : @sign_default cfg b f l k r ~ @sign_default rel b f l k r. Proof. unfold sign_default. fo. Qed.
#[local] Hint Resolve sign_default_fo : fo.
End Sign2.
#[export] Hint Resolve sign_with_options_fo sign_default_fo : fo.

Section Encoding.
Context {cfg : digit_cfg}.
Local Notation rel := (release cfg).
Lemma hex_or_fo {E} (e : E) s : @hex_or cfg E e s ~ @hex_or rel E e s. Proof. unfold hex_or. fo. Qed.
#[local] Hint Resolve hex_or_fo : fo.
Lemma checked_point_fo D P : @checked_point cfg D P ~ @checked_point rel D P. Proof. unfold checked_point. fo. Qed.
#[local] Hint Resolve checked_point_fo : fo.
Lemma decode_point_fo s D : @decode_point cfg s D ~ @decode_point rel s D. Proof. unfold decode_point. fo. Qed.
#[local] Hint Resolve decode_point_fo : fo.
Lemma encode_point_fo P D c : @encode_point cfg P D c ~ @encode_point rel P D c. Proof. unfold encode_point. fo. Qed.
#[local] Hint Resolve encode_point_fo : fo.
Lemma from_sec1_hex_fo s D : @from_sec1_hex cfg s D ~ @from_sec1_hex rel s D. Proof. unfold from_sec1_hex. fo. Qed.
#[local] Hint Resolve from_sec1_hex_fo : fo.
Lemma to_sec1_hex_fo k c : @to_sec1_hex cfg k c ~ @to_sec1_hex rel k c. Proof. unfold to_sec1_hex. fo. Qed.
#[local] Hint Resolve to_sec1_hex_fo : fo.
Lemma from_p1363_hex_fo s D : @from_p1363_hex cfg s D ~ @from_p1363_hex rel s D. Proof. unfold from_p1363_hex. fo. Qed.
#[local] Hint Resolve from_p1363_hex_fo : fo.
Lemma to_p1363_hex_fo s : @to_p1363_hex cfg s ~ @to_p1363_hex rel s. Proof. unfold to_p1363_hex. fo. Qed.
#[local] Hint Resolve to_p1363_hex_fo : fo.
Lemma eoa_private_key_new_fo x : @eoa_private_key_new cfg x ~ @eoa_private_key_new rel x. Proof. unfold eoa_private_key_new. fo. Qed.
#[local] Hint Resolve eoa_private_key_new_fo : fo.
Lemma eoa_public_key_fo k : @eoa_public_key cfg k ~ @eoa_public_key rel k. Proof. unfold eoa_public_key. fo. Qed.
#[local] Hint Resolve eoa_public_key_fo : fo.
Lemma eoa_address_fo b k : @eoa_address cfg b k ~ @eoa_address rel b k. Proof. unfold eoa_address. fo. Qed.
#[local] Hint Resolve eoa_address_fo : fo.
End Encoding.
#[export] Hint Resolve hex_or_fo checked_point_fo decode_point_fo encode_point_fo from_sec1_hex_fo to_sec1_hex_fo from_p1363_hex_fo to_p1363_hex_fo eoa_private_key_new_fo eoa_public_key_fo eoa_address_fo : fo.

Section Rlp.
Context {cfg : digit_cfg}.
Local Notation rel := (release cfg).
Lemma usize_add_fo  x y : usize_add true x y ~ usize_add false x y. Proof. unfold usize_add. destruct (_ <? _); [apply fo_refl|apply fo_panic]. Qed.
#[local] Hint Resolve usize_add_fo : fo.
Lemma decode_long_header_fo  t n l : decode_long_header true t n l ~ decode_long_header false t n l. Proof. unfold decode_long_header. fo. Qed.
#[local] Hint Resolve decode_long_header_fo : fo.
Lemma decode_data_header_fo  l : decode_data_header true l ~ decode_data_header false l. Proof. unfold decode_data_header. fo. Qed.
#[local] Hint Resolve decode_data_header_fo : fo.
Lemma decode_data_fo  l : decode_data true l ~ decode_data false l. Proof. unfold decode_data. fo. Qed.
#[local] Hint Resolve decode_data_fo : fo.
Lemma decode_list_loop_fo  f l a : decode_list_loop true f l a ~ decode_list_loop false f l a. Proof. revert l a. induction f as [|f IH]; intros; [apply fo_refl|]. cbn [decode_list_loop]. fo. Qed.
#[local] Hint Resolve decode_list_loop_fo : fo.
Lemma decode_list_payload_fo  l : decode_list_payload true l ~ decode_list_payload false l. Proof. unfold decode_list_payload. fo. Qed.
#[local] Hint Resolve decode_list_payload_fo : fo.
Lemma new_from_data_fo  l : new_from_data true l ~ new_from_data false l. Proof. apply decode_data_fo. Qed.
#[local] Hint Resolve new_from_data_fo : fo.
Lemma decode_as_items_fo  d : decode_as_items true d ~ decode_as_items false d. Proof. unfold decode_as_items. destruct (negb _); [apply fo_refl|apply decode_list_payload_fo]. Qed.
#[local] Hint Resolve decode_as_items_fo : fo.
Lemma decode_all_fo {A} (f g : decoding_item -> outcome (result RlpDataDecodingError A)) l : (forall d, f d ~ g d) -> decode_all f l ~ decode_all g l.
Proof. intros H. induction l as [|d l IH]; [apply fo_refl|]. cbn [decode_all]. fo. Qed.
Lemma decode_vec_fo {A} (f g : decoding_item -> outcome (result RlpDataDecodingError A)) d : (forall d, f d ~ g d) -> decode_vec true f d ~ decode_vec false g d.
Proof. intros H. unfold decode_vec. cbn [negb orb]. destruct (item_type_eqb _ _); [|apply fo_panic]. cbn [oassert]. apply fo_rbind; [fo|]. intros. now apply decode_all_fo. Qed.
Lemma decode_fo {A} (f g : decoding_item -> outcome (result RlpDataDecodingError A)) l : (forall d, f d ~ g d) -> decode true f l ~ decode false g l.
Proof. intros H. unfold decode. apply fo_rbind; [fo|]. intros. apply H. Qed.
Lemma encode_fo {A} (f g : A -> encoding_item -> outcome encoding_item) v : (forall x i, f x i ~ g x i) -> encode f v ~ encode g v.
Proof. intros H. unfold encode. apply fo_bind; [apply H|]. intros. apply fo_refl. Qed.
Lemma encode_all_fo {A} (f g : A -> encoding_item -> outcome encoding_item) l i : (forall x i, f x i ~ g x i) -> encode_all f l i ~ encode_all g l i.
Proof. intros H. revert i. induction l as [|v l IH]; intros; [apply fo_refl|]. cbn [encode_all]. apply fo_bind; [apply H|]. intros. apply IH. Qed.
Lemma encode_vec_fo {A} (f g : A -> encoding_item -> outcome encoding_item) l i : (forall x i, f x i ~ g x i) -> encode_vec f l i ~ encode_vec g l i.
Proof. intros H. unfold encode_vec. apply fo_bind; [now apply encode_all_fo|]. intros. apply fo_refl. Qed.
Lemma decode_tree_fo  f d : decode_tree true f d ~ decode_tree false f d. Proof. revert d. induction f as [|f IH]; intros; [apply fo_refl|]. cbn [decode_tree]. destruct (fst d); [apply fo_refl|]. apply fo_rbind; [fo|]. intros. apply fo_rbind; [now apply decode_all_fo|]. intros. apply fo_refl. Qed.
#[local] Hint Resolve decode_tree_fo : fo.
Lemma encode_biguint_fo n i : @encode_biguint cfg n i ~ @encode_biguint rel n i. Proof. unfold encode_biguint. fo. Qed.
#[local] Hint Resolve encode_biguint_fo : fo.
Lemma decode_biguint_fo x : @decode_biguint cfg x ~ @decode_biguint rel x. Proof. unfold decode_biguint. fo. Qed.
#[local] Hint Resolve decode_biguint_fo : fo.
Lemma wei_from_hex_fo s : @wei_from_hex cfg s ~ @wei_from_hex rel s. Proof. unfold wei_from_hex. fo. Qed.
#[local] Hint Resolve wei_from_hex_fo : fo.
Lemma wei_from_decimal_fo s : @wei_from_decimal cfg s ~ @wei_from_decimal rel s. Proof. unfold wei_from_decimal. fo. Qed.
#[local] Hint Resolve wei_from_decimal_fo : fo.
Lemma wei_to_be_bytes_fo w : @wei_to_be_bytes cfg w ~ @wei_to_be_bytes rel w. Proof. unfold wei_to_be_bytes. fo. Qed.
#[local] Hint Resolve wei_to_be_bytes_fo : fo.
Lemma wei_try_from_fo s : @wei_try_from cfg s ~ @wei_try_from rel s. Proof. unfold wei_try_from. fo. Qed.
#[local] Hint Resolve wei_try_from_fo : fo.
Lemma wei_display_fo w : @wei_display cfg w ~ @wei_display rel w. Proof. unfold wei_display. fo. Qed.
#[local] Hint Resolve wei_display_fo : fo.
Lemma chain_id_from_u64_fo n : @chain_id_from_u64 cfg n ~ @chain_id_from_u64 rel n. Proof. unfold chain_id_from_u64. fo. Qed.
#[local] Hint Resolve chain_id_from_u64_fo : fo.
Lemma chain_id_display_fo c : @chain_id_display cfg c ~ @chain_id_display rel c. Proof. unfold chain_id_display. fo. Qed.
#[local] Hint Resolve chain_id_display_fo : fo.
Lemma chain_id_of_fo c : @chain_id_of cfg c ~ @chain_id_of rel c. Proof. unfold chain_id_of. fo. Qed.
#[local] Hint Resolve chain_id_of_fo : fo.
Lemma encode_chain_id_fo c i : @encode_chain_id cfg c i ~ @encode_chain_id rel c i. Proof. unfold encode_chain_id. fo. Qed.
#[local] Hint Resolve encode_chain_id_fo : fo.
Lemma decode_chain_id_fo x : @decode_chain_id cfg x ~ @decode_chain_id rel x. Proof. unfold decode_chain_id. fo. Qed.
#[local] Hint Resolve decode_chain_id_fo : fo.
Lemma encode_wei_fo c i : @encode_wei cfg c i ~ @encode_wei rel c i. Proof. unfold encode_wei. fo. Qed.
#[local] Hint Resolve encode_wei_fo : fo.
Lemma decode_wei_fo x : @decode_wei cfg x ~ @decode_wei rel x. Proof. unfold decode_wei. fo. Qed.
#[local] Hint Resolve decode_wei_fo : fo.
Lemma decode_access_list_item_fo  d : decode_access_list_item true d ~ decode_access_list_item false d. Proof. unfold decode_access_list_item. destruct (fst d); [apply fo_refl|]. apply fo_rbind; [fo|]. intros [|i0 [|i1 [|]]]; try apply fo_refl. apply fo_rbind; [apply fo_refl|]. intros. apply fo_rbind; [apply decode_vec_fo; intros; apply fo_refl|]. intros. apply fo_refl. Qed.
#[local] Hint Resolve decode_access_list_item_fo : fo.
Lemma decode_access_list_fo  d : decode_access_list true d ~ decode_access_list false d. Proof. unfold decode_access_list. destruct (fst d); [apply fo_refl|]. apply fo_rbind; [apply decode_vec_fo; apply decode_access_list_item_fo|]. intros. apply fo_refl. Qed.
#[local] Hint Resolve decode_access_list_fo : fo.
Lemma enc_fo t v i : @enc cfg t v i ~ @enc rel t v i.
Proof. revert v i. induction t; intros v i; cbn [enc]; first [apply fo_refl | apply encode_biguint_fo | apply encode_wei_fo | apply encode_chain_id_fo | now apply encode_vec_fo]. Qed.
Lemma dec_fo t d : @dec cfg true t d ~ @dec rel false t d.
Proof. revert d. induction t; intros d; cbn [dec]; first [apply decode_biguint_fo | apply decode_wei_fo | apply decode_chain_id_fo | apply decode_access_list_item_fo | apply decode_access_list_fo | now apply decode_vec_fo | apply fo_refl]. Qed.
#[local] Hint Resolve enc_fo : fo.
Lemma run_calls_fo l i : @run_calls cfg l i ~ @run_calls rel l i. Proof. revert i. induction l as [|[t v|] l IH]; intros i; cbn [run_calls]; fo. Qed.
#[local] Hint Resolve run_calls_fo : fo.
End Rlp.
#[export] Hint Resolve usize_add_fo decode_long_header_fo decode_data_header_fo decode_data_fo decode_list_loop_fo decode_list_payload_fo new_from_data_fo decode_as_items_fo decode_tree_fo encode_biguint_fo decode_biguint_fo wei_from_hex_fo wei_from_decimal_fo wei_to_be_bytes_fo wei_try_from_fo wei_display_fo chain_id_from_u64_fo chain_id_display_fo chain_id_of_fo encode_chain_id_fo decode_chain_id_fo encode_wei_fo decode_wei_fo decode_access_list_item_fo decode_access_list_fo enc_fo dec_fo run_calls_fo : fo.

Section Tx.
Context {cfg : digit_cfg}.
Local Notation rel := (release cfg).
Lemma encode_payload_legacy_fo p i : @encode_payload_legacy cfg p i ~ @encode_payload_legacy rel p i. Proof. unfold encode_payload_legacy. fo. Qed.
#[local] Hint Resolve encode_payload_legacy_fo : fo.
Lemma encode_payload_eip_155_fo p i : @encode_payload_eip_155 cfg p i ~ @encode_payload_eip_155 rel p i. Proof. unfold encode_payload_eip_155. fo. Qed.
#[local] Hint Resolve encode_payload_eip_155_fo : fo.
Lemma encode_payload_eip_2930_fo p i : @encode_payload_eip_2930 cfg p i ~ @encode_payload_eip_2930 rel p i. Proof. unfold encode_payload_eip_2930. fo. Qed.
#[local] Hint Resolve encode_payload_eip_2930_fo : fo.
Lemma encode_payload_eip_1559_fo p i : @encode_payload_eip_1559 cfg p i ~ @encode_payload_eip_1559 rel p i. Proof. unfold encode_payload_eip_1559. fo. Qed.
#[local] Hint Resolve encode_payload_eip_1559_fo : fo.
Lemma encode_transaction_legacy_fo t i : @encode_transaction_legacy cfg t i ~ @encode_transaction_legacy rel t i. Proof. unfold encode_transaction_legacy. fo. Qed.
#[local] Hint Resolve encode_transaction_legacy_fo : fo.
Lemma decode_transaction_legacy_fo d : @decode_transaction_legacy cfg true d ~ @decode_transaction_legacy rel false d. Proof. unfold decode_transaction_legacy. fo. Qed.
#[local] Hint Resolve decode_transaction_legacy_fo : fo.
Lemma encode_transaction_eip_155_fo t i : @encode_transaction_eip_155 cfg t i ~ @encode_transaction_eip_155 rel t i. Proof. unfold encode_transaction_eip_155. fo. Qed.
#[local] Hint Resolve encode_transaction_eip_155_fo : fo.
Lemma decode_transaction_eip_155_fo d : @decode_transaction_eip_155 cfg true d ~ @decode_transaction_eip_155 rel false d. Proof. unfold decode_transaction_eip_155. fo. Qed.
#[local] Hint Resolve decode_transaction_eip_155_fo : fo.
Lemma encode_transaction_eip_2930_fo t i : @encode_transaction_eip_2930 cfg t i ~ @encode_transaction_eip_2930 rel t i. Proof. unfold encode_transaction_eip_2930. fo. Qed.
#[local] Hint Resolve encode_transaction_eip_2930_fo : fo.
Lemma decode_transaction_eip_2930_fo d : @decode_transaction_eip_2930 cfg true d ~ @decode_transaction_eip_2930 rel false d. Proof. unfold decode_transaction_eip_2930. fo. Qed.
#[local] Hint Resolve decode_transaction_eip_2930_fo : fo.
Lemma encode_transaction_eip_1559_fo t i : @encode_transaction_eip_1559 cfg t i ~ @encode_transaction_eip_1559 rel t i. Proof. unfold encode_transaction_eip_1559. fo. Qed.
#[local] Hint Resolve encode_transaction_eip_1559_fo : fo.
Lemma decode_transaction_eip_1559_fo d : @decode_transaction_eip_1559 cfg true d ~ @decode_transaction_eip_1559 rel false d. Proof. unfold decode_transaction_eip_1559. fo. Qed.
#[local] Hint Resolve decode_transaction_eip_1559_fo : fo.
Lemma transaction_eip_2930_encode_fo t : @transaction_eip_2930_encode cfg t ~ @transaction_eip_2930_encode rel t. Proof. unfold transaction_eip_2930_encode. apply fo_bind; [apply encode_fo; intros; auto with fo nocore|]. fo. Qed.
#[local] Hint Resolve transaction_eip_2930_encode_fo : fo.
Lemma transaction_eip_1559_encode_fo t : @transaction_eip_1559_encode cfg t ~ @transaction_eip_1559_encode rel t. Proof. unfold transaction_eip_1559_encode. apply fo_bind; [apply encode_fo; intros; auto with fo nocore|]. fo. Qed.
#[local] Hint Resolve transaction_eip_1559_encode_fo : fo.
Lemma encode_transaction_fo t : @encode_transaction cfg t ~ @encode_transaction rel t. Proof. unfold encode_transaction. destruct t; apply encode_fo; intros; auto with fo nocore. Qed.
#[local] Hint Resolve encode_transaction_fo : fo.
Lemma decode_transaction_fo k d : @decode_transaction cfg true k d ~ @decode_transaction rel false k d. Proof. unfold decode_transaction. destruct k; (apply fo_bind; [apply decode_fo; intros; auto with fo nocore|]); fo. Qed.
#[local] Hint Resolve decode_transaction_fo : fo.
Lemma sign_payload_legacy_fo b f r p k o : @sign_payload_legacy cfg b f r p k o ~ @sign_payload_legacy rel b f r p k o. Proof. unfold sign_payload_legacy. apply fo_bind; [apply encode_fo; intros; auto with fo nocore|]. fo. Qed.
#[local] Hint Resolve sign_payload_legacy_fo : fo.
Lemma sign_payload_eip_155_fo b f r p k o : @sign_payload_eip_155 cfg b f r p k o ~ @sign_payload_eip_155 rel b f r p k o. Proof. unfold sign_payload_eip_155. apply fo_bind; [apply encode_fo; intros; auto with fo nocore|]. fo. Qed.
#[local] Hint Resolve sign_payload_eip_155_fo : fo.
Lemma sign_payload_eip_2930_fo b f r p k o : @sign_payload_eip_2930 cfg b f r p k o ~ @sign_payload_eip_2930 rel b f r p k o. Proof. unfold sign_payload_eip_2930. apply fo_bind; [apply encode_fo; intros; auto with fo nocore|]. fo. Qed.
#[local] Hint Resolve sign_payload_eip_2930_fo : fo.
Lemma sign_payload_eip_1559_fo b f r p k o : @sign_payload_eip_1559 cfg b f r p k o ~ @sign_payload_eip_1559 rel b f r p k o. Proof. unfold sign_payload_eip_1559. apply fo_bind; [apply encode_fo; intros; auto with fo nocore|]. fo. Qed.
#[local] Hint Resolve sign_payload_eip_1559_fo : fo.
Lemma sign_payload_fo b f r p k o : @sign_payload cfg b f r p k o ~ @sign_payload rel b f r p k o. Proof. unfold sign_payload. fo. Qed.
#[local] Hint Resolve sign_payload_fo : fo.
Lemma write_field_fo s v w f : v ~ w -> write_field s v f ~ write_field s w f.
Proof. intros H. unfold write_field. apply fo_bind; [exact H|]. intros. apply fo_refl. Qed.
Lemma payload_legacy_display_fo b p : @payload_legacy_display cfg b p ~ @payload_legacy_display rel b p. Proof. unfold payload_legacy_display. cbv zeta. repeat (apply fo_bind; [apply write_field_fo; fo|intros]); cbv zeta; repeat (apply fo_bind; [apply write_field_fo; fo|intros]). apply write_field_fo. fo. Qed.
#[local] Hint Resolve payload_legacy_display_fo : fo.
Lemma payload_155_display_fo b p : @payload_155_display cfg b p ~ @payload_155_display rel b p. Proof. unfold payload_155_display. cbv zeta. repeat (apply fo_bind; [apply write_field_fo; fo|intros]); cbv zeta; repeat (apply fo_bind; [apply write_field_fo; fo|intros]). apply write_field_fo. fo. Qed.
#[local] Hint Resolve payload_155_display_fo : fo.
Lemma payload_2930_display_fo b p : @payload_2930_display cfg b p ~ @payload_2930_display rel b p. Proof. unfold payload_2930_display. cbv zeta. repeat (apply fo_bind; [apply write_field_fo; fo|intros]); cbv zeta; repeat (apply fo_bind; [apply write_field_fo; fo|intros]). apply write_field_fo. fo. Qed.
#[local] Hint Resolve payload_2930_display_fo : fo.
Lemma payload_1559_display_fo b p : @payload_1559_display cfg b p ~ @payload_1559_display rel b p. Proof. unfold payload_1559_display. cbv zeta. repeat (apply fo_bind; [apply write_field_fo; fo|intros]); cbv zeta; repeat (apply fo_bind; [apply write_field_fo; fo|intros]). apply write_field_fo. fo. Qed.
#[local] Hint Resolve payload_1559_display_fo : fo.
Lemma payload_display_fo b p : @payload_display cfg b p ~ @payload_display rel b p. Proof. unfold payload_display. fo. Qed.
#[local] Hint Resolve payload_display_fo : fo.
Lemma transaction_legacy_display_fo b p : @transaction_legacy_display cfg b p ~ @transaction_legacy_display rel b p. Proof. unfold transaction_legacy_display. cbv zeta. repeat (apply fo_bind; [apply write_field_fo; fo|intros]); cbv zeta; repeat (apply fo_bind; [apply write_field_fo; fo|intros]). apply write_field_fo. fo. Qed.
#[local] Hint Resolve transaction_legacy_display_fo : fo.
Lemma transaction_155_display_fo b p : @transaction_155_display cfg b p ~ @transaction_155_display rel b p. Proof. unfold transaction_155_display. cbv zeta. repeat (apply fo_bind; [apply write_field_fo; fo|intros]); cbv zeta; repeat (apply fo_bind; [apply write_field_fo; fo|intros]). apply write_field_fo. fo. Qed.
#[local] Hint Resolve transaction_155_display_fo : fo.
Lemma transaction_2930_display_fo b p : @transaction_2930_display cfg b p ~ @transaction_2930_display rel b p. Proof. unfold transaction_2930_display. cbv zeta. repeat (apply fo_bind; [apply write_field_fo; fo|intros]); cbv zeta; repeat (apply fo_bind; [apply write_field_fo; fo|intros]). apply write_field_fo. fo. Qed.
#[local] Hint Resolve transaction_2930_display_fo : fo.
Lemma transaction_1559_display_fo b p : @transaction_1559_display cfg b p ~ @transaction_1559_display rel b p. Proof. unfold transaction_1559_display. cbv zeta. repeat (apply fo_bind; [apply write_field_fo; fo|intros]); cbv zeta; repeat (apply fo_bind; [apply write_field_fo; fo|intros]). apply write_field_fo. fo. Qed.
#[local] Hint Resolve transaction_1559_display_fo : fo.
Lemma transaction_display_fo b p : @transaction_display cfg b p ~ @transaction_display rel b p. Proof. unfold transaction_display. fo. Qed.
#[local] Hint Resolve transaction_display_fo : fo.
End Tx.
#[export] Hint Resolve encode_payload_legacy_fo encode_payload_eip_155_fo encode_payload_eip_2930_fo encode_payload_eip_1559_fo encode_transaction_legacy_fo decode_transaction_legacy_fo encode_transaction_eip_155_fo decode_transaction_eip_155_fo encode_transaction_eip_2930_fo decode_transaction_eip_2930_fo encode_transaction_eip_1559_fo decode_transaction_eip_1559_fo transaction_eip_2930_encode_fo transaction_eip_1559_encode_fo encode_transaction_fo decode_transaction_fo sign_payload_legacy_fo sign_payload_eip_155_fo sign_payload_eip_2930_fo sign_payload_eip_1559_fo sign_payload_fo payload_legacy_display_fo payload_155_display_fo payload_2930_display_fo payload_1559_display_fo payload_display_fo transaction_legacy_display_fo transaction_155_display_fo transaction_2930_display_fo transaction_1559_display_fo transaction_display_fo : fo.


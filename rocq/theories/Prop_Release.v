(** Property C75: what a debug build returns, a release build returns.

    The specification is S_Release: [release cfg] is [cfg] without the checks of a debug build; [follows d r] says that the run [d] panics,
    or that [r] is the same as [d].  All theorems are for all arguments, of a sensible kind or not. *)

From Verif Require Import Base M_BigInt M_BigText M_Gcd M_Modular M_Curve M_Random M_Ecdsa M_Rfc6979 M_Encoding M_Rlp M_EthTypes M_Eoa M_Tx M_TxSign M_Display M_Ssz
  S_BigInt S_Release P_Release P_Release2 P_Release3.
Open Scope Z_scope.

(** BigInt: comparison, arithmetic, shifts, lengths, bits. *)
Theorem C75_integers : forall (cfg : digit_cfg) (x y : bigint) n,
  follows (@bi_eq cfg x y) (@bi_eq (release cfg) x y) /\
  follows (@bi_cmp cfg x y) (@bi_cmp (release cfg) x y) /\
  follows (@bi_lt cfg x y) (@bi_lt (release cfg) x y) /\
  follows (@bi_le cfg x y) (@bi_le (release cfg) x y) /\
  follows (@bi_gt cfg x y) (@bi_gt (release cfg) x y) /\
  follows (@bi_ge cfg x y) (@bi_ge (release cfg) x y) /\
  follows (@is_zero cfg x) (@is_zero (release cfg) x) /\
  follows (@bi_add cfg x y) (@bi_add (release cfg) x y) /\
  follows (@bi_sub cfg x y) (@bi_sub (release cfg) x y) /\
  follows (@bi_mul cfg x y) (@bi_mul (release cfg) x y) /\
  follows (@bi_div cfg x y) (@bi_div (release cfg) x y) /\
  follows (@bi_rem cfg x y) (@bi_rem (release cfg) x y) /\
  follows (@bi_shl cfg x n) (@bi_shl (release cfg) x n) /\
  follows (@bi_shr cfg x n) (@bi_shr (release cfg) x n) /\
  follows (@bit_len cfg x) (@bit_len (release cfg) x) /\
  follows (@byte_len cfg x) (@byte_len (release cfg) x) /\
  follows (@le_bits cfg x) (@le_bits (release cfg) x) /\
  follows (@trailing_zeros cfg x) (@trailing_zeros (release cfg) x) /\
  follows (@gcd cfg x y) (@gcd (release cfg) x y).
Proof. intros. repeat split; auto with fo nocore. Qed.
Print Assumptions C75_integers.
(** BigInt and BigUint: text and bytes, and the operators of BigUint. *)
Theorem C75_text : forall (cfg : digit_cfg) (x y : bigint) s r b n,
  follows (@bi_to_be_bytes cfg x) (@bi_to_be_bytes (release cfg) x) /\
  follows (@bi_from_hex cfg s) (@bi_from_hex (release cfg) s) /\
  follows (@bi_from_str_radix cfg s r) (@bi_from_str_radix (release cfg) s r) /\
  follows (@bi_to_lower_hex cfg x) (@bi_to_lower_hex (release cfg) x) /\
  follows (@bi_display cfg x) (@bi_display (release cfg) x) /\
  follows (@bu_from_uint cfg n) (@bu_from_uint (release cfg) n) /\
  follows (@bu_from_be_bytes cfg b) (@bu_from_be_bytes (release cfg) b) /\
  follows (@bu_from_hex cfg s) (@bu_from_hex (release cfg) s) /\
  follows (@bu_from_str_radix cfg s r) (@bu_from_str_radix (release cfg) s r) /\
  follows (@bu_to_be_bytes cfg x) (@bu_to_be_bytes (release cfg) x) /\
  follows (@bu_to_lower_hex cfg x) (@bu_to_lower_hex (release cfg) x) /\
  follows (@bu_try_from cfg s) (@bu_try_from (release cfg) s) /\
  follows (@bu_add cfg x y) (@bu_add (release cfg) x y) /\
  follows (@bu_sub cfg x y) (@bu_sub (release cfg) x y) /\
  follows (@bu_mul cfg x y) (@bu_mul (release cfg) x y) /\
  follows (@bu_shr cfg x n) (@bu_shr (release cfg) x n) /\
  follows (@bu_display cfg x) (@bu_display (release cfg) x).
Proof. intros. repeat split; auto with fo nocore. Qed.
Print Assumptions C75_text.
(** Modular arithmetic and curves. *)
Theorem C75_modular : forall (cfg : digit_cfg) (a n e : bigint) D P Q,
  follows (@modulo cfg a n) (@modulo (release cfg) a n) /\
  follows (@invert cfg a n) (@invert (release cfg) a n) /\
  follows (@pow cfg a e n) (@pow (release cfg) a e n) /\
  follows (@sqrt cfg a n) (@sqrt (release cfg) a n) /\
  follows (@point_eq cfg P Q) (@point_eq (release cfg) P Q) /\
  follows (@double_point cfg (d_curve D) P) (@double_point (release cfg) (d_curve D) P) /\
  follows (@add_points cfg (d_curve D) P Q) (@add_points (release cfg) (d_curve D) P Q) /\
  follows (@mul_point cfg (d_curve D) P n) (@mul_point (release cfg) (d_curve D) P n) /\
  follows (@validate_point cfg D P) (@validate_point (release cfg) D P).
Proof. intros. repeat split; auto with fo nocore. Qed.
Print Assumptions C75_modular.
(** Keys, signatures, verification and recovery. *)
Theorem C75_ecdsa : forall (cfg : digit_cfg) x y D P be fuel h k s pk so vo ro id rng,
  follows (@private_key_new cfg x D) (@private_key_new (release cfg) x D) /\
  follows (@public_key_new cfg P D) (@public_key_new (release cfg) P D) /\
  follows (@public_key_of cfg k) (@public_key_of (release cfg) k) /\
  follows (@signature_new cfg x y D) (@signature_new (release cfg) x y D) /\
  follows (@sign_with_options cfg be fuel h k so rng) (@sign_with_options (release cfg) be fuel h k so rng) /\
  follows (@sign_default cfg be fuel h k rng) (@sign_default (release cfg) be fuel h k rng) /\
  follows (@verify_with_options cfg h s pk vo) (@verify_with_options (release cfg) h s pk vo) /\
  follows (@verify cfg h s pk) (@verify (release cfg) h s pk) /\
  follows (@is_low_s_signature cfg s) (@is_low_s_signature (release cfg) s) /\
  follows (@recover_with_options cfg s h id ro) (@recover_with_options (release cfg) s h id ro) /\
  follows (@recover cfg s h id) (@recover (release cfg) s h id).
Proof. intros. repeat split; auto with fo nocore. Qed.
Print Assumptions C75_ecdsa.
(** Keys and signatures as text; Ethereum accounts. *)
Theorem C75_encodings : forall (cfg : digit_cfg) t D c k pk s be b,
  follows (@from_sec1_hex cfg t D) (@from_sec1_hex (release cfg) t D) /\
  follows (@to_sec1_hex cfg pk c) (@to_sec1_hex (release cfg) pk c) /\
  follows (@from_p1363_hex cfg t D) (@from_p1363_hex (release cfg) t D) /\
  follows (@to_p1363_hex cfg s) (@to_p1363_hex (release cfg) s) /\
  follows (@eoa_private_key_new cfg b) (@eoa_private_key_new (release cfg) b) /\
  follows (@eoa_public_key cfg k) (@eoa_public_key (release cfg) k) /\
  follows (@eoa_address cfg be pk) (@eoa_address (release cfg) be pk).
Proof. intros. repeat split; auto with fo nocore. Qed.
Print Assumptions C75_encodings.
(** Amounts, chain identifiers, RLP encoders of all types and their histories, transactions, and their text. *)
Theorem C75_ethereum : forall (cfg : digit_cfg) s w n c t v i cs be fuel rng p k so tx,
  follows (@wei_from_hex cfg s) (@wei_from_hex (release cfg) s) /\
  follows (@wei_from_decimal cfg s) (@wei_from_decimal (release cfg) s) /\
  follows (@wei_try_from cfg s) (@wei_try_from (release cfg) s) /\
  follows (@wei_to_be_bytes cfg w) (@wei_to_be_bytes (release cfg) w) /\
  follows (@wei_display cfg w) (@wei_display (release cfg) w) /\
  follows (@chain_id_from_u64 cfg n) (@chain_id_from_u64 (release cfg) n) /\
  follows (@chain_id_display cfg c) (@chain_id_display (release cfg) c) /\
  follows (@enc cfg t v i) (@enc (release cfg) t v i) /\
  follows (@run_calls cfg cs i) (@run_calls (release cfg) cs i) /\
  follows (@encode_transaction cfg tx) (@encode_transaction (release cfg) tx) /\
  follows (@sign_payload cfg be fuel rng p k so) (@sign_payload (release cfg) be fuel rng p k so) /\
  follows (@payload_display cfg be p) (@payload_display (release cfg) be p) /\
  follows (@transaction_display cfg be tx) (@transaction_display (release cfg) be tx).
Proof. intros. repeat split; auto with fo nocore. Qed.
Print Assumptions C75_ethereum.
(** The RLP decoder (the flag says whether it is a debug build) for all types, for trees, and for transactions. *)
Theorem C75_rlp : forall (cfg : digit_cfg) t data kind fuel d,
  follows (decode true (@dec cfg true t) data) (decode false (@dec (release cfg) false t) data) /\
  follows (decode_tree true fuel d) (decode_tree false fuel d) /\
  follows (@decode_transaction cfg true kind data) (@decode_transaction (release cfg) false kind data).
Proof. intros. split; [|split]; [apply decode_fo, dec_fo|apply decode_tree_fo|apply decode_transaction_fo]. Qed.
Print Assumptions C75_rlp.
(** SSZ: encoding, decoding, and all histories of an encoder. *)
Theorem C75_ssz : forall t v data cs,
  follows (@ssz_encode DebugBuild t v) (@ssz_encode ReleaseBuild t v) /\
  follows (@ssz_decode DebugBuild t data) (@ssz_decode ReleaseBuild t data) /\
  follows (@run_ssz DebugBuild cs ssz_new) (@run_ssz ReleaseBuild cs ssz_new).
Proof. intros. split; [|split]; [apply ssz_encode_fo|apply ssz_decode_fo|apply run_ssz_fo]. Qed.
Print Assumptions C75_ssz.
(** A quotient of several digits is the same in both builds; a debug build panics at zero shifted to the left by a digit, compared with zero, a release build does not. *)
Definition dividend : bigint := mkBig [1; 2; 3; 4] 4%nat Positive.
Definition divisor : bigint := mkBig [9; 8] 2%nat Negative.
Example C75_witness :
  (exists q, @bi_div U8 dividend divisor = Ret q /\ @bi_div (release U8) dividend divisor = Ret q /\ @bi_val U8 q = - (67305985 / 2057)) /\
  (z <- @bi_zero U8 ;; y <- @bi_shl U8 z 8 ;; @bi_eq U8 y z) = Panic /\
  (z <- @bi_zero (release U8) ;; y <- @bi_shl (release U8) z 8 ;; @bi_eq (release U8) y z) = Ret false.
Proof. split; [eexists; repeat split; vm_compute; reflexivity|split; vm_compute; reflexivity]. Qed.

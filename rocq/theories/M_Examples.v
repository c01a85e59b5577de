(** Model of the programs in examples/.  A program is a function of its first command-line argument (a valid string; [None] if
    there is none); the result is what it writes to the standard output.  Panics - the exit code is not 0, and a message goes to
    the error output - are [Panic]. *)

From Coq Require Import String.
From Verif Require Import Base M_Parity M_Codec M_BigInt M_Random M_Ecdsa M_Rlp M_EthTypes M_Tx M_Eoa M_TxSign M_Display.
Open Scope Z_scope.
Local Open Scope list_scope.

(** [s.strip_prefix("0x").unwrap_or(&s)] *)
Definition strip_0x (s : list Z) : list Z := match s with 48 :: 120 :: r => r | _ => s end.
(** [println!("{t}")] *)
Definition println (t : list Z) : list Z := t ++ [10].

(** crypto/codecs.rs:162-169 *)
Definition codecs_error_display (e : codecs_error) : list Z :=
  match e with InvalidCharFound => txt "Invalid char found" | NotByteAligned => txt "Not 1-byte aligned" end.
(** blockchain/ethereum/rlp/decoding.rs:169-180 *)
Definition decoding_error_display (e : RlpDataDecodingError) : list Z :=
  match e with InvalidFormat => txt "Invalid format" | TransactionTypeMismatch => txt "Transaction interpreted with the wrong type" end.
(** random/error.rs:21-42; the numbers are an i32 (Apple, Linux) and a u32 *)
Definition fmt_int (n : Z) : list Z := if n <? 0 then 45 :: radix_digits 10 10 (- n) [] else radix_digits 10 10 n [].
Definition random_error_display (e : get_os_random_bytes_error) : list Z :=
  match e with
  | AppleSecRandom status => txt "SecRandomCopyBytes failed with status " ++ fmt_int status
  | LinuxGetRandom errno => txt "getrandom failed with errno " ++ fmt_int errno
  | LinuxGetRandomCopiedNumberLessThanRequested => txt "getrandom failed: the number of bytes copied is less than the number requested"
  | WindowsBCryptGenRandom status => txt "BCryptGenRandom failed with status " ++ fmt_int status
  end.

(** * examples/randombytes.rs *)
(** [str::parse::<u32>]: an optional plus sign and at least one digit, less than 2^32 *)
Fixpoint parse_digits (acc : Z) (s : list Z) : option Z :=
  match s with
  | [] => Some acc
  | c :: s' => if (48 <=? c) && (c <=? 57) then
                 let acc' := 10 * acc + (c - 48) in if acc' <? 2 ^ 32 then parse_digits acc' s' else None
               else None
  end%bool.
Definition parse_u32 (s : list Z) : option Z :=
  match s with
  | [] => None
  | 43 :: s' => match s' with [] => None | _ => parse_digits 0 s' end
  | _ => parse_digits 0 s
  end.
(** randombytes.rs:16-31 *)
Definition randombytes (t : target) (o : os) (arg : option (list Z)) : outcome (list Z) :=
  bytes_len <- unwrap arg ;;
  bytes_len <- unwrap (parse_u32 bytes_len) ;;
  r <- get_os_random_bytes t o bytes_len ;;
  match r with
  | Ok bytes => Ret (println (bytes_to_lower_hex bytes))
  | Err err => Ret (println (txt "Error: " ++ random_error_display err))
  end.

Section WithCfg.
Context {cfg : digit_cfg}.
Variable be : bool.

(** * examples/ethereum/eoa_key_to_address.rs:17-30 *)
Definition eoa_key_to_address (arg : option (list Z)) : outcome (list Z) :=
  key_hex <- unwrap arg ;;
  match hex_to_bytes (strip_0x key_hex) with
  | Err _ => Panic
  | Ok key_bytes =>
      (* try_into::<[u8; 32]>() *)
      assert! (Nat.eqb (length key_bytes) 32) ;;
      eoa_private_key <- eoa_private_key_new key_bytes ;;
      eoa_private_key <- unwrap eoa_private_key ;;
      eoa_public_key <- eoa_public_key eoa_private_key ;;
      address <- eoa_address be eoa_public_key ;;
      d <- address_display be address ;;
      Ret (println d)
  end.

Variable dbg : bool.

(** * examples/ethereum/rlp_decoder.rs *)
(** serde_json::Value, as far as it is used *)
Inductive json := JString (s : list Z) | JArray (l : list json).
(** rlp_decoder.rs:58-75, Decodable for JsonValueWrapper; [fuel] bounds the depth *)
Fixpoint decode_json (fuel : nat) (d : decoding_item) : outcome (result RlpDataDecodingError json) :=
  match fuel with
  | O => OutOfFuel
  | S fuel' =>
      match fst d with
      | SingleValue => bytes <-? decode_as_bytes d ;; Ret (Ok (JString (txt "0x" ++ bytes_to_lower_hex bytes)))
      | List => values <-? decode_vec dbg (decode_json fuel') d ;; Ret (Ok (JArray values))
      end
  end.
(** serde_json::to_string_pretty: every element of an array on a line of its own, two spaces of indentation for each level, and
    [] for an empty array.  Simplified: characters of strings are not escaped (those of hexadecimal text need not be). *)
Definition json_indent (n : nat) : list Z := 10 :: concat (repeat [32; 32] n).
Fixpoint pretty (n : nat) (v : json) : list Z :=
  match v with
  | JString s => 34 :: s ++ [34]
  | JArray [] => [91; 93]
  | JArray (v0 :: l) =>
      91 :: json_indent (S n) ++ pretty (S n) v0 ++ flat_map (fun v => 44 :: json_indent (S n) ++ pretty (S n) v) l ++ json_indent n ++ [93]
  end.
(** rlp_decoder.rs:33-54.  The recursion is as deep as the data is nested, at most one level for each byte. *)
Definition rlp_decoder (arg : option (list Z)) : outcome (list Z) :=
  rlp_hex <- unwrap arg ;;
  match hex_to_bytes (strip_0x rlp_hex) with
  | Err err => Ret (println (txt "invalid hex input: " ++ codecs_error_display err))
  | Ok rlp_data =>
      r <- decode dbg (decode_json (S (length rlp_data))) rlp_data ;;
      match r with
      | Err err => Ret (println (txt "Decoding failed: " ++ decoding_error_display err))
      | Ok value => Ret (println (pretty 0 value))
      end
  end.

(** * examples/ethereum/tx_decoder.rs:67-129 *)
Definition tx_decoder (arg : option (list Z)) : outcome (list Z) :=
  tx_hex <- unwrap arg ;;
  match hex_to_bytes (strip_0x tx_hex) with
  | Err _ => Panic
  | Ok [] => Panic
  | Ok (first_byte :: rest) =>
      if first_byte =? eip_1559_type then
        r <- decode dbg (decode_transaction_eip_1559 dbg) rest ;;
        match r with
        | Ok transaction => d <- transaction_1559_display be transaction ;; Ret (println d)
        | Err _ => Panic
        end
      else if first_byte =? eip_2930_type then
        r <- decode dbg (decode_transaction_eip_2930 dbg) rest ;;
        match r with
        | Ok transaction => d <- transaction_2930_display be transaction ;; Ret (println d)
        | Err _ => Panic
        end
      else
        r <- decode dbg (decode_transaction_eip_155 dbg) (first_byte :: rest) ;;
        match r with
        | Ok transaction => d <- transaction_155_display be transaction ;; Ret (println d)
        | Err TransactionTypeMismatch =>
            r <- decode dbg (decode_transaction_legacy dbg) (first_byte :: rest) ;;
            match r with
            | Ok transaction => d <- transaction_legacy_display be transaction ;; Ret (println d)
            | Err _ => Panic
            end
        | Err _ => Panic
        end
  end.

(** * examples/ethereum/eoa_gen_vanity_address.rs *)
(** [slice::starts_with] *)
Fixpoint starts_with (s prefix : list Z) : bool :=
  match prefix, s with
  | [], _ => true
  | _, [] => false
  | p :: prefix', c :: s' => (c =? p) && starts_with s' prefix'
  end%bool.
(** the characters accepted: eoa_gen_vanity_address.rs:31-36 *)
Definition prefix_char (c : Z) : bool := ((48 <=? c) && (c <=? 57) || (97 <=? c) && (c <=? 102) || (65 <=? c) && (c <=? 70))%bool.
(** One turn of the loop: if more than three seconds have gone by since the last report, the seconds since the start; and the
    reply of the source of randomness. *)
Record turn := mkTurn { turn_report : option Z; turn_random : outcome (result get_os_random_bytes_error (list Z)) }.
(** usize arithmetic: an overflow panics in debug builds and wraps in release builds *)
Definition usize_ck (n : Z) : outcome Z := if n <? 2 ^ 64 then Ret n else if dbg then Panic else Ret (n mod 2 ^ 64).
(** eoa_gen_vanity_address.rs:44-49 *)
Definition vanity_report (estimated_count count secs : Z) : outcome (list Z) :=
  c100 <- usize_ck (count * 100) ;;
  assert! (negb (estimated_count =? 0)) ;;
  assert! (negb (secs =? 0)) ;;
  Ret (println (txt "> " ++ radix_digits 10 20 count [] ++ txt ", " ++ radix_digits 10 20 (c100 / estimated_count) [] ++ txt "%, " ++
       radix_digits 10 20 (count / secs) [] ++ txt "/s")).
(** eoa_gen_vanity_address.rs:42-70; [env i]: turn i *)
Fixpoint vanity_loop (fuel : nat) (env : nat -> turn) (prefix : list Z) (estimated_count : Z) (i : nat) (count : Z) (out : list Z) : outcome (list Z) :=
  match fuel with
  | O => OutOfFuel
  | S fuel' =>
      count <- usize_ck (count + 1) ;;
      out <- (match turn_report (env i) with None => Ret out | Some secs => r <- vanity_report estimated_count count secs ;; Ret (out ++ r) end) ;;
      key <- turn_random (env i) ;;
      match key with
      | Err _ => Panic
      | Ok key_data =>
          assert! (Nat.eqb (length key_data) 32) ;;
          sk <- eoa_private_key_new key_data ;;
          sk <- unwrap sk ;;
          pk <- eoa_public_key sk ;;
          address <- eoa_address be pk ;;
          checksummed_hex <- to_checksummed_hex be address ;;
          if negb (starts_with checksummed_hex prefix) then vanity_loop fuel' env prefix estimated_count (S i) count out else
          Ret (out ++ println (txt "=====================") ++ println (txt "Vanity Address Found!") ++ println (txt "=====================") ++
               println (txt "public address: 0x" ++ checksummed_hex) ++ println (txt "private key: 0x" ++ bytes_to_lower_hex key_data))
      end
  end.
(** eoa_gen_vanity_address.rs:21-41 *)
Definition eoa_gen_vanity_address (fuel : nat) (env : nat -> turn) (arg : option (list Z)) : outcome (list Z) :=
  prefix <- unwrap arg ;;
  assert! (negb (Nat.eqb (length prefix) 0) && Nat.ltb (length prefix) 40) ;;
  assert! (forallb prefix_char prefix) ;;
  estimated_count <- usize_ck (32 ^ Z.of_nat (length prefix)) ;;
  vanity_loop fuel env prefix estimated_count 0 0 [].
End WithCfg.

(** Model of src/crypto/codecs.rs: constant-time hex conversion.
    Text is the list of its bytes. *)

From Verif Require Import Base.
Open Scope Z_scope.

(** src/crypto/codecs.rs:155-160 *)
Inductive codecs_error : Set := InvalidCharFound | NotByteAligned.

(** src/crypto/codecs.rs:71: [(87 + nibble + (((nibble - 10) >> 7) & -39)) as u8] in [i8]. *)
Definition nibble_char (nibble : Z) : Z :=
  (87 + nibble + Z.land (Z.shiftr (nibble - 10) 7) (-39)) mod 256.

(** src/crypto/codecs.rs:35-76 *)
Definition bytes_to_lower_hex (bs : list Z) : list Z :=
  flat_map (fun b => [nibble_char (Z.shiftr b 4); nibble_char (Z.land b 15)]) bs.

(** [u16] wrapping subtraction *)
Definition wsub16 (a b : Z) : Z := (a - b) mod 65536.

(** src/crypto/codecs.rs:105-135 (and again 138-146): the value of one hex
    character, [None] when [(c_num0 | c_alpha0) == 0]. *)
Definition hex_char (c : Z) : option Z :=
  let c_num := Z.lxor c 48 in
  let c_num0 := Z.shiftr (wsub16 c_num 10) 8 in
  let c_alpha := wsub16 (Z.land c 65503) 55 in
  let c_alpha0 := Z.shiftr (Z.lxor (wsub16 c_alpha 10) (wsub16 c_alpha 16)) 8 in
  if Z.lor c_num0 c_alpha0 =? 0 then None
  else Some ((Z.lor (Z.land c_num0 c_num) (Z.land c_alpha0 c_alpha)) mod 256).

(** src/crypto/codecs.rs:103-152: the loop over [chunks_exact(2)]. *)
Fixpoint hex_pairs (hex : list Z) : result codecs_error (list Z) :=
  match hex with
  | h :: l :: rest =>
    match hex_char h with
    | None => Err InvalidCharFound
    | Some hv =>
      match hex_char l with
      | None => Err InvalidCharFound
      | Some lv =>
        match hex_pairs rest with
        | Ok bs => Ok (Z.lor ((hv * 16) mod 256) lv :: bs)
        | Err e => Err e
        end
      end
    end
  | _ => Ok []
  end.

(** src/crypto/codecs.rs:96-153 *)
Definition hex_to_bytes (hex : list Z) : result codecs_error (list Z) :=
  if negb (Z.land (Z.of_nat (length hex)) 1 =? 0) then Err NotByteAligned
  else hex_pairs hex.

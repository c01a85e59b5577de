(** RFC 6979, section 3.2, with the additional data of section 3.6, over byte strings.

    [hm key text] is HMAC with the chosen hash function, [hlen] the length of its output in bytes, [q] the group order. *)

From Verif Require Import Base S_Ecdsa.
Open Scope Z_scope.

Section Rfc6979.
Variable hm : list Z -> list Z -> list Z.
Variable hlen : nat.
Variable q : Z.

(** 2.3.1: qlen and rlen (here in bytes) *)
Definition qlen : Z := nbits q.
Definition rlen : nat := Z.to_nat ((qlen + 7) / 8).
(** 2.3.2: the leftmost qlen bits as an integer *)
Definition BITS2INT (bs : list Z) : Z := be_val bs / 2 ^ Z.max 0 (8 * Z.of_nat (length bs) - qlen).
(** 2.3.3 *)
Definition INT2OCTETS (x : Z) : list Z := to_be rlen x.
(** 2.3.4: z2 = z1 mod q, by one conditional subtraction *)
Definition BITS2OCTETS (bs : list Z) : list Z := let z1 := BITS2INT bs in INT2OCTETS (if z1 <? q then z1 else z1 - q).

(** 3.2.b - 3.2.g from the private key x, the hash h1 and the additional data; the result is (K, V) *)
Definition SETUP (x : Z) (h1 extra : list Z) : list Z * list Z :=
  let seed := INT2OCTETS x ++ BITS2OCTETS h1 ++ extra in
  let V0 := repeat 1 hlen in
  let K0 := repeat 0 hlen in
  let K1 := hm K0 (V0 ++ [0] ++ seed) in
  let V1 := hm K1 V0 in
  let K2 := hm K1 (V1 ++ [1] ++ seed) in
  (K2, hm K2 V1).

(** 3.2.h.1-2: [m] blocks V = HMAC_K(V), concatenated; with the last V *)
Fixpoint BLOCKS (K V : list Z) (m : nat) : list Z * list Z :=
  match m with
  | O => ([], V)
  | S m' => let V' := hm K V in let (T, V'') := BLOCKS K V' m' in (V' ++ T, V'')
  end.
(** as many as make at least qlen bits *)
Definition nblocks : nat := Z.to_nat ((qlen + 8 * Z.of_nat hlen - 1) / (8 * Z.of_nat hlen)).
(** 3.2.h.3: the candidate of a state, and the state after a rejected candidate *)
Definition CANDIDATE (s : list Z * list Z) : Z := BITS2INT (fst (BLOCKS (fst s) (snd s) nblocks)).
Definition REJECT (s : list Z * list Z) : list Z * list Z :=
  let V := snd (BLOCKS (fst s) (snd s) nblocks) in
  let K := hm (fst s) (V ++ [0]) in
  (K, hm K V).
Definition STATE (s : list Z * list Z) (i : nat) : list Z * list Z := Nat.iter i REJECT s.
(** the i-th candidate *)
Definition NONCE (x : Z) (h1 extra : list Z) (i : nat) : Z := CANDIDATE (STATE (SETUP x h1 extra) i).
(** k is the nonce: the first candidate in [1, q-1] *)
Definition IS_NONCE (x : Z) (h1 extra : list Z) (k : Z) : Prop :=
  exists i, NONCE x h1 extra i = k /\ 1 <= k <= q - 1 /\ forall j, (j < i)%nat -> ~ (1 <= NONCE x h1 extra j <= q - 1).
End Rfc6979.

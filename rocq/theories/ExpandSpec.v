(** What a compressed HUS section means: the format of EmbCompress.py's input, written down as a
    grammar of bits, without reference to the program that reads it. *)
From Coq Require Import ZArith List Bool.
From Verif Require Import PropertiesCompress.
Import ListNotations.
Open Scope Z_scope.

Definition bits := list bool.
(** The [n] lowest bits of a number, the highest first; the bits of a list of bytes. *)
Fixpoint bits_of (n : nat) (v : Z) : bits :=
  match n with O => [] | S n => Z.testbit v (Z.of_nat n) :: bits_of n v end.
Definition data_bits (data : list Z) : bits := flat_map (bits_of 8) data.

(** A code: one symbol written with no bits at all, or the canonical prefix code of a list of
    lengths (C70). *)
Inductive coder := Constant (symbol : Z) | Canonical (lengths : list Z).
Inductive coded : coder -> Z -> bits -> Prop :=
| coded_constant v : coded (Constant v) v []
| coded_canonical ls s L :
    nth_error ls s = Some L -> 0 < L -> Forall (fun l => 0 <= l <= 16) ls -> canonical_code ls s < 2 ^ L ->
    coded (Canonical ls) (Z.of_nat s) (bits_of (Z.to_nat L) (canonical_code ls s)).

(** A length: up to 6 in three bits, above that three ones, as many more ones as it is above 7, and
    a zero. *)
Definition length_bits (m : Z) : bits :=
  if m <? 7 then bits_of 3 m else repeat true (Z.to_nat (m - 4)) ++ [false].

(** The description of the code for distances: the number of symbols and their lengths; or 0 and
    the one symbol. *)
Inductive distance_table : coder -> bits -> Prop :=
| distance_constant v : 0 <= v < 2 ^ 5 -> distance_table (Constant v) (bits_of 5 0 ++ bits_of 5 v)
| distance_lengths_of ls : 0 < Z.of_nat (length ls) < 2 ^ 5 -> Forall (fun l => 0 <= l <= 16) ls ->
    distance_table (Canonical ls) (bits_of 5 (Z.of_nat (length ls)) ++ flat_map length_bits ls).
(** The description of the code for lengths: the same, but after the first three lengths two bits
    tell how many lengths of zero are left out. *)
Inductive length_table : coder -> bits -> Prop :=
| length_constant v : 0 <= v < 2 ^ 5 -> length_table (Constant v) (bits_of 5 0 ++ bits_of 5 v)
| length_few ls : 0 < Z.of_nat (length ls) <= 3 -> Forall (fun l => 0 <= l <= 16) ls ->
    length_table (Canonical ls) (bits_of 5 (Z.of_nat (length ls)) ++ flat_map length_bits ls)
| length_many first (skipped : nat) rest : length first = 3%nat -> Z.of_nat skipped <= 3 -> rest <> [] ->
    let ls := first ++ repeat 0 skipped ++ rest in
    Z.of_nat (length ls) < 2 ^ 5 -> Forall (fun l => 0 <= l <= 16) ls ->
    length_table (Canonical ls) (bits_of 5 (Z.of_nat (length ls)) ++ flat_map length_bits first
                                 ++ bits_of 2 (Z.of_nat skipped) ++ flat_map length_bits rest).
(** The description of the code for characters, itself in the code for lengths: a zero, a run of 3
    to 18 zeros, a run of 20 to 531 zeros, or a length of at least 1. *)
Inductive item := Zero | Short (v : Z) | Long (v : Z) | Length (l : Z).
Definition item_lengths (i : item) : list Z :=
  match i with
  | Zero => [0]
  | Short v => repeat 0 (Z.to_nat (3 + v))
  | Long v => repeat 0 (Z.to_nat (20 + v))
  | Length l => [l]
  end.
Inductive item_bits (c : coder) : item -> bits -> Prop :=
| bits_zero b : coded c 0 b -> item_bits c Zero b
| bits_short v b : coded c 1 b -> 0 <= v < 2 ^ 4 -> item_bits c (Short v) (b ++ bits_of 4 v)
| bits_long v b : coded c 2 b -> 0 <= v < 2 ^ 9 -> item_bits c (Long v) (b ++ bits_of 9 v)
| bits_length l b : coded c (l + 2) b -> 1 <= l -> item_bits c (Length l) b.
Inductive character_table (c : coder) : coder -> bits -> Prop :=
| character_constant v : 0 <= v < 2 ^ 9 -> character_table c (Constant v) (bits_of 9 0 ++ bits_of 9 v)
| character_lengths_of items bs : Forall2 (item_bits c) items bs ->
    let ls := flat_map item_lengths items in
    0 < Z.of_nat (length ls) < 2 ^ 9 ->
    character_table c (Canonical ls) (bits_of 9 (Z.of_nat (length ls)) ++ concat bs).

(** The head of a block of [n] tokens: their number and the three codes. *)
Inductive head (n : Z) : coder -> coder -> bits -> Prop :=
| head_of lengths characters distances b1 b2 b3 : 0 < n < 2 ^ 16 ->
    length_table lengths b1 -> character_table lengths characters b2 -> distance_table distances b3 ->
    head n characters distances (bits_of 16 n ++ b1 ++ b2 ++ b3).

(** A token: a byte, or a copy of [length] bytes from [distance] bytes before.  Characters up to 255
    are bytes, those from 256 to 509 stand for copies of 3 to 256 bytes, 510 ends the data.  A
    distance is written as the number of bits of the distance less 1 and, below the highest, those bits. *)
Inductive token := Byte (b : Z) | Copy (length distance : Z).
Inductive distance_bits (c : coder) : Z -> bits -> Prop :=
| distance_one b : coded c 0 b -> distance_bits c 1 b
| distance_more v low b : coded c v b -> 1 <= v -> 0 <= low < 2 ^ (v - 1) ->
    distance_bits c (2 ^ (v - 1) + low + 1) (b ++ bits_of (Z.to_nat (v - 1)) low).
Inductive token_bits (characters distances : coder) : token -> bits -> Prop :=
| token_byte v b : coded characters v b -> 0 <= v <= 255 -> token_bits characters distances (Byte v) b
| token_copy n d b1 b2 : coded characters (n + 253) b1 -> 3 <= n <= 256 -> distance_bits distances d b2 ->
    token_bits characters distances (Copy n d) (b1 ++ b2).

(** The bits from a place where [n] tokens of a block with these codes are left: tokens, then the next
    block, until the end character, whatever follows it, or the end of the data. *)
Inductive stream : Z -> coder -> coder -> list token -> bits -> Prop :=
| stream_token n ch di t ts b r : 0 < n -> token_bits ch di t b -> b ++ r <> [] ->
    stream (n - 1) ch di ts r -> stream n ch di (t :: ts) (b ++ r)
| stream_block n ch di ch' di' ts b r : head n ch' di' b -> r <> [] -> stream n ch' di' ts r -> stream 0 ch di ts (b ++ r)
| stream_end n ch di b r : 0 < n -> coded ch 510 b -> b ++ r <> [] -> stream n ch di [] (b ++ r)
| stream_stop n ch di : stream n ch di [] [].
(** A compressed section with the given tokens. *)
Definition compressed (data : list Z) (ts : list token) : Prop := stream 0 (Constant 0) (Constant 0) ts (data_bits data).

(** What tokens mean after [out]: bytes stand for themselves; each byte of a copy equals the one
    [distance] places before it, which may belong to the same copy. *)
Inductive means : list Z -> list token -> list Z -> Prop :=
| means_nothing out : means out [] out
| means_byte out b ts r : means (out ++ [b]) ts r -> means out (Byte b :: ts) r
| means_copy out n d new ts r : 1 <= d <= Z.of_nat (length out) -> Z.of_nat (length new) = n ->
    (forall k, (k < length new)%nat ->
       nth_error (out ++ new) (length out + k) = nth_error (out ++ new) (length out + k - Z.to_nat d)) ->
    means (out ++ new) ts r -> means out (Copy n d :: ts) r.

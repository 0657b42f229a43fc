(** pyembroidery/EmbCompress.py: the compressor and expander of HUS files.  Input bytes are
    integers 0..255, the output of the expander is a list of integers. *)
From Coq Require Import ZArith List Bool.
From Verif Require Import PyBase PatternModel.
Import ListNotations.
Open Scope Z_scope.

(* EmbCompress.py 6-11 *)
Definition compress (data : list Z) : list Z :=
  let size := zlen data in
  [Z.land (Z.shiftr size 0) 255; Z.land (Z.shiftr size 8) 255; 0x02; 0xA0; 0x01; 0xFE] ++ data.

(** EmbCompress.py 14-19.  The table is None until build_table has run. *)
Record huffman := mkH {
  h_default : Z;
  h_lengths : list Z;
  h_table : option (list Z);
  h_width : Z }.
(* EmbCompress.py 95, 112, 141 *)
Definition constant_huffman (value : Z) : huffman := mkH value [] None 0.

(** EmbCompress.py 28-31: one pass of the inner loop; [index] is the position of the first
    element of [lengths], [size] the (integral) value of the variable. *)
Fixpoint table_pass (bit_length size index : Z) (lengths : list Z) : list Z :=
  match lengths with
  | [] => []
  | l :: r => (if l =? bit_length then repeat index (Z.to_nat size) else []) ++ table_pass bit_length size (index + 1) r
  end.
(** EmbCompress.py 21-31.  size is halved in floating point, exactly: it is a power of two
    down to one.  max() of an empty list cannot occur: the callers pass at least one length. *)
Definition build_table (default : Z) (lengths : list Z) : huffman :=
  let width := fold_left Z.max lengths 0 in
  mkH default lengths
    (Some (flat_map (fun k => let b := Z.of_nat k in table_pass b (2 ^ (width - b)) 0 lengths) (seq 1 (Z.to_nat width))))
    width.

(** Python's l[i], negative indexes counting from the end. *)
Definition py_get {A} (i : Z) (l : list A) : res A :=
  if 0 <=? i then match nth_error l (Z.to_nat i) with Some a => Ok a | None => Err IndexError end
  else if 0 <=? i + zlen l
       then match nth_error l (Z.to_nat (i + zlen l)) with Some a => Ok a | None => Err IndexError end
       else Err IndexError.
(** Python's l[a:b] for any a, b. *)
Definition clamp {A} (i : Z) (l : list A) : Z := Z.min (zlen l) (if i <? 0 then Z.max 0 (i + zlen l) else i).
Definition py_range {A} (a b : Z) (l : list A) : list A :=
  firstn (Z.to_nat (clamp b l - clamp a l)) (skipn (Z.to_nat (clamp a l)) l).

(** EmbCompress.py 33-39; a negative shift count is a ValueError.  self.lengths[v] cannot fail:
    table entries are indexes of it. *)
Definition lookup (h : huffman) (byte_lookup : Z) : res (Z * Z) :=
  match h_table h with
  | None => Ok (h_default h, 0)
  | Some table =>
      if 16 - h_width h <? 0 then Err ValueError
      else
        do v <- py_get (Z.shiftr byte_lookup (16 - h_width h)) table;
        do l <- py_get v (h_lengths h);
        Ok (v, l)
  end.

(** EmbCompress.py 50-64.  int(p / 8) truncates; p is -1 for a start of 0 and a length of 0,
    and divided as if exactly (below 2^53). *)
Fixpoint gather (data : list Z) (i : Z) (n : nat) (value : Z) : Z :=
  match n with
  | O => value
  | S n =>
      let value := Z.shiftl value 8 in
      let value := match nth_error data (Z.to_nat i) with Some b => Z.lor value (Z.land b 255) | None => value end in
      gather data (i + 1) n value
  end.
Definition get_bits (data : list Z) (start length : Z) : Z :=
  let last := start + length - 1 in
  let start_byte := Z.quot start 8 in
  let last_byte := Z.quot last 8 in
  let value := gather data start_byte (Z.to_nat (last_byte + 1 - start_byte)) 0 in
  let unused := (8 - (last + 1) mod 8) mod 8 in
  Z.land (Z.shiftr value unused) (Z.shiftl 1 length - 1).

(** The functions below read at bit position [p] and return the value and the new position:
    EmbCompress.py 66-75. *)
Definition pop (data : list Z) (n p : Z) : Z * Z := (get_bits data p n, p + n).

(* EmbCompress.py 81-88 *)
Fixpoint more_ones (data : list Z) (n : nat) (m p : Z) : Z * Z :=
  match n with
  | O => (m, p)
  | S n => let '(s, p) := pop data 1 p in if s =? 1 then more_ones data n (m + 1) p else (m, p)
  end.
(* EmbCompress.py 77-89 *)
Definition read_variable_length (data : list Z) (p : Z) : Z * Z :=
  let '(m, p) := pop data 3 p in
  if negb (m =? 7) then (m, p) else more_ones data 13 m p.

(** lengths[i] = v *)
Definition py_set {A} (i : Z) (v : A) (l : list A) : res (list A) :=
  if (0 <=? i) && (i <? zlen l)
  then Ok (firstn (Z.to_nat i) l ++ v :: skipn (Z.to_nat i + 1) l)
  else Err IndexError.

(** EmbCompress.py 99-103.  [n] bounds the rounds: index grows in each, so count suffice. *)
Fixpoint character_lengths (data : list Z) (n : nat) (index : Z) (lengths : list Z) (p : Z) : res (list Z * Z) :=
  if index <? zlen lengths then
    match n with
    | O => Err OutOfFuel
    | S n =>
        let '(skip, p) := if index =? 3 then pop data 2 p else (0, p) in
        let index := index + skip in
        let '(m, p) := read_variable_length data p in
        do lengths <- py_set index m lengths;
        character_lengths data n (index + 1) lengths p
    end
  else Ok (lengths, p).
(* EmbCompress.py 91-106 *)
Definition load_character_length_huffman (data : list Z) (p : Z) : res (huffman * Z) :=
  let '(count, p) := pop data 5 p in
  if count =? 0 then let '(v, p) := pop data 5 p in Ok (constant_huffman v, p)
  else
    do '(lengths, p) <- character_lengths data (Z.to_nat count) 0 (repeat 0 (Z.to_nat count)) p;
    Ok (build_table 8 lengths, p).

(** EmbCompress.py 116-132.  [n] as above. *)
Fixpoint code_lengths (data : list Z) (h : huffman) (n : nat) (index : Z) (lengths : list Z) (p : Z) : res (list Z * Z) :=
  if index <? zlen lengths then
    match n with
    | O => Err OutOfFuel
    | S n =>
        do '(c, l) <- lookup h (get_bits data p 16);
        let p := p + l in
        if c =? 0 then code_lengths data h n (index + 1) lengths p
        else if c =? 1 then let '(v, p) := pop data 4 p in code_lengths data h n (index + (3 + v)) lengths p
        else if c =? 2 then let '(v, p) := pop data 9 p in code_lengths data h n (index + (20 + v)) lengths p
        else
          do lengths <- py_set index (c - 2) lengths;
          code_lengths data h n (index + 1) lengths p
    end
  else Ok (lengths, p).
(* EmbCompress.py 108-135 *)
Definition load_character_huffman (data : list Z) (length_huffman : huffman) (p : Z) : res (huffman * Z) :=
  let '(count, p) := pop data 9 p in
  if count =? 0 then let '(v, p) := pop data 9 p in Ok (constant_huffman v, p)
  else
    do '(lengths, p) <- code_lengths data length_huffman (Z.to_nat count) 0 (repeat 0 (Z.to_nat count)) p;
    Ok (build_table 0 lengths, p).

(* EmbCompress.py 145-147 *)
Fixpoint distance_lengths (data : list Z) (n : nat) (p : Z) : list Z * Z :=
  match n with
  | O => ([], p)
  | S n => let '(m, p) := read_variable_length data p in let '(r, p) := distance_lengths data n p in (m :: r, p)
  end.
(* EmbCompress.py 137-150 *)
Definition load_distance_huffman (data : list Z) (p : Z) : huffman * Z :=
  let '(count, p) := pop data 5 p in
  if count =? 0 then let '(v, p) := pop data 5 p in (constant_huffman v, p)
  else let '(lengths, p) := distance_lengths data (Z.to_nat count) p in (build_table 0 lengths, p).

(** EmbCompress.py 43-48: bit_position, block_elements and the two tables in use. *)
Record expander := mkE {
  e_position : Z;
  e_elements : Z;
  e_character : huffman;
  e_distance : huffman }.

(* EmbCompress.py 152-156 *)
Definition load_block (data : list Z) (p : Z) : res expander :=
  let '(elements, p) := pop data 16 p in
  do '(lengths, p) <- load_character_length_huffman data p;
  do '(character, p) <- load_character_huffman data lengths p;
  let '(distance, p) := load_distance_huffman data p in
  Ok (mkE p elements character distance).

(* EmbCompress.py 158-164 *)
Definition get_token (data : list Z) (e : expander) : res (Z * expander) :=
  do e <- (if e_elements e <=? 0 then load_block data (e_position e) else Ok e);
  do '(v, l) <- lookup (e_character e) (get_bits data (e_position e) 16);
  Ok (v, mkE (e_position e + l) (e_elements e - 1) (e_character e) (e_distance e)).

(** EmbCompress.py 166-173.  1 << v with v >= 0: a table entry or a 5-bit value, not 0. *)
Definition get_position (data : list Z) (e : expander) : res (Z * expander) :=
  do '(v, l) <- lookup (e_distance e) (get_bits data (e_position e) 16);
  let p := e_position e + l in
  if v =? 0 then Ok (0, mkE p (e_elements e) (e_character e) (e_distance e))
  else
    let v := v - 1 in
    let '(low, p) := pop data v p in
    Ok (Z.shiftl 1 v + low, mkE p (e_elements e) (e_character e) (e_distance e)).

(** EmbCompress.py 197-198; [i] the next index, [n] indexes left. *)
Fixpoint copy_each (n : nat) (i : Z) (output : list Z) : res (list Z) :=
  match n with
  | O => Ok output
  | S n => do b <- py_get i output; copy_each n (i + 1) (output ++ [b])
  end.
(* EmbCompress.py 191-198 *)
Definition copy_back (length back : Z) (output : list Z) : res (list Z) :=
  let position := zlen output - back in
  if length <? back then Ok (output ++ py_range position (position + length) output)
  else copy_each (Z.to_nat length) position output.

(** uncompressed_size is None or len(output_data) <= uncompressed_size *)
Definition wants_more (uncompressed_size : option Z) (output : list Z) : bool :=
  match uncompressed_size with None => true | Some n => zlen output <=? n end.

(* EmbCompress.py 180-199; [fuel] bounds the rounds of the while loop *)
Fixpoint expand_loop (data : list Z) (uncompressed_size : option Z) (fuel : nat) (e : expander) (output : list Z)
  : res (list Z) :=
  if (e_position e <? zlen data * 8) && wants_more uncompressed_size output then
    match fuel with
    | O => Err OutOfFuel
    | S fuel =>
        do '(character, e) <- get_token data e;
        if character <=? 255 then expand_loop data uncompressed_size fuel e (output ++ [character])
        else if character =? 510 then Ok output
        else
          let length := character - 253 in
          do '(position, e) <- get_position data e;
          do output <- copy_back length (position + 1) output;
          expand_loop data uncompressed_size fuel e output
    end
  else Ok output.
(** EmbCompress.py 1-3, 43-48, 175-199.  The tables that are None at first are never used
    before load_block replaces them, because block_elements is -1. *)
Definition expand (fuel : nat) (data : list Z) (uncompressed_size : option Z) : res (list Z) :=
  expand_loop data uncompressed_size fuel (mkE 0 (-1) (constant_huffman 0) (constant_huffman 0)) [].

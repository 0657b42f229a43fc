(** pyembroidery/EmbThread.py: colours, colour distance, palettes. *)
From Coq Require Import ZArith List Bool.
From Verif Require Import PyBase.
Import ListNotations.
Open Scope Z_scope.

(** A text is the list of its code points. *)
Definition text := list Z.

(** EmbThread.py 94-115: the attributes of a thread. *)
Record thread := mkT {
  t_color : Z;
  t_description : option text;
  t_catalog : option text;
  t_details : option text;
  t_brand : option text;
  t_chart : option text;
  t_weight : option text }.

Definition plain_thread (c : Z) : thread := mkT c None None None None None None.

Fixpoint text_eqb (a b : text) : bool :=
  match a, b with
  | [], [] => true
  | x :: a, y :: b => (x =? y) && text_eqb a b
  | _, _ => false
  end.
Definition otext_eqb (a b : option text) : bool :=
  match a, b with
  | None, None => true
  | Some a, Some b => text_eqb a b
  | _, _ => false
  end.

(** EmbThread.py 138-168 between two threads. *)
Definition thread_eqb (a b : thread) : bool :=
  (Z.land (t_color a) 0xFFFFFF =? Z.land (t_color b) 0xFFFFFF)
  && otext_eqb (t_description a) (t_description b)
  && otext_eqb (t_catalog a) (t_catalog b)
  && otext_eqb (t_details a) (t_details b)
  && otext_eqb (t_brand a) (t_brand b)
  && otext_eqb (t_chart a) (t_chart b)
  && otext_eqb (t_weight a) (t_weight b).

(* EmbThread.py 185-195 *)
Definition get_red (c : Z) : Z := Z.land (Z.shiftr c 16) 0xFF.
Definition get_green (c : Z) : Z := Z.land (Z.shiftr c 8) 0xFF.
Definition get_blue (c : Z) : Z := Z.land c 0xFF.

(** int(round(n / 2)): Python rounds halves to the even neighbour. *)
Definition round_half (n : Z) : Z :=
  let q := n / 2 in
  if n mod 2 =? 0 then q else if q mod 2 =? 0 then q else q + 1.

(* EmbThread.py 79-88 *)
Definition color_distance_red_mean (r1 g1 b1 r2 g2 b2 : Z) : Z :=
  let red_mean := round_half (r1 + r2) in
  let r := r1 - r2 in
  let g := g1 - g2 in
  let b := b1 - b2 in
  Z.shiftr ((512 + red_mean) * r * r) 8 + 4 * g * g + Z.shiftr ((767 - red_mean) * b * b) 8.

Definition distance (c1 c2 : Z) : Z :=
  color_distance_red_mean (get_red c1) (get_green c1) (get_blue c1)
    (get_red c2) (get_green c2) (get_blue c2).

(** EmbThread.py 46-63: the loop.  [best] is (current_closest_value, closest_index), None
    standing for (inf, None); [i] the index of the first element of [values]. *)
Fixpoint nearest_loop (c : Z) (i : nat) (best : option (Z * nat)) (values : list (option thread))
  : option (Z * nat) :=
  match values with
  | [] => best
  | None :: r => nearest_loop c (S i) best r
  | Some t :: r =>
      let dist := distance c (t_color t) in
      match best with
      | None => nearest_loop c (S i) (Some (dist, i)) r
      | Some (d, _) =>
          if dist <=? d then nearest_loop c (S i) (Some (dist, i)) r
          else nearest_loop c (S i) best r
      end
  end.

Definition find_nearest_color_index (c : Z) (values : list (option thread)) : option nat :=
  match nearest_loop c 0 None values with Some (_, i) => Some i | None => None end.

(** values[i] = x for an index in range. *)
Fixpoint set_nth {A} (i : nat) (x : A) (l : list A) : list A :=
  match i, l with
  | O, _ :: r => x :: r
  | S i, a :: r => a :: set_nth i x r
  | _, [] => []
  end.

(** EmbThread.py 4-11: moving the closest remaining palette entry into the chart, for each
    thread of [order]: the enumeration of set(threadlist), whose order Python leaves open. *)
Fixpoint fill_chart (order : list thread) (palette chart : list (option thread))
  : list (option thread) :=
  match order with
  | [] => chart
  | t :: order =>
      match find_nearest_color_index (t_color t) palette with
      | None => chart
      | Some i => fill_chart order (set_nth i None palette) (set_nth i (Some t) chart)
      end
  end.

(* EmbThread.py 1-16 *)
Definition build_unique_palette (order : list thread) (palette : list (option thread))
    (threadlist : list thread) : list (option nat) :=
  let chart := fill_chart order palette (repeat None (length palette)) in
  map (fun t => find_nearest_color_index (t_color t) chart) threadlist.

(* EmbThread.py 19-23 *)
Definition build_palette (palette : list (option thread)) (threadlist : list thread) : list (option nat) :=
  map (fun t => find_nearest_color_index (t_color t) palette) threadlist.

(** last_index == index on optional indexes. *)
Definition oidx_eqb (a b : option nat) : bool :=
  match a, b with
  | None, None => true
  | Some a, Some b => Nat.eqb a b
  | _, _ => false
  end.

(** EmbThread.py 26-43.  The initial last_thread None differs from every thread.
    thread_palette[None] would raise TypeError: reached only with an empty palette and
    index None twice, where "last_index == index" is true. *)
Fixpoint nonrepeat_loop (palette : list (option thread)) (last_index : option nat)
    (last_thread : option thread) (threads : list thread) : res (list (option nat)) :=
  match threads with
  | [] => Ok []
  | t :: r =>
      let index := find_nearest_color_index (t_color t) palette in
      let differs := match last_thread with None => true | Some lt => negb (thread_eqb lt t) end in
      if oidx_eqb last_index index && differs then
        match index with
        | None => Err TypeError
        | Some i =>
            let index := find_nearest_color_index (t_color t) (set_nth i None palette) in
            do q <- nonrepeat_loop palette index (Some t) r;
            Ok (index :: q)
        end
      else
        do q <- nonrepeat_loop palette index (Some t) r;
        Ok (index :: q)
  end.

Definition build_nonrepeat_palette (palette : list (option thread)) (threads : list thread)
  : res (list (option nat)) := nonrepeat_loop palette None None threads.

(** ** Colour texts *)
(** One lower-case hexadecimal digit, as the %x conversion writes it. *)
Definition hex_digit (n : Z) : Z := if n <? 10 then 48 + n else 87 + n.
(** "%02x" of a byte. *)
Definition hex2 (b : Z) : text := [hex_digit (b / 16); hex_digit (b mod 16)].
(* EmbThread.py 200-201 *)
Definition hex_color (c : Z) : text := [35] ++ hex2 (get_red c) ++ hex2 (get_green c) ++ hex2 (get_blue c).

Definition digit_value (ch : Z) : option Z :=
  if (48 <=? ch) && (ch <=? 57) then Some (ch - 48)
  else if (97 <=? ch) && (ch <=? 102) then Some (ch - 87)
  else if (65 <=? ch) && (ch <=? 70) then Some (ch - 55)
  else None.

(** int(h, 16) of a text of hexadecimal digits; every other text raises ValueError
    (simplified: Python also accepts a sign, blanks, underscores and an 0x prefix). *)
Fixpoint int16_acc (acc : Z) (h : text) : res Z :=
  match h with
  | [] => Ok acc
  | ch :: r => match digit_value ch with
               | Some d => int16_acc (acc * 16 + d) r
               | None => Err ValueError
               end
  end.
Definition int16 (h : text) : res Z := match h with [] => Err ValueError | _ => int16_acc 0 h end.

Fixpoint lstrip (ch : Z) (h : text) : text :=
  match h with
  | x :: r => if x =? ch then lstrip ch r else h
  | [] => []
  end.

(** EmbThread.py 70-76; the function returns None for other lengths. *)
Definition color_hex (s : text) : res (option Z) :=
  let h := lstrip 35 s in
  let size := length h in
  if (Nat.eqb size 6) || (Nat.eqb size 8) then do v <- int16 (firstn 6 h); Ok (Some v)
  else if (Nat.eqb size 4) || (Nat.eqb size 3) then
    match h with
    | a :: b :: c :: _ => do v <- int16 [a; a; b; b; c; c]; Ok (Some v)
    | _ => Err IndexError
    end
  else Ok None.

(** pyembroidery/PngWriter.py.  Lengths are exact rationals (Python floats without rounding). *)
From Coq Require Import ZArith QArith Qround List Bool.
From Verif Require Import PyBase EmbConst NumQ ThreadModel TextModel PatternModel.
Import ListNotations.
Open Scope Z_scope.

(** PngWriter.py 12-193: the dictionary characters, by code point. *)
Definition characters : list (Z * list (list Z)) := [
  (48, [[9; 9; 4; 1; 0; 1; 5; 9; 9];
    [9; 3; 0; 0; 0; 0; 0; 5; 9];
    [7; 0; 1; 7; 9; 6; 0; 0; 9];
    [4; 0; 5; 9; 9; 9; 4; 0; 6];
    [3; 0; 8; 9; 9; 9; 6; 0; 4];
    [2; 0; 9; 5; 0; 6; 8; 0; 3];
    [2; 0; 9; 4; 0; 6; 8; 0; 3];
    [2; 0; 9; 9; 9; 9; 8; 0; 3];
    [3; 0; 8; 9; 9; 9; 6; 0; 4];
    [4; 0; 5; 9; 9; 9; 4; 0; 6];
    [7; 0; 1; 7; 9; 6; 0; 0; 8];
    [9; 3; 0; 0; 0; 0; 0; 5; 9];
    [9; 9; 4; 1; 0; 1; 5; 9; 9]]);
  (49, [[9; 8; 5; 2; 0; 1; 9; 9; 9];
    [9; 1; 0; 0; 0; 1; 9; 9; 9];
    [9; 2; 4; 7; 1; 1; 9; 9; 9];
    [9; 9; 9; 9; 1; 1; 9; 9; 9];
    [9; 9; 9; 9; 1; 1; 9; 9; 9];
    [9; 9; 9; 9; 1; 1; 9; 9; 9];
    [9; 9; 9; 9; 1; 1; 9; 9; 9];
    [9; 9; 9; 9; 1; 1; 9; 9; 9];
    [9; 9; 9; 9; 1; 1; 9; 9; 9];
    [9; 9; 9; 9; 1; 1; 9; 9; 9];
    [9; 9; 9; 9; 1; 1; 9; 9; 9];
    [9; 3; 0; 0; 0; 0; 0; 0; 3];
    [9; 3; 0; 0; 0; 0; 0; 0; 3]]);
  (50, [[8; 5; 2; 1; 1; 2; 6; 9; 9];
    [4; 0; 0; 0; 0; 0; 0; 4; 9];
    [5; 4; 7; 8; 8; 5; 0; 0; 8];
    [9; 9; 9; 9; 9; 9; 3; 0; 7];
    [9; 9; 9; 9; 9; 9; 3; 0; 9];
    [9; 9; 9; 9; 9; 8; 0; 4; 9];
    [9; 9; 9; 9; 8; 1; 2; 9; 9];
    [9; 9; 9; 8; 2; 2; 9; 9; 9];
    [9; 9; 8; 1; 2; 9; 9; 9; 9];
    [9; 8; 1; 2; 9; 9; 9; 9; 9];
    [7; 1; 2; 9; 9; 9; 9; 9; 9];
    [3; 0; 0; 0; 0; 0; 0; 0; 6];
    [3; 0; 0; 0; 0; 0; 0; 0; 6]]);
  (51, [[9; 6; 2; 1; 1; 2; 6; 9; 9];
    [5; 0; 0; 0; 0; 0; 0; 4; 9];
    [6; 3; 7; 8; 9; 6; 1; 0; 8];
    [9; 9; 9; 9; 9; 9; 3; 0; 8];
    [9; 9; 9; 9; 8; 6; 1; 1; 9];
    [9; 9; 4; 0; 0; 0; 2; 8; 9];
    [9; 9; 4; 0; 0; 0; 2; 8; 9];
    [9; 9; 9; 9; 8; 6; 1; 1; 8];
    [9; 9; 9; 9; 9; 9; 5; 0; 6];
    [9; 9; 9; 9; 9; 9; 5; 0; 5];
    [3; 5; 7; 9; 8; 6; 1; 0; 7];
    [2; 0; 0; 0; 0; 0; 0; 3; 9];
    [8; 4; 2; 0; 1; 2; 5; 9; 9]]);
  (52, [[9; 9; 9; 9; 7; 0; 0; 7; 9];
    [9; 9; 9; 9; 2; 1; 0; 7; 9];
    [9; 9; 9; 5; 2; 4; 0; 7; 9];
    [9; 9; 8; 1; 7; 4; 0; 7; 9];
    [9; 9; 3; 4; 9; 4; 0; 7; 9];
    [9; 6; 1; 9; 9; 4; 0; 7; 9];
    [8; 1; 6; 9; 9; 4; 0; 7; 9];
    [4; 3; 9; 9; 9; 4; 0; 7; 9];
    [0; 0; 0; 0; 0; 0; 0; 0; 0];
    [0; 0; 0; 0; 0; 0; 0; 0; 0];
    [9; 9; 9; 9; 9; 4; 0; 7; 9];
    [9; 9; 9; 9; 9; 4; 0; 7; 9];
    [9; 9; 9; 9; 9; 4; 0; 7; 9]]);
  (53, [[7; 0; 0; 0; 0; 0; 0; 5; 9];
    [7; 0; 0; 0; 0; 0; 0; 5; 9];
    [7; 0; 5; 9; 9; 9; 9; 9; 9];
    [7; 0; 5; 9; 9; 9; 9; 9; 9];
    [7; 0; 1; 1; 0; 2; 6; 9; 9];
    [7; 0; 0; 0; 0; 0; 0; 5; 9];
    [7; 4; 7; 9; 8; 4; 0; 0; 9];
    [9; 9; 9; 9; 9; 9; 3; 0; 6];
    [9; 9; 9; 9; 9; 9; 5; 0; 6];
    [9; 9; 9; 9; 9; 9; 3; 0; 6];
    [3; 5; 8; 9; 8; 5; 0; 0; 9];
    [2; 0; 0; 0; 0; 0; 0; 6; 9];
    [8; 4; 1; 0; 1; 2; 7; 9; 9]]);
  (54, [[9; 9; 7; 2; 1; 0; 3; 8; 9];
    [9; 6; 0; 0; 0; 0; 0; 3; 9];
    [8; 0; 0; 4; 8; 9; 6; 4; 9];
    [5; 0; 4; 9; 9; 9; 9; 9; 9];
    [3; 0; 8; 9; 9; 9; 9; 9; 9];
    [2; 1; 8; 3; 0; 1; 3; 8; 9];
    [2; 2; 2; 0; 0; 0; 0; 1; 8];
    [2; 0; 2; 7; 9; 8; 2; 0; 5];
    [3; 0; 7; 9; 9; 9; 7; 0; 3];
    [4; 0; 7; 9; 9; 9; 7; 0; 3];
    [7; 0; 2; 7; 9; 8; 2; 0; 5];
    [9; 3; 0; 0; 0; 0; 0; 1; 8];
    [9; 9; 4; 1; 0; 1; 3; 8; 9]]);
  (55, [[2; 0; 0; 0; 0; 0; 0; 0; 5];
    [2; 0; 0; 0; 0; 0; 0; 0; 7];
    [9; 9; 9; 9; 9; 9; 3; 2; 9];
    [9; 9; 9; 9; 9; 8; 0; 5; 9];
    [9; 9; 9; 9; 9; 4; 0; 8; 9];
    [9; 9; 9; 9; 9; 1; 3; 9; 9];
    [9; 9; 9; 9; 6; 0; 6; 9; 9];
    [9; 9; 9; 9; 2; 1; 9; 9; 9];
    [9; 9; 9; 7; 0; 4; 9; 9; 9];
    [9; 9; 9; 3; 0; 8; 9; 9; 9];
    [9; 9; 8; 0; 2; 9; 9; 9; 9];
    [9; 9; 5; 0; 6; 9; 9; 9; 9];
    [9; 9; 1; 0; 9; 9; 9; 9; 9]]);
  (56, [[9; 8; 3; 1; 0; 1; 4; 8; 9];
    [8; 1; 0; 0; 0; 0; 0; 1; 9];
    [5; 0; 3; 8; 9; 7; 2; 0; 6];
    [5; 0; 7; 9; 9; 9; 5; 0; 6];
    [7; 0; 3; 8; 9; 7; 2; 1; 8];
    [9; 7; 2; 0; 0; 0; 2; 7; 9];
    [9; 5; 1; 0; 0; 0; 1; 6; 9];
    [6; 0; 3; 8; 9; 7; 2; 0; 7];
    [2; 0; 9; 9; 9; 9; 7; 0; 4];
    [2; 0; 9; 9; 9; 9; 7; 0; 3];
    [3; 0; 3; 8; 9; 7; 2; 0; 4];
    [7; 0; 0; 0; 0; 0; 0; 1; 8];
    [9; 8; 3; 1; 0; 1; 4; 8; 9]]);
  (57, [[9; 7; 3; 0; 0; 2; 6; 9; 9];
    [7; 0; 0; 0; 0; 0; 0; 5; 9];
    [3; 0; 4; 8; 9; 7; 1; 0; 9];
    [1; 0; 9; 9; 9; 9; 5; 0; 6];
    [1; 1; 9; 9; 9; 9; 5; 0; 5];
    [3; 0; 4; 8; 9; 7; 1; 0; 4];
    [7; 0; 0; 0; 0; 0; 3; 0; 4];
    [9; 7; 2; 0; 1; 4; 7; 0; 4];
    [9; 9; 9; 9; 9; 9; 5; 0; 5];
    [9; 9; 9; 9; 9; 9; 2; 0; 7];
    [9; 3; 7; 9; 8; 3; 0; 2; 9];
    [9; 1; 0; 0; 0; 0; 0; 7; 9];
    [9; 7; 2; 0; 1; 3; 8; 9; 9]]);
  (45, [[9; 9; 9; 9; 9; 9; 9; 9; 9];
    [9; 9; 9; 9; 9; 9; 9; 9; 9];
    [9; 9; 9; 9; 9; 9; 9; 9; 9];
    [9; 9; 9; 9; 9; 9; 9; 9; 9];
    [9; 9; 9; 9; 9; 9; 9; 9; 9];
    [9; 9; 9; 9; 9; 9; 9; 9; 9];
    [9; 9; 9; 9; 9; 9; 9; 9; 9];
    [9; 9; 1; 0; 0; 0; 3; 9; 9];
    [9; 9; 1; 0; 0; 0; 3; 9; 9];
    [9; 9; 9; 9; 9; 9; 9; 9; 9];
    [9; 9; 9; 9; 9; 9; 9; 9; 9];
    [9; 9; 9; 9; 9; 9; 9; 9; 9];
    [9; 9; 9; 9; 9; 9; 9; 9; 9]]);
  (109, [[9; 9; 9; 9; 9; 9; 9; 9; 9];
    [9; 9; 9; 9; 9; 9; 9; 9; 9];
    [9; 9; 9; 9; 9; 9; 9; 9; 9];
    [0; 5; 2; 1; 7; 6; 1; 2; 8];
    [0; 1; 0; 0; 1; 1; 0; 0; 3];
    [0; 2; 9; 4; 0; 4; 8; 2; 1];
    [0; 5; 9; 6; 0; 7; 9; 4; 1];
    [0; 5; 9; 6; 0; 7; 9; 4; 0];
    [0; 5; 9; 6; 0; 7; 9; 4; 0];
    [0; 5; 9; 6; 0; 7; 9; 4; 0];
    [0; 5; 9; 6; 0; 7; 9; 4; 0];
    [0; 5; 9; 6; 0; 7; 9; 4; 0];
    [0; 5; 9; 6; 0; 7; 9; 4; 0]])].

(** ** The picture *)
(** PngWriter.py 224-228: the buffer.  Every index the file uses is 4 * pos + 0..3, so the
    bytes are kept in groups of four: red, green, blue, alpha. *)
Definition pixel := (Z * Z * Z * Z)%type.
Record canvas := mkCanvas { c_width : Z; c_height : Z; c_pixels : list pixel }.
(** bytearray(4 * width * height): a negative size is a ValueError. *)
Definition new_canvas (width height : Z) : res canvas :=
  let w := width + 3 in
  let h := height + 3 in
  if w * h <? 0 then Err ValueError else Ok (mkCanvas w h (repeat (0, 0, 0, 0) (Z.to_nat (w * h)))).
(** What the buffer's colour methods set (PngWriter.py 231-235, 259-267): every caller passes
    alpha 255, so the alpha is not kept. *)
Record pen := mkPen { pen_red : Z; pen_green : Z; pen_blue : Z }.
(** PngWriter.py 264-267 and the test of 342: sqrt(n) < 15 is n < 225. *)
Definition near_black (p : pen) : bool :=
  let r := pen_red p in
  let g := pen_green p in
  let b := pen_blue p in
  let rmean := r / 2 in
  Z.shiftr ((512 + rmean) * r * r) 8 + 4 * g * g + Z.shiftr ((767 - rmean) * b * b) 8 <? 225.

(* PngWriter.py 269-312, with the default shades and positions (modify_gradient has no caller) *)
Definition ramp (position start range from_shade to_shade : Q) : Q :=
  let amount := ((position - start) * (1 / range))%Q in
  let v := (amount * (to_shade - from_shade) + from_shade)%Q in
  let v := if q_gt v 1 then 1%Q else v in
  if q_gt 0 v then 0%Q else v.
Definition gradient (position : Q) : res Q :=
  if Qle_bool position (40 # 100) then Ok (ramp position 0 ((40 # 100) - 0) (65 # 100) (110 # 100))
  else if Qle_bool position (50 # 100)
  then Ok (ramp position (40 # 100) ((50 # 100) - (40 # 100)) (110 # 100) (155 # 100))
  else if Qle_bool position (70 # 100)
  then Ok (ramp position (50 # 100) ((70 # 100) - (50 # 100)) (155 # 100) (110 # 100))
  else if Qle_bool position 1
  then Ok (ramp position (70 # 100) (1 - (70 # 100)) (110 # 100) (65 # 100))
  else Err ValueError.

(** PngWriter.py 314-319: background() *)
Definition background (red green blue alpha : Z) (c : canvas) : canvas :=
  mkCanvas (c_width c) (c_height c) (map (fun _ => (red, green, blue, alpha)) (c_pixels c)).

(** Python's buf[i] for a possibly negative index. *)
Definition py_pos (n len : Z) : option nat :=
  if (0 <=? n) && (n <? len) then Some (Z.to_nat n)
  else if (- len <=? n) && (n <? 0) then Some (Z.to_nat (n + len))
  else None.

(* PngWriter.py 340-365: one channel *)
Definition channel (c : Z) (v : Q) : Z :=
  let r := (inject_Z c * v)%Q in
  let r := if q_gt 0 r then 0%Q else r in
  let r := if q_gt r 255 then 255%Q else r in
  q_trunc r.
Definition ink (p : pen) (v : Q) : pixel :=
  if near_black p then (channel 35 v, channel 35 v, channel 35 v, 255 - 4)
  else (channel (pen_red p) v, channel (pen_green p) v, channel (pen_blue p) v, 255 - 4).
(** PngWriter.py 321-385 with a = None.  The alpha is 255, so the blending of 366-377 is not
    reached.  The IndexError of an index outside the buffer is caught: nothing is drawn. *)
Definition plot (p : pen) (c : canvas) (x y : Z) (v : Q) : canvas :=
  let pos := c_width c * (y + 1) + (x + 1) in
  match py_pos pos (zlen (c_pixels c)) with
  | None => c
  | Some n => mkCanvas (c_width c) (c_height c) (set_nth n (ink p v) (c_pixels c))
  end.

(* PngWriter.py 432-445 *)
Definition range_from (a : Z) (n : nat) : list Z := map (fun k => a + Z.of_nat k) (seq 0 n).
Definition py_range (a b : Z) : list Z := range_from a (Z.to_nat (b - a)).
Definition line_for_point (fancy : bool) (w : Z) (p : pen) (c : canvas) (x y : Z) (dy : bool)
    (max_pos index : Z) : res canvas :=
  let left := Z.shiftr w 1 in
  let right := w - left in
  do v <- (if fancy && (0 <? max_pos) then gradient (inject_Z index / inject_Z max_pos) else Ok 1%Q);
  Ok (fold_left (fun c pos => if dy then plot p c (x + pos) y v else plot p c x (y + pos) v)
        (py_range (- left) right) c).

(** PngWriter.py 387-430.  The calls of line_for_point do not change the variables of the loop,
    so the points and their index are listed first.  [fuel] bounds the rounds. *)
Fixpoint line_x (fuel : nat) (x0 y0 x1 fraction dx dy step_x step_y i : Z) : res (list (Z * Z * Z)) :=
  if x0 =? x1 then Ok []
  else match fuel with
       | O => Err OutOfFuel
       | S fuel =>
           let y0 := if 0 <=? fraction then y0 + step_y else y0 in
           let fraction := if 0 <=? fraction then fraction - dx else fraction in
           let x0 := x0 + step_x in
           let fraction := fraction + dy in
           do r <- line_x fuel x0 y0 x1 fraction dx dy step_x step_y (i + 1);
           Ok ((x0, y0, i) :: r)
       end.
(** 418-430: here i is not increased in the loop. *)
Fixpoint line_y (fuel : nat) (x0 y0 y1 fraction dx dy step_x step_y i : Z) : res (list (Z * Z * Z)) :=
  if y0 =? y1 then Ok []
  else match fuel with
       | O => Err OutOfFuel
       | S fuel =>
           let x0 := if 0 <=? fraction then x0 + step_x else x0 in
           let fraction := if 0 <=? fraction then fraction - dy else fraction in
           let y0 := y0 + step_y in
           let fraction := fraction + dx in
           do r <- line_y fuel x0 y0 y1 fraction dx dy step_x step_y i;
           Ok ((x0, y0, i) :: r)
       end.
Record line := mkLine { l_vertical : bool; l_max : Z; l_points : list (Z * Z * Z) }.
Definition line_of (x0 y0 x1 y1 : Z) : res line :=
  let dy := y1 - y0 in
  let dx := x1 - x0 in
  let step_y := if dy <? 0 then -1 else 1 in
  let dy := if dy <? 0 then - dy else dy in
  let odx := Z.abs dx in
  let ody := Z.abs dy in
  let step_x := if dx <? 0 then -1 else 1 in
  let dx := if dx <? 0 then - dx else dx in
  if dx >? dy then
    let dy := Z.shiftl dy 1 in
    let dx := Z.shiftl dx 1 in
    let fraction := dy - Z.shiftr dx 1 in
    do r <- line_x (Z.to_nat odx) x0 y0 x1 fraction dx dy step_x step_y 1;
    Ok (mkLine false odx ((x0, y0, 0) :: r))
  else
    let dy := Z.shiftl dy 1 in
    let dx := Z.shiftl dx 1 in
    let fraction := dx - Z.shiftr dy 1 in
    do r <- line_y (Z.to_nat ody) x0 y0 y1 fraction dx dy step_x step_y 1;
    Ok (mkLine true ody ((x0, y0, 0) :: r)).
Fixpoint draw_points (fancy : bool) (w : Z) (p : pen) (vertical : bool) (max_pos : Z)
    (l : list (Z * Z * Z)) (c : canvas) : res canvas :=
  match l with
  | [] => Ok c
  | (x, y, i) :: r =>
      do c <- line_for_point fancy w p c x y vertical max_pos i;
      draw_points fancy w p vertical max_pos r c
  end.
Definition draw_line (fancy : bool) (w : Z) (p : pen) (x0 y0 x1 y1 : Z) (c : canvas) : res canvas :=
  do l <- line_of x0 y0 x1 y1;
  draw_points fancy w p (l_vertical l) (l_max l) (l_points l) c.

(** ** Text and guides *)
(** PngWriter.py 447-479: one cell of a glyph.  The four reads of 464-467 are outside the try. *)
Definition glyph_cell (rows : Z) (x y cx cy v : Z) (rotate : bool) (c : canvas) : res canvas :=
  if v =? 9 then Ok c
  else
    let gx := if rotate then x + (rows - cy) + 1 else x + cx + 2 in
    let gy := if rotate then y + cx + 2 else y + cy + 2 in
    let pos := c_width c * gy + gx in
    match py_pos pos (zlen (c_pixels c)) with
    | None => Err IndexError
    | Some n =>
        let '(r, g, b, a1) := nth n (c_pixels c) (0, 0, 0, 0) in
        let a2 := ((9 - inject_Z v) / 9)%Q in
        let part k := q_trunc ((1 - a2) * inject_Z k)%Q in
        let a := (a2 + inject_Z a1 / 255 * (1 - a2))%Q in
        Ok (mkCanvas (c_width c) (c_height c)
              (set_nth n (part r, part g, part b, q_trunc (a * 255)%Q) (c_pixels c)))
    end.
Definition fold_res {A B} (f : A -> B -> res B) : list A -> B -> res B :=
  fix go l b := match l with [] => Ok b | a :: r => do b <- f a b; go r b end.
Definition glyph (m : list (list Z)) (x y : Z) (rotate : bool) (c : canvas) : res canvas :=
  fold_res (fun cx => fold_res (fun cy c =>
      glyph_cell (zlen m) x y cx cy (nth (Z.to_nat cx) (nth (Z.to_nat cy) m []) 9) rotate c)
    (py_range 0 (zlen m))) (py_range 0 (zlen (hd [] m))) c.
Fixpoint draw_text (x y : Z) (s : text) (rotate : bool) (c : canvas) : res canvas :=
  match s with
  | [] => Ok c
  | ch :: r =>
      match find (fun p => fst p =? ch) characters with
      | None => Err KeyError
      | Some (_, m) =>
          do c <- glyph m x y rotate c;
          if rotate then draw_text x (y + 11) r rotate c else draw_text (x + 11) y r rotate c
      end
  end.
(** PngWriter.py 482-500.  [points - (min_x % points)], Python's modulo. *)
Definition py_steps (a b step : Z) : list Z :=
  map (fun k => a + step * k) (py_range 0 ((b - a + step - 1) / step)).
Definition draw_guides (fancy : bool) (x0 y0 x1 y1 : Q) (c : canvas) : res canvas :=
  let width := q_trunc (x1 - x0)%Q in
  let height := q_trunc (y1 - y0)%Q in
  let p := mkPen 0 0 0 in
  let min_x := q_trunc x0 in
  let min_y := q_trunc y0 in
  let points := 50 in
  do c <- draw_text 0 0 [109; 109] false c;
  do c <- fold_res (fun x c =>
      if x <? 30 then Ok c
      else do c <- draw_text x 0 (str_of_int (Z.quot (x + min_x) 10)) true c;
           draw_line fancy 1 p x 0 x 30 c) (py_steps (points - min_x mod points) (width - 30) points) c;
  fold_res (fun y c =>
      if y <? 30 then Ok c
      else do c <- draw_text 0 y (str_of_int (Z.quot (y + min_y) 10)) false c;
           draw_line fancy 1 p 0 y 30 y c) (py_steps (points - min_y mod points) (height - 30) points) c.

(** ** The design *)
(** PngWriter.py 503-540.  The settings: [background] is the colour of the thread that EmbThread.set
    makes of the string, [linewidth] an integer. *)
Record png_settings := mkPng {
  g_guides : bool; g_fancy : bool; g_background : option Z; g_linewidth : option Z }.
(* 521-535 *)
Fixpoint draw_block (fancy : bool) (w : Z) (p : pen) (last : option (Z * Z)) (block : list (stitch Q))
    (c : canvas) : res canvas :=
  match block with
  | [] => Ok c
  | s :: r =>
      let x := q_trunc (sx s) in
      let y := q_trunc (sy s) in
      do c <- match last with
              | None => Ok c
              | Some (lx, ly) => draw_line fancy w p lx ly x y c
              end;
      draw_block fancy w p (Some (x, y)) r c
  end.
Fixpoint draw_blocks (fancy : bool) (w : Z) (l : list (list (stitch Q) * Z)) (c : canvas) : res canvas :=
  match l with
  | [] => Ok c
  | (block, color) :: r =>
      do c <- draw_block fancy w (mkPen (get_red color) (get_green color) (get_blue color)) None block c;
      draw_blocks fancy w r c
  end.
(** The picture made of a design: [get i] is the colour of get_thread_or_filler(i).  On an empty
    pattern the extents are infinite and int() of an infinity is an OverflowError. *)
Definition png_picture (st : png_settings) (get : Z -> Z) (l : list (stitch Q)) : res canvas :=
  match bounds l with
  | (Some x0, Some y0, Some x1, Some y1) =>
      let l := translate (- x0)%Q (- y0)%Q l in
      do c <- new_canvas (q_trunc (x1 - x0)%Q) (q_trunc (y1 - y0)%Q);
      let c := match g_background st with
               | Some b => background (get_red b) (get_green b) (get_blue b) 255 c
               | None => c
               end in
      let w := match g_linewidth st with Some w => w | None => 3 end in
      do c <- draw_blocks (g_fancy st) w (get_as_stitchblock get l) c;
      if g_guides st then draw_guides (g_fancy st) x0 y0 x1 y1 c else Ok c
  | _ => Err OverflowError
  end.

(** ** The file *)
(** PngWriter.py 196-221.  zlib.crc32 and zlib.compress(_, 9) are parameters. *)
Definition u32 (v : Z) : list Z := [v / 16777216 mod 256; v / 65536 mod 256; v / 256 mod 256; v mod 256].
Definition pixel_bytes (p : pixel) : list Z := let '(r, g, b, a) := p in [r; g; b; a].
Fixpoint png_rows (n : nat) (width : nat) (px : list pixel) : list Z :=
  match n with
  | O => []
  | S n => 0 :: flat_map pixel_bytes (firstn width px) ++ png_rows n width (skipn width px)
  end.
Section File.
  Variable crc32 : list Z -> Z.
  Variable compress : list Z -> list Z.
  Definition png_pack (tag data : list Z) : list Z :=
    let head := tag ++ data in
    u32 (zlen data) ++ head ++ u32 (Z.land 0xFFFFFFFF (crc32 head)).
  Definition write_png (c : canvas) : list Z :=
    [0x89; 80; 78; 71; 13; 10; 26; 10]
    ++ png_pack [73; 72; 68; 82] (u32 (c_width c) ++ u32 (c_height c) ++ [8; 6; 0; 0; 0])
    ++ png_pack [73; 68; 65; 84] (compress (png_rows (Z.to_nat (c_height c)) (Z.to_nat (c_width c)) (c_pixels c)))
    ++ png_pack [73; 69; 78; 68] [].
  (** struct.pack("!I", _) of the sizes is assumed not to overflow (sizes below 2^32). *)
  Definition png_write (st : png_settings) (get : Z -> Z) (l : list (stitch Q)) : res (list Z) :=
    do c <- png_picture st get l;
    Ok (write_png c).
End File.

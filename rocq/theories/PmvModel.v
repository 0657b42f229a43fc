(** pyembroidery/PmvWriter.py and PmvReader.py: decorative stitches, the first 100 points of a pattern.

    Coordinates are exact rationals: the writer's products with 1.0 / 2.5 and quotients are taken without the
    machine's rounding error.  The reader's products with 2.5 are exact in the machine too. *)
From Coq Require Import ZArith QArith List Bool.
From Verif Require Import PyBase EmbConst NumQ HelperModel.
Import ListNotations.
Open Scope Z_scope.

(** ** Writer *)
(* PmvWriter.py 5 *)
Definition max_points : Z := 100.
(* PmvWriter.py 19, 47 *)
Definition point (data : Z) : bool := (data =? STITCH) || (data =? JUMP).

(** PmvWriter.py 14-31: point_count, min_y, max_y; y = -stitch[1].  x is not used afterwards. *)
Fixpoint pmv_scan (count : Z) (lo hi : Q) (l : list (stitch Q)) : Z * Q * Q :=
  match l with
  | [] => (count, lo, hi)
  | s :: r =>
      let y := (- sy s)%Q in
      let '(count, lo, hi) :=
        if point (scmd s) then (count + 1, if q_gt lo y then y else lo, if q_gt y hi then y else hi) else (count, lo, hi) in
      if max_points <=? count then (count, lo, hi) else pmv_scan count lo hi r
  end.

(** PmvWriter.py 60-94: [left] is point_count - 1 - point_index at the loop head; the range of y written is kept for
    the width table (xx only matters for the length range, which is not used). *)
Fixpoint pmv_points (left : Z) (center scale_y : Q) (xx lo hi : Z) (l : list (stitch Q)) : list Z * Z * Z :=
  match l with
  | [] => ([], lo, hi)
  | s :: r =>
      if left <=? 0 then ([], lo, hi)
      else
        let data := cmd_of (scmd s) in
        let y := q_round ((- sy s - center) * scale_y)%Q in
        let x := q_round (sx s * (2 # 5) - inject_Z xx)%Q in
        let xx := xx + x in
        if point data then
          let '(b, lo, hi) := pmv_points (left - 1) center scale_y xx (Z.min lo y) (Z.max hi y) r in
          (write_int_8 (if x <? 0 then x + 64 else x) ++ write_int_8 (if y <? 0 then y + 32 else y) ++ b, lo, hi)
        else pmv_points (left - 1) center scale_y xx lo hi r
  end.

(* PmvWriter.py 42-50: #PMV0001, 36 points, 56 bytes *)
Definition pmv_header : list Z :=
  [35; 80; 77; 86; 48; 48; 48; 49] ++ repeat 46 36 ++
  [1; 0; 0; 0; 0; 0; 0; 0; 0; 0; 0; 0; 0; 1; 0; 0; 0; 0; 0; 0; 0; 0; 0; 0; 0; 0; 0; 0;
   0; 0; 0; 0; 0; 0; 0; 1; 0; 0; 0; 0; 0; 0; 0; 0; 0; 0; 0; 0; 0; 0; 0; 0; 0; 1; 0; 0].
(* PmvWriter.py 108-139 *)
Definition pmv_lengths : list Z :=
  let values := [(0, 0); (10, 71); (20, 143); (40, 214); (60, 286); (80, 357); (100, 429); (120, 500); (140, 571); (160, 714);
                 (180, 786); (200, 857); (250, 1000); (300, 1286); (350, 1429); (400, 1571); (450, 1786); (500, 2000)] in
  [17; 18] ++ flat_map (fun v => write_int_16le (fst v) ++ write_int_16le (snd v)) values.
(* PmvWriter.py 142-159 *)
Definition pmv_widths (range : Z) : list Z :=
  if range =? 0 then [0; 1] ++ write_int_16le 8192 ++ write_int_16le 1000
  else
    let second_step := (28000 / inject_Z range / 14)%Q in
    [14; 15] ++ flat_map (fun i => write_int_16le (50 * i) ++ write_int_16le (q_round (second_step * inject_Z i)))
                         [0; 1; 2; 3; 4; 5; 6; 7; 8; 9; 10; 11; 12; 13; 14].

(** PmvWriter.py 32-40. *)
Definition pmv_center (lo hi : Q) : Q := ((lo + hi) / 2)%Q.
Definition pmv_scale (lo hi : Q) : Q :=
  let normal := (hi - pmv_center lo hi)%Q in
  if q_gt normal 35 then (14 / normal)%Q else (2 # 5)%Q.
(* PmvWriter.py 8-105 *)
Definition pmv_write (l : list (stitch Q)) : list Z :=
  let '(count, lo, hi) := pmv_scan 0 200000000 (-200000000) l in
  let '(points, ly, hy) := pmv_points count (pmv_center lo hi) (pmv_scale lo hi) 0 200000000 (-200000000) l in
  pmv_header ++ write_int_16le count ++ write_int_16le (count * 2) ++ points
  ++ write_int_16le 0 ++ write_int_16le 256 ++ [0; 0; 0; 0; 5; 0; 0; 0; 0; 0; 0; 0; 0; 0; 2; 0]
  ++ write_int_16le 256 ++ [0; 0] ++ pmv_lengths ++ pmv_widths (hy - ly)
  ++ write_int_16le 0x12 ++ repeat 0 16.

(** ** Reader *)
(** PmvReader.py 35-47: one block; the stitches, the new px and what is left.  y > 16 with y None raises TypeError. *)
Fixpoint pmv_block (n : nat) (px : Q) (f : list Z) : res (list (stitch Q) * Q * list Z) :=
  match n with
  | O => Ok ([], px, f)
  | S n =>
      match f with
      | x :: y :: f =>
          let y := if y >? 16 then -(32 - y) else y in
          let x := if x >? 32 then -(64 - x) else x in
          let nx := (px + inject_Z x * (5 # 2))%Q in
          do '(l, px, f) <- pmv_block n nx f;
          Ok (mkS nx (inject_Z y * (-5 # 2))%Q STITCH :: l, px, f)
      | _ => Err TypeError
      end
  end.
(** The last position of the pattern, (0, 0) of an empty one. *)
Definition last_at (l : list (stitch Q)) : Q * Q := match rev l with s :: _ => (sx s, sy s) | [] => (0, 0)%Q end.
(** PmvReader.py 26-70; end of file without the end mark returns without END. *)
Fixpoint pmv_stitches (fuel : nat) (px : Q) (done : list (stitch Q)) (f : list Z) : res (list (stitch Q)) :=
  match fuel with
  | O => Err OutOfFuel
  | S fuel =>
      let '(count, f) := read_int_16le f in
      let '(block_length, f) := read_int_16le f in
      match count, block_length with
      | Some count, Some block_length =>
          if 256 <=? block_length then let '(x, y) := last_at done in Ok (done ++ [mkS x y END])
          else
            do '(l, px, f) <- pmv_block (Z.to_nat count) px f;
            pmv_stitches fuel px (done ++ l) f
      | _, _ => Ok done
      end
  end.
(* PmvReader.py 73-75 *)
Definition pmv_read (file : list Z) : res (list (stitch Q)) :=
  pmv_stitches (S (List.length file)) 0 [] (skipn 0x64 file).

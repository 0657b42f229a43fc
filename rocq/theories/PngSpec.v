(** What a picture of a design is. *)
From Coq Require Import ZArith QArith Qround List Bool.
From Verif Require Import PyBase EmbConst PatternSpec.
Import ListNotations.
Open Scope Z_scope.

(** A digital straight line from (x0, y0) to (x1, y1): one dot for every step along the longer
    side, at most half a dot away from the ideal line across it. *)
Definition digital (x0 y0 x1 y1 : Z) (dots : list (Z * Z)) : Prop :=
  let dx := x1 - x0 in
  let dy := y1 - y0 in
  nth_error dots 0 = Some (x0, y0)
  /\ Z.of_nat (length dots) = Z.max (Z.abs dx) (Z.abs dy) + 1
  /\ forall k x y, nth_error dots k = Some (x, y) ->
       (Z.abs dy < Z.abs dx -> x = x0 + Z.of_nat k * Z.sgn dx
          /\ 2 * Z.abs (dx * (y - y0) - dy * (x - x0)) <= Z.abs dx)
       /\ (Z.abs dx <= Z.abs dy -> y = y0 + Z.of_nat k * Z.sgn dy
          /\ 2 * Z.abs (dx * (y - y0) - dy * (x - x0)) <= Z.abs dy).

(** A thread laid between two needle points, drawn with a pen [w] dots wide held across the
    longer side. *)
Record stroke := mkStroke { s_from : Z * Z; s_to : Z * Z; s_color : Z }.
Definition wide (s : stroke) : Prop :=
  Z.abs (snd (s_to s) - snd (s_from s)) < Z.abs (fst (s_to s) - fst (s_from s)).
Definition line_of_stroke (s : stroke) (dots : list (Z * Z)) : Prop :=
  digital (fst (s_from s)) (snd (s_from s)) (fst (s_to s)) (snd (s_to s)) dots.
Definition under_pen (w d : Z) : Prop := - (w / 2) <= d < w - w / 2.
Definition touches (w : Z) (s : stroke) (dots : list (Z * Z)) (x y : Z) : Prop :=
  exists px py, In (px, py) dots
    /\ ((wide s /\ x = px /\ under_pen w (y - py)) \/ (~ wide s /\ y = py /\ under_pen w (x - px))).

(** The colour of a thread in the picture, a little transparent; nearly black is drawn as dark
    grey. *)
Definition part (color k : Z) : Z := color / 2 ^ k mod 256.
Definition dark (r g b : Z) : Prop :=
  (512 + r / 2) * r * r / 256 + 4 * g * g + (767 - r / 2) * b * b / 256 < 15 * 15.
Definition tint (color : Z) (p : Z * Z * Z * Z) : Prop :=
  let r := part color 16 in
  let g := part color 8 in
  let b := part color 0 in
  (dark r g b /\ p = (35, 35, 35, 251)) \/ (~ dark r g b /\ p = (r, g, b, 251)).

(** What is seen at a place: the last stroke over it, else the ground. *)
Definition shows (w : Z) (ground : Z * Z * Z * Z) (l : list (stroke * list (Z * Z))) (x y : Z)
    (p : Z * Z * Z * Z) : Prop :=
  (exists a s b, l = a ++ s :: b /\ touches w (fst s) (snd s) x y
     /\ Forall (fun s => ~ touches w (fst s) (snd s) x y) b /\ tint (s_color (fst s)) p)
  \/ (Forall (fun s => ~ touches w (fst s) (snd s) x y) l /\ p = ground).

(** The strokes of a design: between neighbours of every run of stitches, in the colour of the
    run, at whole dots. *)
Fixpoint neighbours {A} (l : list A) : list (A * A) :=
  match l with
  | a :: r => match r with b :: _ => (a, b) :: neighbours r | [] => [] end
  | [] => []
  end.
Definition dot (s : stitch Q) : Z * Z := (Qfloor (sx s), Qfloor (sy s)).
Definition strokes (get : Z -> Z) (runs : list (list (stitch Q) * Z)) : list stroke :=
  flat_map (fun r => map (fun p => mkStroke (dot (fst p)) (dot (snd p)) (get (snd r))) (neighbours (fst r))) runs.

(** ** PNG files *)
(** Chunks: length, four letters, data, checksum of letters and data. *)
Definition number32 (b : list Z) : Z := fold_left (fun n d => 256 * n + d) b 0.
Inductive chunks (crc : list Z -> Z) : list Z -> list (list Z * list Z) -> Prop :=
| no_chunk : chunks crc [] []
| one_chunk n tag data sum rest l :
    length n = 4%nat -> length tag = 4%nat -> length sum = 4%nat ->
    number32 n = Z.of_nat (length data) -> number32 sum = crc (tag ++ data) mod 2 ^ 32 ->
    chunks crc rest l -> chunks crc (n ++ tag ++ data ++ sum ++ rest) ((tag, data) :: l).
(** Rows of unfiltered RGBA pixels. *)
Inductive rows (width : nat) : list Z -> list (list (Z * Z * Z * Z)) -> Prop :=
| no_row : rows width [] []
| one_row r rest l :
    length r = width -> rows width rest l ->
    rows width (0 :: flat_map (fun p => let '(r, g, b, a) := p in [r; g; b; a]) r ++ rest) (r :: l).
(** A file that shows [height] rows of [width] pixels: true colour with alpha, 8 bits deep, not
    interlaced. *)
Record png_file (crc : list Z -> Z) (inflate : list Z -> list Z) (file : list Z) (width height : Z)
    (img : list (list (Z * Z * Z * Z))) : Prop := {
  png_body : exists body wb hb packed,
    file = [137; 80; 78; 71; 13; 10; 26; 10] ++ body
    /\ length wb = 4%nat /\ length hb = 4%nat /\ number32 wb = width /\ number32 hb = height
    /\ chunks crc body [([73; 72; 68; 82], wb ++ hb ++ [8; 6; 0; 0; 0]);
                        ([73; 68; 65; 84], packed);
                        ([73; 69; 78; 68], [])]
    /\ rows (Z.to_nat width) (inflate packed) img;
  png_height : Z.of_nat (length img) = height }.

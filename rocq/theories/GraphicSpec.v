(** What preview pictures should show. *)
From Coq Require Import ZArith Bool List.
From Verif Require Import PatternModel ThreadModel TextModel.
Import ListNotations.
Open Scope Z_scope.

(** Pixel (x, y) of a picture of [stride] bytes a row, eight columns to a byte, the first in the lowest bit. *)
Definition pixel_at (picture : list Z) (stride x y : Z) : bool :=
  Z.testbit (nth (Z.to_nat (stride * y + x / 8)) picture 0) (x mod 8).
(** 0, 1, ... n - 1 *)
Definition upto (n : Z) : list Z := map Z.of_nat (seq 0 (Z.to_nat n)).
(** The rows there are, the last one maybe cut short, and the columns of each. *)
Definition rows_of (picture : list Z) (stride : Z) : Z := (zlen picture + stride - 1) / stride.
Definition columns_of (picture : list Z) (stride y : Z) : Z := 8 * Z.min stride (zlen picture - stride * y).
Definition row_text (picture : list Z) (stride : Z) (one zero : text) (y : Z) : text :=
  flat_map (fun x => if pixel_at picture stride x y then one else zero) (upto (columns_of picture stride y)).
(** The text made of lines, with a newline between two of them. *)
Inductive lines_are : list text -> text -> Prop :=
| no_line : lines_are [] []
| last_line t : lines_are [t] t
| more_lines t r s : lines_are r s -> r <> [] -> lines_are (t :: r) (t ++ 10 :: s).

(** One step of drawing by hand. *)
Inductive stroke := Mark (x y : Z) | Unmark (x y : Z).
Definition place (s : stroke) : Z * Z := match s with Mark x y | Unmark x y => (x, y) end.
Definition marks (s : stroke) : bool := match s with Mark _ _ => true | Unmark _ _ => false end.
(** The last stroke at (x, y) of a list of strokes. *)
Definition last_at (strokes : list stroke) (x y : Z) (s : stroke) : Prop :=
  exists before after, strokes = before ++ s :: after /\ place s = (x, y) /\ Forall (fun t => place t <> (x, y)) after.

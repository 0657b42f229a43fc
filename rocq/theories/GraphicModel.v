(** Preview pictures as a user handles them: marking and unmarking pixels, the picture as text, and the
    metadata rows of a CSV file with a picture in them (PecGraphics.py 323-351, CsvWriter.py 75-84). *)
From Coq Require Import Ascii String ZArith Bool List.
From Verif Require Import PyBase PatternModel TextModel ThreadModel PecFileModel CsvModel.
Import ListNotations.
Open Scope Z_scope.

(** graphic[i] &= m, a negative i counting from the end; None for IndexError. *)
Definition and_at (i m : Z) (graphic : list Z) : option (list Z) :=
  let i := if i <? 0 then i + zlen graphic else i in
  if i <? 0 then None
  else match nth_error graphic (Z.to_nat i) with
       | Some b => Some (firstn (Z.to_nat i) graphic ++ Z.land b m :: skipn (Z.to_nat i + 1) graphic)
       | None => None
       end.
(** PecGraphics.py 328-330; int(x / 8) truncates. *)
Definition graphic_unmark_bit (graphic : list Z) (x y stride : Z) : option (list Z) :=
  and_at (y * stride + Z.quot x 8) (Z.lnot (Z.shiftl 1 (x mod 8))) graphic.

(** list(range(0, n, step)) for n of at least 0: ValueError for a step of 0, nothing for a negative one. *)
Definition range_step (n step : Z) : res (list Z) :=
  if step =? 0 then Err ValueError
  else if step <? 0 then Ok []
  else Ok (map (fun k => Z.of_nat k * step) (seq 0 (Z.to_nat ((n + step - 1) / step)))).
(** sep.join(parts) *)
Fixpoint join (sep : text) (parts : list text) : text :=
  match parts with
  | [] => []
  | [p] => p
  | p :: r => p ++ sep ++ join sep r
  end.
(** l[m : m + n] for m of at least 0 and n of at least 0. *)
Definition cut {A} (m n : Z) (l : list A) : list A := firstn (Z.to_nat n) (skipn (Z.to_nat m) l).
(** PecGraphics.py 333-351, on a tuple whose first item is a bytearray and whose second is the stride (without
    the tuple the stride is 6). *)
Definition get_graphic_as_string (graphic : list Z) (stride : Z) (one zero : text) : res text :=
  let list_string :=
    flat_map (fun byte => map (fun i => if Z.land (Z.shiftr byte i) 1 =? 0 then zero else one) [0; 1; 2; 3; 4; 5; 6; 7]) graphic in
  let bit_stride := 8 * stride in
  let bit_length := 8 * zlen graphic in
  do starts <- range_step bit_length bit_stride;
  Ok (join [10] (map (fun m => List.concat (cut m bit_stride list_string)) starts)).

(** CsvWriter.py 78-81: the value written.  [show_version] is str() of the version of a PES file. *)
Definition csv_value (show_version : Z -> text) (v : meta) : res text :=
  match v with
  | Meta_text t => Ok t
  | Meta_version n => Ok (show_version n)
  | Meta_graphic graphic stride _ => do t <- get_graphic_as_string graphic stride [35] [32]; Ok (10 :: t)
  end.
Fixpoint csv_values (show_version : Z -> text) (extras : metadata) : res (list (text * text)) :=
  match extras with
  | [] => Ok []
  | (k, v) :: r => do t <- csv_value show_version v; do rest <- csv_values show_version r; Ok ((k, t) :: rest)
  end.

Section Csv.
  Context {C : Type} (zero : C) (minus : C -> C -> C) (show : C -> text) (show_distance show_angle : C -> C -> text).
  (** CsvWriter.py 209-227 for a pattern whose metadata came from a PEC or PES file.  What was written before an
      exception is not modelled. *)
  Definition csv_save (show_version : Z -> text) (v : version) (extents : list text) (stitches : list (stitch C))
      (threads : list thread) (extras : metadata) : res (list Z) :=
    do values <- csv_values show_version extras;
    csv_write zero minus show show_distance show_angle v extents (mkC stitches threads values).
End Csv.

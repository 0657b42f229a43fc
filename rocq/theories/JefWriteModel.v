(** pyembroidery/JefWriter.py as a whole. *)
From Coq Require Import ZArith QArith List.
From Verif Require Import PyBase EmbConst NumQ ThreadModel QuantModel PatternModel JefModel JefThreads.
Import ListNotations.
Open Scope Z_scope.

(** JefWriter.py 22-169, with the palette of EmbThreadJef.py and the sizes of the design's bounds (94-99).  [trims], [count_max]
    and [date] are the settings trims, trim_at and date; [threads] is pattern.threadlist.  Without
    stitches the bounds are infinite and int(round(-inf)) raises OverflowError; what was
    written of the header by then is not modelled. *)
Definition jef_write_file (trims : bool) (count_max : Z) (date : list Z) (threads : list thread) (l : list (stitch Q)) : res (list Z) :=
  match bounds l with
  | (Some min_x, Some min_y, Some max_x, Some max_y) =>
      let design_width := q_round (max_x - min_x) in
      let design_height := q_round (max_y - min_y) in
      jef_write qz_q thread_eqb jef_near jef_near2 trims count_max date design_width design_height
        (q_round (design_width # 2)) (q_round (design_height # 2)) threads l
  | _ => Err OverflowError
  end.

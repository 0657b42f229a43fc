(** pyembroidery/TxtWriter.py and pyembroidery/SvgWriter.py. *)
From Coq Require Import Ascii String ZArith QArith List Bool.
From Verif Require Import PyBase EmbConst NumQ ThreadModel TextModel PatternModel NameModel GcodeModel.
Import ListNotations.
Open Scope Z_scope.

(** ** TXT *)
(** TxtWriter.py 6-16: the dictionary emb_mod_convert. *)
Definition emb_mod_convert (command : Z) : option Z :=
  if command =? STITCH then Some 0
  else if command =? JUMP then Some 1
  else if command =? TRIM then Some 2
  else if command =? STOP then Some 4
  else if command =? COLOR_CHANGE then Some 4
  else if command =? NEEDLE_SET then Some 4
  else if command =? SEQUIN_MODE then Some 8
  else if command =? SEQUIN_EJECT then Some 8
  else if command =? END then Some 16
  else None.
(* TxtWriter.py 24-38 *)
Fixpoint write_mimic (color : Z) (l : list (stitch Q)) : res text :=
  match l with
  | [] => Ok []
  | s :: r =>
      let command := cmd_of (scmd s) in
      let color := if command =? COLOR_CHANGE then color + 1 else color in
      match emb_mod_convert command with
      | None => Err KeyError
      | Some flags =>
          do rest <- write_mimic color r;
          Ok (fixed 1 (sx s / 10) ++ [44] ++ fixed 1 (sy s / 10) ++ text_of " color:" ++ str_of_int color
              ++ text_of " flags:" ++ str_of_int flags ++ [10] ++ rest)
      end
  end.
(** TxtWriter.py 45-59, with the threads [get i] = get_thread_or_filler(i): color_index stays 0. *)
Fixpoint write_normal (get : Z -> thread) (color : Z) (l : list (stitch Q)) : res text :=
  match l with
  | [] => Ok []
  | s :: r =>
      let flags := cmd_of (scmd s) in
      let color := if flags =? COLOR_CHANGE then t_color (get 0) else color in
      match name_of flags common_names with
      | None => Err KeyError
      | Some name =>
          do rest <- write_normal get color r;
          Ok (fixed 1 (sx s) ++ [44] ++ fixed 1 (sy s) ++ text_of " color:" ++ str_of_int color
              ++ text_of " command:" ++ name ++ text_of " flags:" ++ str_of_int flags ++ [10] ++ rest)
      end
  end.
(** TxtWriter.py 62-73: [mimic] says whether the settings ask for it. *)
Definition txt_write (mimic : bool) (get : Z -> thread) (l : list (stitch Q)) : res text :=
  if mimic then write_mimic 0 l else write_normal get (t_color (get 0)) l.

(** ** SVG *)
(** The elements and their attributes; the serialisation by xml.etree is not modelled.  The
    coordinates are integers, whose str() is the decimal numeral. *)
Record svg_path := mkPath { p_data : text; p_stroke : text }.
(* SvgWriter.py 50-54 *)
Definition svg_data (block : list (stitch Z)) : text :=
  fold_left (fun data s => data ++ [32] ++ str_of_int (sx s) ++ [44] ++ str_of_int (sy s)) block [77].
(* SvgWriter.py 46-59 *)
Definition svg_paths (get : Z -> thread) (l : list (stitch Z)) : list svg_path :=
  map (fun '(block, thread) => mkPath (svg_data block) (hex_color (t_color thread))) (get_as_stitchblock get l).

(** pyembroidery/DstWriter.py 107-185 and DstReader.py 35-105: whole DST files.  Coordinates are
    exact rationals.  [extended] and [trim_at] are the settings "version" = "extended" (or
    "extended header") and "trim_at". *)
From Coq Require Import Ascii String ZArith QArith List Bool.
From Verif Require Import PyBase EmbConst StreamModel NumQ QuantModel ThreadModel Utf8Model TextModel NameModel
  PatternModel CsvModel DstModel.
Import ListNotations.
Open Scope Z_scope.

(** ** Writing *)
(** "%5d" and "%-16s": blanks in front of, after the text. *)
Definition pad_left (width : nat) (t : text) : text := repeat 32 (width - List.length t) ++ t.
Definition pad_right (width : nat) (t : text) : text := t ++ repeat 32 (width - List.length t).
(** One line of the header. *)
Definition header_line (key : string) (value : text) : text := text_of key ++ [58] ++ value ++ [13].

(** "%5d" % abs(v): the conversion cuts the fraction off; an infinity raises OverflowError. *)
Definition cut_abs (v : option Q) : res Z :=
  match v with Some v => Ok (Z.abs (Z.quot (Qnum v) (Zpos (Qden v)))) | None => Err OverflowError end.
(* EmbPattern.py 347-356 *)
Definition count_color_changes {C} (l : list (stitch C)) : Z :=
  zlen (filter (fun s => cmd_of (scmd s) =? COLOR_CHANGE) l).
(* int(v) of a float *)
Definition q_cut (v : Q) : Z := Z.quot (Qnum v) (Zpos (Qden v)).
(* DstWriter.py 131-138 *)
Definition signed_line (key : string) (v : Z) : text :=
  header_line key ((if 0 <=? v then [43] else [45]) ++ pad_left 5 (str_of_int (Z.abs v))).

(* DstWriter.py 149-157 *)
Definition thread_line (t : thread) : text :=
  header_line "TC" (hex_color (t_color t) ++ [44] ++ str_opt (t_description t) ++ [44] ++ str_opt (t_catalog t)).

(** DstWriter.py 119-158: the text of the header. *)
Record dst_info := mkInfo {
  i_name : option text; i_author : option text; i_copyright : option text; i_threads : list thread }.
Definition header_text (extended : bool) (p : dst_info) (l : list (stitch Q)) : res text :=
  let '(min_x, min_y, max_x, max_y) := bounds l in
  do x1 <- cut_abs max_x;
  do x0 <- cut_abs min_x;
  do y1 <- cut_abs max_y;
  do y0 <- cut_abs min_y;
  let '(ax, ay) := match rev l with s :: _ => (q_cut (sx s), - q_cut (sy s)) | [] => (0, 0) end in
  Ok (header_line "LA" (pad_right 16 (match i_name p with Some n => n | None => text_of "Untitled" end))
      ++ header_line "ST" (pad_left 7 (str_of_int (zlen l)))
      ++ header_line "CO" (pad_left 3 (str_of_int (count_color_changes l)))
      ++ header_line "+X" (pad_left 5 (str_of_int x1))
      ++ header_line "-X" (pad_left 5 (str_of_int x0))
      ++ header_line "+Y" (pad_left 5 (str_of_int y1))
      ++ header_line "-Y" (pad_left 5 (str_of_int y0))
      ++ signed_line "AX" ax ++ signed_line "AY" ay ++ signed_line "MX" 0 ++ signed_line "MY" 0
      ++ header_line "PD" (text_of "******")
      ++ (if extended then
            match i_author p with Some a => header_line "AU" a | None => [] end
            ++ match i_copyright p with Some c => header_line "CP" c | None => [] end
            ++ flat_map thread_line (i_threads p)
          else [])).
(** DstWriter.py 107-185: the strings are encoded one by one, which is the encoding of the
    whole text. *)
Definition dst_write (extended : bool) (trim_at : Z) (p : dst_info) (l : list (stitch Q)) : res (list Z) :=
  do t <- header_text extended p l;
  do h <- utf8_encode t;
  let h := h ++ [0x1A] in
  do b <- dst_body qz_q trim_at l;
  Ok (h ++ repeat 32 (512 - List.length h) ++ b).

(** ** Reading *)
(** What the reader fills in: the threads with the colour (None when set_hex_color made none of
    it), description and catalogue number; the metadata dictionary. *)
Record dst_loaded := mkDL { d_threads : list (option Z * text * text); d_meta : list (text * text) }.
(* DstReader.py 35-46 *)
Definition process_header_info (prefix value : text) (out : dst_loaded) : res dst_loaded :=
  let set key := Ok (mkDL (d_threads out) (dict_set key value (d_meta out))) in
  if text_eqb prefix (text_of "LA") then set (text_of "name")
  else if text_eqb prefix (text_of "AU") then set (text_of "author")
  else if text_eqb prefix (text_of "CP") then set (text_of "copyright")
  else if text_eqb prefix (text_of "TC") then
    match map strip (split_on 44 value) with
    | hex :: description :: catalog :: _ =>
        do c <- color_hex hex;
        Ok (mkDL (d_threads out ++ [(c, description, catalog)]) (d_meta out))
    | _ => Err IndexError
    end
  else set prefix.

(** DstReader.py 49-64: the pieces of the header in front of each CR or LF; a piece starts with
    the CR or LF before it.  What follows the last one is not looked at. *)
Fixpoint header_pieces (piece : list Z) (header : list Z) : list (list Z) :=
  match header with
  | [] => []
  | e :: r => if (e =? 13) || (e =? 10) then piece :: header_pieces [e] r
              else header_pieces (piece ++ [e]) r
  end.
Fixpoint read_pieces (l : list (list Z)) (out : dst_loaded) : res dst_loaded :=
  match l with
  | [] => Ok out
  | data :: r =>
      match utf8_decode data with
      | None => read_pieces r out
      | Some line =>
          let line := strip line in
          do out <- (if 3 <? zlen line
                     then process_header_info (strip (firstn 2 line)) (strip (skipn 3 line)) out
                     else Ok out);
          read_pieces r out
      end
  end.
Definition dst_read_header (file : list Z) : res dst_loaded :=
  read_pieces (header_pieces [] (firstn 512 file)) (mkDL [] []).

(** DstReader.py 67-105: with the settings "trim_at", "trim_distance" (in mm; ten times that in
    the units of the stitches) and "clipping".  [trim_loop] of PatternModel.v walks the stitches. *)
Definition of_int (s : stitch Z) : stitch Q := mkS (inject_Z (sx s)) (inject_Z (sy s)) (scmd s).
Definition dst_read (count_max : Z) (trim_distance : option Q) (clipping : bool) (fuel : nat) (file : list Z)
  : res (list (stitch Q) * dst_loaded) :=
  do h <- dst_read_header file;
  do l <- interpolate_trims (Some count_max) (match trim_distance with Some d => Some (d * 10)%Q | None => None end)
            clipping fuel (map of_int (dst_read_raw (skipn 512 file)));
  Ok (l, h).

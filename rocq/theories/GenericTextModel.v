(** pyembroidery/GenericWriter.py: the text of the file.  GenericModel.v says which templates
    are written with which values of the commands; here are the dictionary of all the values,
    the filling of the templates and the entries for metadata and threads.
    Not modelled: templates given as a dictionary (457-460), fields with a format, a conversion,
    an attribute or an index.  Metadata is a list of names and texts: of a value only its str
    is ever written.  Numbers are exact. *)
From Coq Require Import Ascii String ZArith QArith Qround List Bool.
From Verif Require Import PyBase EmbConst NumQ ThreadModel TextModel FunctionsModel PatternModel NameModel GenericModel.
Import ListNotations.
Open Scope Z_scope.

(** GenericWriter.py 84: format_dictionary, the latest value of a name first, each value as the
    text str makes of it. *)
Definition dict := list (text * text).
Fixpoint lookup (name : text) (d : dict) : option text :=
  match d with
  | [] => None
  | (k, v) :: r => if text_eqb name k then Some v else lookup name r
  end.

(** ** str.format_map (a Python built-in; called in GenericWriter.py 127-153, 308-449) *)
Definition digit (c : Z) : bool := (48 <=? c) && (c <=? 57).
(** The characters after which a field is more than a name. *)
Definition special (c : Z) : bool := existsb (Z.eqb c) [123; 58; 33; 46; 91].
(** A field without a name or with a number for a name is a positional one: ValueError. *)
Definition field (d : dict) (name : text) : res text :=
  if forallb digit name then Err ValueError
  else match lookup name d with Some v => Ok v | None => Err KeyError end.
(** [inside] is None in the text and the name read so far, backwards, in a field.  A field that
    is more than a name is outside the model: OutOfFuel stands for that. *)
Fixpoint fill (d : dict) (inside : option text) (t : text) : res text :=
  match inside, t with
  | None, [] => Ok []
  | Some _, [] => Err ValueError
  | None, c :: r =>
      if c =? 123 then
        match r with
        | c2 :: r2 => if c2 =? 123 then do q <- fill d None r2; Ok (123 :: q) else fill d (Some []) r
        | [] => Err ValueError
        end
      else if c =? 125 then
        match r with
        | c2 :: r2 => if c2 =? 125 then do q <- fill d None r2; Ok (125 :: q) else Err ValueError
        | [] => Err ValueError
        end
      else do q <- fill d None r; Ok (c :: q)
  | Some name, c :: r =>
      if c =? 125 then
        do v <- field d (rev name);
        do q <- fill d None r;
        Ok (v ++ q)
      else if special c then Err OutOfFuel
      else fill d (Some (c :: name)) r
  end.
Definition format_map (t : text) (d : dict) : res text := fill d None t.

(** ** The values *)
Definition str_of_option (o : option text) : text := match o with Some t => t | None => text_of "None" end.
Definition str_of_number (o : option Z) : text := match o with Some v => str_of_int v | None => text_of "None" end.

(** str.lower of the names of commands, which are ASCII (called in GenericWriter.py 221). *)
Definition lower (t : text) : text := map (fun c => if (65 <=? c) && (c <=? 90) then c + 32 else c) t.

(** The pattern, as far as the writer reads it. *)
Record gpattern := mkGP { gp_stitches : list (stitch Q); gp_threads : list thread; gp_extras : list (text * text) }.

Section Text.
(** str of a coordinate and str of a number that is always a float. *)
Variables (show show_float : Q -> text).

(** EmbPattern.py 347-353 and GenericWriter.py 211-217. *)
Definition count_commands (c : Z) (l : list (stitch Q)) : Z := zlen (filter (fun s => cmd_of (scmd s) =? c) l).
(** GenericWriter.py 219-222. *)
Definition count_values (l : list (stitch Q)) : dict :=
  map (fun '(c, name) => (lower name ++ text_of "_count", str_of_int (count_commands c l))) common_names.
(** GenericWriter.py 207-209, 225-239.  Without a command the bounds are infinite
    (EmbPattern.py 328-331), so that both sizes are -inf. *)
Definition extent_values (l : list (stitch Q)) : dict :=
  match bounds l with
  | (Some x0, Some y0, Some x1, Some y1) =>
      [(text_of "extents_left", show x0); (text_of "extends_top", show y0);
       (text_of "extends_right", show x1); (text_of "extends_bottom", show y1);
       (text_of "extends_width", show (x1 - x0)%Q); (text_of "extends_height", show (y1 - y0)%Q);
       (text_of "extents_left_mm", show_float (x0 / 10)%Q); (text_of "extends_top_mm", show_float (y0 / 10)%Q);
       (text_of "extends_right_mm", show_float (x1 / 10)%Q); (text_of "extends_bottom_mm", show_float (y1 / 10)%Q);
       (text_of "extends_width_mm", show_float ((x1 - x0) / 10)%Q); (text_of "extends_height_mm", show_float ((y1 - y0) / 10)%Q)]
  | _ =>
      map (fun n => (text_of n, text_of "inf")) ["extents_left"; "extends_top"; "extents_left_mm"; "extends_top_mm"]%string
      ++ map (fun n => (text_of n, text_of "-inf"))
           ["extends_right"; "extends_bottom"; "extends_width"; "extends_height";
            "extends_right_mm"; "extends_bottom_mm"; "extends_width_mm"; "extends_height_mm"]%string
  end.
(* GenericWriter.py 203-240: set_document_statistics; EmbPattern.py 361-365 *)
Definition statistics (p : gpattern) : dict :=
  [(text_of "stitch_total", str_of_int (zlen (gp_stitches p))); (text_of "thread_total", str_of_int (zlen (gp_threads p)))]
  ++ extent_values (gp_stitches p) ++ count_values (gp_stitches p).
Definition start_values (p : gpattern) : dict := statistics p ++ gp_extras p.

(* GenericWriter.py 277-306: update_command *)
Definition command_values (index : Z) (s : stitch Q) (name : text) : dict :=
  let '(cmd, thread, needle, order) := decode_embroidery_command (scmd s) in
  [(text_of "index", str_of_int index); (text_of "command", str_of_int (scmd s)); (text_of "cmd_str", name);
   (text_of "cmd", str_of_int cmd); (text_of "cmd_thread", str_of_number thread);
   (text_of "cmd_needle", str_of_number needle); (text_of "cmd_order", str_of_number order)].
(* GenericWriter.py 242-271: update_positions *)
Definition position_values (v : gvalues) : dict :=
  [(text_of "x", show (v_x v)); (text_of "y", show (v_y v)); (text_of "z", show_float (v_z v));
   (text_of "_x", show (- v_x v)%Q); (text_of "_y", show (- v_y v)%Q);
   (text_of "dx", show (v_dx v)); (text_of "dy", show (v_dy v));
   (text_of "idx", str_of_int (v_idx v)); (text_of "idy", str_of_int (v_idy v));
   (text_of "_idx", str_of_int (- v_idx v)); (text_of "_idy", str_of_int (- v_idy v));
   (text_of "ix", str_of_int (v_ix v)); (text_of "iy", str_of_int (v_iy v));
   (text_of "_ix", str_of_int (- v_ix v)); (text_of "_iy", str_of_int (- v_iy v));
   (text_of "last_x", show (v_last_x v)); (text_of "last_y", show (v_last_y v));
   (text_of "_last_x", show (- v_last_x v)%Q); (text_of "_last_y", show (- v_last_y v)%Q)].
(** GenericWriter.py 316-371.  The numbers are put in whenever something is opened, the document
    first, and change only then: so they are there, and up to date, from the first opening on. *)
Definition index_values (v : gvalues) : dict :=
  if v_document v <? 0 then [] else
  [(text_of "document_index", str_of_int (v_document v)); (text_of "document_index1", str_of_int (v_document v + 1));
   (text_of "color_index", str_of_int (v_color v)); (text_of "color_index1", str_of_int (v_color v + 1));
   (text_of "block_index", str_of_int (v_block v)); (text_of "block_index1", str_of_int (v_block v + 1))].
(* GenericWriter.py 421-425 *)
Definition metadata_values (i : Z) (e : text * text) : dict :=
  [(text_of "metadata_index", str_of_int i); (text_of "metadata_key", fst e); (text_of "metadata_value", snd e)].
(* GenericWriter.py 432-444 *)
Definition thread_values (i : Z) (t : thread) : dict :=
  [(text_of "thread_index", str_of_int i); (text_of "thread_color", hex_color (t_color t));
   (text_of "thread_description", str_of_option (t_description t)); (text_of "thread_brand", str_of_option (t_brand t));
   (text_of "thread_catalog_number", str_of_option (t_catalog t)); (text_of "thread_chart", str_of_option (t_chart t));
   (text_of "thread_details", str_of_option (t_details t)); (text_of "thread_weight", str_of_option (t_weight t));
   (text_of "thread_red", str_of_int (get_red (t_color t))); (text_of "thread_green", str_of_int (get_green (t_color t)));
   (text_of "thread_blue", str_of_int (get_blue (t_color t)))].

(** ** The file *)
(** GenericWriter.py 419-428 and 430-447: an entry for each item. *)
Fixpoint entries {A} (values : Z -> A -> dict) (t : text) (i : Z) (l : list A) (d : dict) : res (text * dict) :=
  match l with
  | [] => Ok ([], d)
  | a :: r =>
      let d := values i a ++ d in
      do e <- format_map t d;
      do '(q, d) <- entries values t (i + 1) r d;
      Ok (e ++ q, d)
  end.
Definition optional_entries {A} (values : Z -> A -> dict) (t : option text) (l : list A) (d : dict) : res (text * dict) :=
  match t with
  | Some t => entries values t 0 l d
  | None => Ok ([], d)
  end.
Definition template_of (e : gevent) : text := match e with Part _ t _ => t | Segment t _ => t end.
Definition values_of (e : gevent) : gvalues := match e with Part _ _ v => v | Segment _ v => v end.
(** The templates of one command, all filled with the values the dictionary then has. *)
Fixpoint fill_events (d : dict) (es : list gevent) : res text :=
  match es with
  | [] => Ok []
  | e :: r =>
      do t <- format_map (template_of e) (index_values (values_of e) ++ position_values (values_of e) ++ d);
      do q <- fill_events d r;
      Ok (t ++ q)
  end.
(** The values at the templates of one command: those of its segment, which is always there. *)
Definition after_events (d : dict) (es : list gevent) : dict :=
  match es with
  | [] => d
  | e :: _ => index_values (values_of e) ++ position_values (values_of e) ++ d
  end.
(* GenericWriter.py 449-569 *)
Fixpoint text_commands (gs : gsettings) (index : Z) (l : list (stitch Q)) (w : gwriter) (d : dict) : res (text * dict) :=
  match l with
  | [] => Ok ([], d)
  | s :: r =>
      match name_of (cmd_of (scmd s)) common_names with
      | None => Err KeyError
      | Some name =>
          let d := command_values index s name ++ d in
          match get_write_segment gs (cmd_of (scmd s)) with
          | Some t =>
              let '(es, w) := generic_command gs t index s name w in
              do e <- fill_events d es;
              do '(q, d) <- text_commands gs (index + 1) r w (after_events d es);
              Ok (e ++ q, d)
          | None => text_commands gs (index + 1) r w d
          end
      end
  end.
Definition optional_fill (t : option text) (d : dict) : res text :=
  match t with Some t => format_map t d | None => Ok [] end.
(** The templates for the entries (GenericWriter.py 54-55) beside the others. *)
Record gentries := mkGE { e_metadata : option text; e_thread : option text }.
(* GenericWriter.py 414-574: write *)
Definition generic_text (gs : gsettings) (en : gentries) (p : gpattern) : res text :=
  let d := start_values p in
  do a <- optional_fill (g_part gs Pattern_start) d;
  do '(m, d) <- optional_entries metadata_values (e_metadata en) (gp_extras p) d;
  do '(h, d) <- optional_entries thread_values (e_thread en) (gp_threads p) d;
  do '(b, d) <- text_commands gs 0 (gp_stitches p) gw_start d;
  do z <- optional_fill (g_part gs Pattern_end) d;
  Ok (a ++ m ++ h ++ b ++ z).
End Text.

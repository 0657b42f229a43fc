(** What the text of a file of the generic writer is about: templates as their author thinks of
    them, and the numbers and items they can show. *)
From Coq Require Import Ascii String ZArith QArith List Bool.
From Verif Require Import PyBase EmbConst ThreadModel TextModel NameModel PatternModel GenericModel GenericTextModel.
Import ListNotations.
Open Scope Z_scope.

(** ** Templates: words, and values by name *)
Inductive piece := Words (t : text) | Value (name : text).
(** In a template a brace of the words is doubled, and a value is its name in braces. *)
Definition double_braces (t : text) : text :=
  flat_map (fun c => if (c =? 123) || (c =? 125) then [c; c] else [c]) t.
Definition piece_text (p : piece) : text :=
  match p with Words t => double_braces t | Value n => [123] ++ n ++ [125] end.
Definition template_text (ps : list piece) : text := flat_map piece_text ps.
(** A name is not a number, nor empty, and has none of the characters { } : ! . [ *)
Definition plain_name (n : text) : Prop :=
  (exists c, In c n /\ (c < 48 \/ 57 < c)) /\ (forall c, In c n -> ~ In c [123; 125; 58; 33; 46; 91]).
Definition names_in (ps : list piece) : list text := flat_map (fun p => match p with Words _ => [] | Value n => [n] end) ps.
Definition plain (ps : list piece) : Prop := Forall plain_name (names_in ps).
(** The words, and for each name what the value is. *)
Definition spelled (value : text -> text) (ps : list piece) : text :=
  flat_map (fun p => match p with Words t => t | Value n => value n end) ps.
(** The template with the words [v] in the place of the value called [name]. *)
Definition put (name v : text) (ps : list piece) : list piece :=
  map (fun p => match p with Value n => if text_eqb n name then Words v else p | Words _ => p end) ps.

(** The templates of the writer. *)
Record templates := mkTS {
  ts_part : part_kind -> option (list piece); ts_named : Z -> option (list piece); ts_segment : option (list piece);
  ts_metadata : option (list piece); ts_thread : option (list piece); ts_travel : Q }.
Definition settings_of (ts : templates) : gsettings :=
  mkGS (fun k => option_map template_text (ts_part ts k)) (fun c => option_map template_text (ts_named ts c))
    (option_map template_text (ts_segment ts)) (ts_travel ts).
Definition entries_of (ts : templates) : gentries :=
  mkGE (option_map template_text (ts_metadata ts)) (option_map template_text (ts_thread ts)).
Definition oplain (o : option (list piece)) : Prop := match o with Some ps => plain ps | None => True end.
Definition all_plain (ts : templates) : Prop :=
  (forall k, oplain (ts_part ts k)) /\ (forall c, oplain (ts_named ts c)) /\ oplain (ts_segment ts) /\
  oplain (ts_metadata ts) /\ oplain (ts_thread ts).
(** In every template; and in those written for the commands and at the end only. *)
Definition put_everywhere (name v : text) (ts : templates) : templates :=
  mkTS (fun k => option_map (put name v) (ts_part ts k)) (fun c => option_map (put name v) (ts_named ts c))
    (option_map (put name v) (ts_segment ts)) (option_map (put name v) (ts_metadata ts)) (option_map (put name v) (ts_thread ts))
    (ts_travel ts).
Definition put_after_entries (name v : text) (ts : templates) : templates :=
  mkTS (fun k => match k with Pattern_start => ts_part ts k | _ => option_map (put name v) (ts_part ts k) end)
    (fun c => option_map (put name v) (ts_named ts c)) (option_map (put name v) (ts_segment ts))
    (ts_metadata ts) (ts_thread ts) (ts_travel ts).

(** ** What the statistics of a pattern are *)
Definition how_many (c : Z) (l : list (stitch Q)) : Z := Z.of_nat (length (filter (fun s => cmd_of (scmd s) =? c) l)).
Definition least (f : stitch Q -> Q) (l : list (stitch Q)) (m : Q) : Prop :=
  (exists s, In s l /\ f s = m) /\ forall s, In s l -> (m <= f s)%Q.
Definition greatest (f : stitch Q -> Q) (l : list (stitch Q)) (m : Q) : Prop :=
  (exists s, In s l /\ f s = m) /\ forall s, In s l -> (f s <= m)%Q.
(** A name in small letters. *)
Definition small (t : text) : text := map (fun c => if (65 <=? c) && (c <=? 90) then c + 32 else c) t.
(** [statistic show show_float p name v]: the value called [name] of the pattern is [v]. *)
Inductive statistic (show show_float : Q -> text) (p : gpattern) : text -> text -> Prop :=
| Stitch_total : statistic show show_float p (text_of "stitch_total") (str_of_int (Z.of_nat (length (gp_stitches p))))
| Thread_total : statistic show show_float p (text_of "thread_total") (str_of_int (Z.of_nat (length (gp_threads p))))
| Count : forall c name, In (c, name) common_names ->
    statistic show show_float p (small name ++ text_of "_count") (str_of_int (how_many c (gp_stitches p)))
| Left : forall x, least sx (gp_stitches p) x -> statistic show show_float p (text_of "extents_left") (show x)
| Top : forall y, least sy (gp_stitches p) y -> statistic show show_float p (text_of "extends_top") (show y)
| Right : forall x, greatest sx (gp_stitches p) x -> statistic show show_float p (text_of "extends_right") (show x)
| Bottom : forall y, greatest sy (gp_stitches p) y -> statistic show show_float p (text_of "extends_bottom") (show y)
| Width : forall x0 x1, least sx (gp_stitches p) x0 -> greatest sx (gp_stitches p) x1 ->
    statistic show show_float p (text_of "extends_width") (show (x1 - x0)%Q)
| Height : forall y0 y1, least sy (gp_stitches p) y0 -> greatest sy (gp_stitches p) y1 ->
    statistic show show_float p (text_of "extends_height") (show (y1 - y0)%Q)
| Left_mm : forall x, least sx (gp_stitches p) x -> statistic show show_float p (text_of "extents_left_mm") (show_float (x / 10)%Q)
| Top_mm : forall y, least sy (gp_stitches p) y -> statistic show show_float p (text_of "extends_top_mm") (show_float (y / 10)%Q)
| Right_mm : forall x, greatest sx (gp_stitches p) x -> statistic show show_float p (text_of "extends_right_mm") (show_float (x / 10)%Q)
| Bottom_mm : forall y, greatest sy (gp_stitches p) y -> statistic show show_float p (text_of "extends_bottom_mm") (show_float (y / 10)%Q)
| Width_mm : forall x0 x1, least sx (gp_stitches p) x0 -> greatest sx (gp_stitches p) x1 ->
    statistic show show_float p (text_of "extends_width_mm") (show_float ((x1 - x0) / 10)%Q)
| Height_mm : forall y0 y1, least sy (gp_stitches p) y0 -> greatest sy (gp_stitches p) y1 ->
    statistic show show_float p (text_of "extends_height_mm") (show_float ((y1 - y0) / 10)%Q).

(** ** The names *)
Definition statistic_names : list text :=
  map text_of ["stitch_total"; "thread_total"; "extents_left"; "extends_top"; "extends_right"; "extends_bottom"; "extends_width"; "extends_height";
    "extents_left_mm"; "extends_top_mm"; "extends_right_mm"; "extends_bottom_mm"; "extends_width_mm"; "extends_height_mm"]%string
  ++ map (fun e => small (snd e) ++ text_of "_count") common_names.
Definition command_names : list text :=
  map text_of ["index"; "command"; "cmd_str"; "cmd"; "cmd_thread"; "cmd_needle"; "cmd_order";
    "x"; "y"; "z"; "_x"; "_y"; "dx"; "dy"; "idx"; "idy"; "_idx"; "_idy"; "ix"; "iy"; "_ix"; "_iy"; "last_x"; "last_y"; "_last_x"; "_last_y"]%string.
Definition thread_names : list text :=
  map text_of ["thread_index"; "thread_color"; "thread_description"; "thread_brand"; "thread_catalog_number"; "thread_chart"; "thread_details";
    "thread_weight"; "thread_red"; "thread_green"; "thread_blue"]%string.
Definition metadata_names : list text := map text_of ["metadata_index"; "metadata_key"; "metadata_value"]%string.
(** The templates name only what the writer itself provides. *)
Definition only (allowed : list text) (o : option (list piece)) : Prop :=
  match o with Some ps => incl (names_in ps) allowed | None => True end.
Definition own_names (ts : templates) : Prop :=
  only statistic_names (ts_part ts Pattern_start) /\ only statistic_names (ts_part ts Pattern_end) /\
  (forall k, k <> Pattern_start -> k <> Pattern_end -> only (statistic_names ++ command_names) (ts_part ts k)) /\
  (forall c, only (statistic_names ++ command_names) (ts_named ts c)) /\
  only (statistic_names ++ command_names) (ts_segment ts) /\
  only (statistic_names ++ thread_names) (ts_thread ts).

(** ** The items *)
(** The values of the i-th metadata item. *)
Definition metadata_value_of (i : Z) (key value name : text) : text :=
  if text_eqb name (text_of "metadata_index") then str_of_int i
  else if text_eqb name (text_of "metadata_key") then key else value.
(** The values of the i-th thread: None for what is not known of it. *)
Definition thread_value_of (i : Z) (t : thread) (name : text) : text :=
  let known o := match o with Some x => x | None => text_of "None" end in
  if text_eqb name (text_of "thread_index") then str_of_int i
  else if text_eqb name (text_of "thread_color") then hex_color (t_color t)
  else if text_eqb name (text_of "thread_description") then known (t_description t)
  else if text_eqb name (text_of "thread_brand") then known (t_brand t)
  else if text_eqb name (text_of "thread_catalog_number") then known (t_catalog t)
  else if text_eqb name (text_of "thread_chart") then known (t_chart t)
  else if text_eqb name (text_of "thread_details") then known (t_details t)
  else if text_eqb name (text_of "thread_weight") then known (t_weight t)
  else if text_eqb name (text_of "thread_red") then str_of_int (get_red (t_color t))
  else if text_eqb name (text_of "thread_green") then str_of_int (get_green (t_color t))
  else str_of_int (get_blue (t_color t)).
(** One text for each item, in order, the first with number i. *)
Fixpoint listing {A} (f : Z -> A -> text) (i : Z) (l : list A) : text :=
  match l with
  | [] => []
  | a :: r => f i a ++ listing f (i + 1) r
  end.

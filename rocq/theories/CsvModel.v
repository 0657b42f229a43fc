(** pyembroidery/CsvWriter.py, CsvReader.py: whole files.  Coordinates have any type [C], with
    [show] for str(v), [float_of] for float(t) and [minus] for the difference.  Metadata is a
    list of (name, value) texts in dictionary order: CsvWriter.py 81-83 turns every other
    value into its text first, which is not modelled. *)
From Coq Require Import Ascii String ZArith List Bool.
From Verif Require Import PyBase EmbConst ThreadModel Utf8Model TextModel NameModel PatternModel ColorFileModel.
Import ListNotations.
Open Scope Z_scope.

(** ** Rows *)
(** CsvWriter.py 12-18.  Quotes inside a value are not doubled. *)
Fixpoint csv_join (string : text) (values : list text) : text :=
  match values with
  | [] => string
  | v :: r => csv_join ((if 0 <? zlen string then string ++ [44] else string) ++ [34] ++ v ++ [34]) r
  end.
Definition csv_row (values : list text) : text := csv_join [] values ++ [10].

(** csv.reader(f, delimiter=",") of the Python library (Modules/_csv.c, parse_process_char and
    Reader_iternext) with its default dialect, over the text of the file after newline
    translation.  The result lists the rows in the order they are delivered; an Err entry is
    the csv.Error for a field above the limit of 131072 characters (shown as ValueError).
    Simplified: a NUL character is like any other (Python 3.11 and later). *)
Inductive cstate := StartRecord | StartField | InField | InQuoted | QuoteInQuoted.
Definition field_limit : Z := 131072.
Definition save (field : text) (row : list text) : list text := row ++ [field].
Fixpoint csv_rows (st : cstate) (field : text) (row : list text) (t : text) : list (res (list text)) :=
  match t with
  | [] =>
      match st with
      | StartRecord => []
      | _ => [Ok (save field row)]
      end
  | c :: r =>
      match st with
      | StartRecord =>
          if c =? 10 then Ok [] :: csv_rows StartRecord [] [] r
          else if c =? 34 then csv_rows InQuoted [] [] r
          else if c =? 44 then csv_rows StartField [] [[]] r
          else csv_rows InField [c] [] r
      | StartField =>
          if c =? 10 then Ok (save field row) :: csv_rows StartRecord [] [] r
          else if c =? 34 then csv_rows InQuoted [] row r
          else if c =? 44 then csv_rows StartField [] (save field row) r
          else csv_rows InField [c] row r
      | InField =>
          if c =? 10 then Ok (save field row) :: csv_rows StartRecord [] [] r
          else if c =? 44 then csv_rows StartField [] (save field row) r
          else if field_limit <=? zlen field then [Err ValueError]
          else csv_rows InField (field ++ [c]) row r
      | InQuoted =>
          if c =? 34 then csv_rows QuoteInQuoted field row r
          else if field_limit <=? zlen field then [Err ValueError]
          else csv_rows InQuoted (field ++ [c]) row r
      | QuoteInQuoted =>
          if c =? 10 then Ok (save field row) :: csv_rows StartRecord [] [] r
          else if c =? 44 then csv_rows StartField [] (save field row) r
          else if field_limit <=? zlen field then [Err ValueError]
          else csv_rows (if c =? 34 then InQuoted else InField) (field ++ [c]) row r
      end
  end.

(** ** Threads as they are read *)
(** EmbThread.py 94-115.  The colour may be None: EmbThread.py 70-76, 206-264. *)
Record loaded := mkL {
  l_color : option Z;
  l_description : option text;
  l_catalog : option text;
  l_details : option text;
  l_brand : option text;
  l_chart : option text;
  l_weight : option text }.
(** EmbThread.py 266-424: [other] gives the colour of a text without "#": a name, or
    "random". *)
Definition parse_string_color (other : text -> Z) (color : text) : res (option Z) :=
  match color with
  | c :: r => if c =? 35 then color_hex r else Ok (Some (other color))
  | [] => Ok (Some (other color))
  end.

(** self.extras[name] = data (EmbPattern.py 317-320): a dictionary keeps the place of a key. *)
Fixpoint dict_set (name data : text) (d : list (text * text)) : list (text * text) :=
  match d with
  | [] => [(name, data)]
  | (k, v) :: r => if text_eqb k name then (k, data) :: r else (k, v) :: dict_set name data r
  end.

(** str(v) of an optional text. *)
Definition str_opt (v : option text) : text := match v with Some v => v | None => text_of "None" end.

(** How many of each command there are: CsvWriter.py 53-59, in order of first use. *)
Fixpoint count_in (c : Z) (d : list (Z * Z)) : list (Z * Z) :=
  match d with
  | [] => [(c, 1)]
  | (k, n) :: r => if k =? c then (k, n + 1) :: r else (k, n) :: count_in c r
  end.
(* CsvWriter.py 62-68 *)
Definition count_name (key : Z) : text :=
  match name_of (Z.land key COMMAND_MASK) common_names with
  | Some n => text_of "COMMAND_" ++ n
  | None => text_of "COMMAND_UNKNOWN_" ++ str_of_int (Z.land key COMMAND_MASK)
  end.

(** The settings that choose the columns: CsvWriter.py 208-215, 221-227. *)
Inductive version := Plain | Delta | Full.

Section csv.
  Context {C : Type}.
  Variables (zero : C) (minus : C -> C -> C) (show : C -> text) (float_of : text -> res C).
  (** str(distance(dx, dy)) and str(angle(dx, dy)): CsvWriter.py 21-32. *)
  Variables (show_distance show_angle : C -> C -> text).
  (** The colours that are not written with "#". *)
  Variable other : text -> Z.

  Record content := mkC {
    c_stitches : list (stitch C);
    c_threads : list thread;
    c_extras : list (text * text) }.

  (** CsvWriter.py 35-70.  [extents] has the texts of left, top, right, bottom, width and
      height, in this order. *)
  Definition csv_data (extents : list text) (l : list (stitch C)) : text :=
    csv_row [text_of "#"; text_of "[VAR_NAME]"; text_of "[VAR_VALUE]"]
    ++ csv_row [text_of ">"; text_of "STITCH_COUNT:"; str_of_int (zlen l)]
    ++ csv_row [text_of ">"; text_of "THREAD_COUNT:"; str_of_int (count_stitch_commands COLOR_CHANGE l)]
    ++ csv_row [text_of ">"; text_of "NEEDLE_COUNT:"; str_of_int (count_stitch_commands NEEDLE_SET l)]
    ++ flat_map (fun '(n, v) => csv_row [text_of ">"; n; v])
         (combine [text_of "EXTENTS_LEFT:"; text_of "EXTENTS_TOP:"; text_of "EXTENTS_RIGHT:";
                   text_of "EXTENTS_BOTTOM:"; text_of "EXTENTS_WIDTH:"; text_of "EXTENTS_HEIGHT:"] extents)
    ++ flat_map (fun '(k, n) => csv_row [text_of ">"; count_name k; str_of_int n])
         (fold_left (fun d s => count_in (cmd_of (scmd s)) d) l [])
    ++ [10].

  (* CsvWriter.py 76-84 *)
  Definition csv_metadata (extras : list (text * text)) : text :=
    match extras with
    | [] => []
    | _ => csv_row [text_of "#"; text_of "[METADATA_NAME]"; text_of "[METADATA]"]
           ++ flat_map (fun '(k, v) => csv_row [text_of "@"; k; v]) extras ++ [10]
    end.

  (* CsvWriter.py 101-114 *)
  Fixpoint csv_thread_rows (i : Z) (threads : list thread) : text :=
    match threads with
    | [] => []
    | t :: r =>
        csv_row [text_of "$"; str_of_int i; hex_color (t_color t); str_opt (t_description t);
                 str_opt (t_brand t); str_opt (t_catalog t); str_opt (t_details t); str_opt (t_weight t)]
        ++ csv_thread_rows (i + 1) r
    end.
  (* CsvWriter.py 87-114 *)
  Definition csv_threads (threads : list thread) : text :=
    match threads with
    | [] => []
    | _ => csv_row [text_of "#"; text_of "[THREAD_NUMBER]"; text_of "[HEX_COLOR]"; text_of "[DESCRIPTION]";
                    text_of "[BRAND]"; text_of "[CATALOG_NUMBER]"; text_of "[DETAILS]"; text_of "[WEIGHT]"]
           ++ csv_thread_rows 0 threads ++ [10]
    end.

  (** The columns after y: CsvWriter.py 152-167, 181-185, 197-206. *)
  Definition more_columns (v : version) (dx dy : C) : list text :=
    match v with
    | Plain => []
    | Delta => [show dx; show dy]
    | Full => [show dx; show dy; show_distance dx dy; show_angle dx dy]
    end.
  Definition more_titles (v : version) : list text :=
    match v with
    | Plain => []
    | Delta => [text_of "[DX]"; text_of "[DY]"]
    | Full => [text_of "[DX]"; text_of "[DY]"; text_of "[R]"; text_of "[ANGLE]"]
    end.
  (** CsvWriter.py 149-169, 178-187, 194-206; (x, y) is the position before. *)
  Fixpoint csv_stitch_rows (v : version) (i : Z) (x y : C) (l : list (stitch C)) : text :=
    match l with
    | [] => []
    | s :: r =>
        csv_row ([text_of "*"; str_of_int i; decoded_name (scmd s); show (sx s); show (sy s)]
                 ++ more_columns v (minus (sx s) x) (minus (sy s) y))
        ++ csv_stitch_rows v (i + 1) (sx s) (sy s) r
    end.
  (* CsvWriter.py 132-206, 220-227 *)
  Definition csv_stitches (v : version) (l : list (stitch C)) : text :=
    match l with
    | [] => []
    | _ => csv_row ([text_of "#"; text_of "[STITCH_INDEX]"; text_of "[STITCH_TYPE]"; text_of "[X]"; text_of "[Y]"]
                    ++ more_titles v)
           ++ csv_stitch_rows v 0 zero zero l
    end.
  (** CsvWriter.py 209-227.  The rows are encoded one by one; joining them first gives the
      same bytes. *)
  Definition csv_write (v : version) (extents : list text) (p : content) : res (list Z) :=
    utf8_encode (csv_data extents (c_stitches p) ++ csv_metadata (c_extras p)
                 ++ csv_threads (c_threads p) ++ csv_stitches v (c_stitches p)).

  (** What the reader has built: stitches, threads, metadata. *)
  Record loading := mkLd {
    d_stitches : list (stitch C);
    d_threads : list loaded;
    d_extras : list (text * text) }.

  (* CsvReader.py 14-30 *)
  Definition read_stitch_row (row : list text) (out : loading) : res loading :=
    do name <- py_index 2 row;
    do command <- decoded_command name;
    do s <- (if zlen row =? 3 then Ok (mkS zero zero command)
             else do x <- py_index 3 row; do x <- float_of x;
                  do y <- py_index 4 row; do y <- float_of y;
                  Ok (mkS x y command));
    Ok (mkLd (d_stitches out ++ [s]) (d_threads out) (d_extras out)).
  (** row[i] with "except IndexError: pass" *)
  Definition cell (i : nat) (row : list text) : option text := nth_error row i.
  (** CsvReader.py 37-76 and the dictionary branch of EmbThread.py 216-253.  The keys
      "details" and "weight" are not looked at there. *)
  Definition read_thread_row (row : list text) (out : loading) : res loading :=
    do t <-
      (match row with
       | [_; _; r; g; b; description; catalog] =>
           if (zlen r <=? 3) && (zlen g <=? 3) && (zlen b <=? 3) then
             do r <- int_of_text r; do g <- int_of_text g; do b <- int_of_text b;
             Ok (mkL (Some (color_rgb r g b)) (Some description) (Some catalog) None None None None)
           else do color <- parse_string_color other r;
                Ok (mkL color (cell 3 row) (cell 5 row) None (cell 4 row) None None)
       | _ =>
           do color <- match cell 2 row with Some c => parse_string_color other c | None => Ok (Some 0) end;
           Ok (mkL color (cell 3 row) (cell 5 row) None (cell 4 row) None None)
       end);
    Ok (mkLd (d_stitches out) (d_threads out ++ [t]) (d_extras out)).
  Definition has_char (c : Z) (t : text) : bool := existsb (Z.eqb c) t.
  (* CsvReader.py 11-76 *)
  Definition read_row (row : list text) (out : loading) : res loading :=
    match row with
    | [] => Ok out
    | mark :: _ =>
        if has_char 42 mark then read_stitch_row row out
        else if has_char 35 mark then Ok out
        else if has_char 64 mark then
          match row with
          | [_; name; data] => Ok (mkLd (d_stitches out) (d_threads out) (dict_set name data (d_extras out)))
          | _ => Ok out
          end
        else if has_char 36 mark then read_thread_row row out
        else Ok out
    end.
  Fixpoint read_rows (rows : list (res (list text))) (out : loading) : res loading :=
    match rows with
    | [] => Ok out
    | row :: r => do row <- row; do out <- read_row row out; read_rows r out
    end.
  (** CsvReader.py 6-76 on a file opened in text mode (EmbPattern.py 1475-1483), into an empty
      pattern. *)
  Definition csv_read (file : list Z) : res loading :=
    match utf8_decode file with
    | None => Err ValueError
    | Some t => read_rows (csv_rows StartRecord [] [] (universal_newlines t)) (mkLd [] [] [])
    end.
End csv.
Arguments mkC {C}. Arguments c_stitches {C}. Arguments c_threads {C}. Arguments c_extras {C}.
Arguments mkLd {C}. Arguments d_stitches {C}. Arguments d_threads {C}. Arguments d_extras {C}.

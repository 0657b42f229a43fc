(** pyembroidery/GcodeWriter.py and GcodeReader.py.  Numbers are exact rationals: the rounding of
    binary floating point is not modelled, the rounding of the written decimals is. *)
From Coq Require Import Ascii String ZArith QArith Qround List Bool.
From Verif Require Import PyBase EmbConst NumQ ThreadModel Utf8Model TextModel PatternModel NameModel CsvModel.
Import ListNotations.
Open Scope Z_scope.

(** ** Numbers in texts *)
(** [d] decimal digits of 0 <= n < 10^d, with leading zeros. *)
Fixpoint decimals (d : nat) (n : Z) : text :=
  match d with
  | O => []
  | S d => decimals d (n / 10) ++ [48 + n mod 10]
  end.
(** "%.df" % q, a Python built-in (GcodeWriter.py 18-23, 86): rounds to nearest, halves to even,
    on the exact value; the sign is written even if all digits are 0. *)
Definition fixed (d : nat) (q : Q) : text :=
  let n := Z.abs (q_round (q * inject_Z (10 ^ Z.of_nat d))) in
  (if Qle_bool 0 q then [] else [45]) ++ str_of_int (n / 10 ^ Z.of_nat d) ++ [46] ++ decimals d (n mod 10 ^ Z.of_nat d).
(** float(t) for a text of digits, signs and points (GcodeReader.py 51): an optional sign, then
    digits with at most one point among them and at least one digit. *)
Definition digits (t : text) : res Z := match digits_of t with Some d => Ok (Z.of_uint d) | None => Err ValueError end.
Definition unsigned_float (t : text) : res Q :=
  match split_on 46 t with
  | [a] => do n <- number a; Ok (inject_Z n)
  | [a; b] =>
      match a, b with
      | [], [] => Err ValueError
      | _, _ => do n <- digits a; do m <- digits b; Ok (inject_Z n + inject_Z m / inject_Z (10 ^ zlen b))%Q
      end
  | _ => Err ValueError
  end.
Definition float_of (t : text) : res Q :=
  match t with
  | c :: r =>
      if c =? 45 then do q <- unsigned_float r; Ok (- q)%Q
      else if c =? 43 then unsigned_float r
      else unsigned_float t
  | [] => Err ValueError
  end.

(** ** Writer *)
(** A side of the bounds in mm, None for the infinities of an empty pattern. *)
Definition mm (q : option Q) : option Q := match q with Some q => Some (q / 10)%Q | None => None end.
Definition show_side (inf : string) (q : option Q) : text := match q with Some q => fixed 3 q | None => text_of inf end.
Definition side_minus (a b : option Q) : option Q := match a, b with Some a, Some b => Some (a - b)%Q | _, _ => None end.
Definition remark (t : text) : text := [40] ++ t ++ [41; 10].
(* GcodeWriter.py 8-41 *)
Definition gcode_data (l : list (stitch Q)) : text :=
  let '(x0, y0, x1, y1) := bounds l in
  remark (text_of "STITCH_COUNT: " ++ str_of_int (zlen l))
  ++ remark (text_of "THREAD_COUNT: " ++ str_of_int (count_stitch_commands COLOR_CHANGE l))
  ++ remark (text_of "EXTENTS_LEFT: " ++ show_side "inf" (mm x0))
  ++ remark (text_of "EXTENTS_TOP: " ++ show_side "inf" (mm y0))
  ++ remark (text_of "EXTENTS_RIGHT: " ++ show_side "-inf" (mm x1))
  ++ remark (text_of "EXTENTS_BOTTOM: " ++ show_side "-inf" (mm y1))
  ++ remark (text_of "EXTENTS_WIDTH: " ++ show_side "-inf" (side_minus (mm x1) (mm x0)))
  ++ remark (text_of "EXTENTS_HEIGHT: " ++ show_side "-inf" (side_minus (mm y1) (mm y0)))
  ++ flat_map (fun '(k, n) => remark (count_name k ++ text_of ": " ++ str_of_int n))
       (fold_left (fun d s => count_in (cmd_of (scmd s)) d) l []).
(** GcodeWriter.py 44-53; the entries whose value is a text. *)
Definition gcode_metadata (extras : list (text * text)) : text :=
  flat_map (fun '(k, v) => remark (k ++ text_of ": " ++ v)) extras.
(* GcodeWriter.py 56-69 *)
Fixpoint gcode_threads (i : Z) (threads : list thread) : text :=
  match threads with
  | [] => []
  | t :: r =>
      remark (text_of "Thread" ++ str_of_int i ++ text_of ": " ++ hex_color (t_color t) ++ [32] ++ str_opt (t_description t)
              ++ [32] ++ str_opt (t_brand t) ++ [32] ++ str_opt (t_catalog t))
      ++ gcode_threads (i + 1) r
  end.
(* GcodeWriter.py 80-101 *)
Fixpoint gcode_lines (travel z : Q) (l : list (stitch Q)) : text :=
  match l with
  | [] => []
  | s :: r =>
      let command := cmd_of (scmd s) in
      if command =? STITCH then
        text_of "G00 X" ++ fixed 3 (sx s / 10)%Q ++ text_of " Y" ++ fixed 3 (sy s / 10)%Q ++ [10]
        ++ text_of "G00 Z" ++ fixed 1 z ++ [10] ++ gcode_lines travel (z + travel)%Q r
      else if command =? JUMP then gcode_lines travel z r
      else if command =? TRIM then gcode_lines travel z r
      else if command =? COLOR_CHANGE then text_of "M00" ++ [10] ++ gcode_lines travel z r
      else if command =? STOP then text_of "M00" ++ [10] ++ gcode_lines travel z r
      else if command =? END then text_of "M30" ++ [10] ++ gcode_lines travel z r
      else []
  end.
(** GcodeWriter.py 72-101; [travel] is the setting "stitch_z_travel". *)
Definition gcode_text (travel : Q) (extras : list (text * text)) (threads : list thread) (l : list (stitch Q)) : text :=
  gcode_data l ++ gcode_metadata extras ++ gcode_threads 0 threads ++ gcode_lines travel 0 l.
Definition gcode_write (travel : Q) (extras : list (text * text)) (threads : list thread) (l : list (stitch Q)) : res (list Z) :=
  utf8_encode (gcode_text travel extras threads l).

(** ** Reader *)
(** A command_map: its comment, and its words, the last one first. *)
Record words := mkW { w_comment : option text; w_words : list (text * Q) }.
Definition no_words : words := mkW None [].
Definition word (code : text) (w : words) : option Q :=
  match find (fun p => text_eqb (fst p) code) (w_words w) with Some (_, q) => Some q | None => None end.
Definition set_word (code : text) (q : Q) (w : words) : words := mkW (w_comment w) ((code, q) :: w_words w).
Definition set_comment (t : text) (w : words) : words := mkW (Some t) (w_words w).
Definition is_empty (w : words) : bool :=
  match w_comment w, w_words w with None, [] => true | _, _ => false end.
(** str(byte) of a small letter is the text of a bytes literal, such as b'g'; a capital letter
    arrives as the small one: GcodeReader.py 46-55. *)
Definition letter_code (b : Z) : text :=
  if (65 <=? b) && (b <=? 90) then [b + 32] else [98; 39; b; 39].
Definition is_number (b : Z) : bool := ((48 <=? b) && (b <=? 57)) || (b =? 43) || (b =? 45) || (b =? 46).
Definition is_letter (b : Z) : bool := ((65 <=? b) && (b <=? 90)) || ((97 <=? b) && (b <=? 122)).
Record pstate := mkP { p_comment : option text; p_code : text; p_value : text; p_words : words }.
Definition p_start : pstate := mkP None [] [] no_words.
(** GcodeReader.py 44-65, the end of the loop: a letter, an end of line or any other byte. *)
Definition parse_mark (b : Z) (is_end : bool) (st : pstate) : res (option words * pstate) :=
  do st <- (if (is_letter b || is_end) && negb (Nat.eqb (List.length (p_code st)) 0)
            then do q <- float_of (p_value st); Ok (mkP (p_comment st) [] [] (set_word (p_code st) q (p_words st)))
            else Ok st);
  if is_letter b then Ok (None, mkP (p_comment st) (p_code st ++ letter_code b) (p_value st) (p_words st))
  else if is_end then
    if is_empty (p_words st) then Ok (None, st)
    else Ok (Some (p_words st), mkP (p_comment st) [] [] no_words)
  else Ok (None, st).
(** GcodeReader.py 10-65, one byte: what it yields and the next state. *)
Definition parse_byte (b : Z) (st : pstate) : res (option words * pstate) :=
  let is_end := (b =? 10) || (b =? 13) in
  let plain (st : pstate) :=
    if (b =? 40) || (b =? 59) then Ok (None, mkP (Some []) (p_code st) (p_value st) (p_words st))
    else if (b =? 9) || (b =? 32) then Ok (None, st)
    else if (b =? 47) && Nat.eqb (List.length (p_code st)) 0 then Ok (None, st)
    else if is_number b then Ok (None, mkP (p_comment st) (p_code st) (p_value st ++ [b]) (p_words st))
    else parse_mark b is_end st in
  match p_comment st with
  | Some comment =>
      if (b =? 41) || is_end then
        let st := mkP None (p_code st) (p_value st) (set_comment comment (p_words st)) in
        if is_end then plain st else Ok (None, st)
      else if b <? 128 then Ok (None, mkP (Some (comment ++ [b])) (p_code st) (p_value st) (p_words st))
      else Ok (None, st)
  | None => plain st
  end.
(** The items of the generator; an exception is the last of them. *)
Fixpoint parse (st : pstate) (file : list Z) : list (res words) :=
  match file with
  | [] => []
  | b :: r =>
      match parse_byte b st with
      | Err e => [Err e]
      | Ok (Some w, st) => Ok w :: parse st r
      | Ok (None, st) => parse st r
      end
  end.

Fixpoint starts_with (p t : text) : bool :=
  match p, t with
  | [], _ => true
  | a :: p, b :: t => (a =? b) && starts_with p t
  | _, [] => false
  end.
(** p in t *)
Fixpoint within (p t : text) : bool :=
  starts_with p t || match t with [] => false | _ :: r => within p r end.
(** w[code] *)
Definition needed (code : text) (w : words) : res Q :=
  match word code w with Some q => Ok q | None => Err KeyError end.
Definition code_g : text := [103].
Definition code_m : text := [109].
Definition code_x : text := [120].
Definition code_y : text := [121].
(** absolute_mode, scale and the position of the pattern. *)
Record gstate := mkG { g_absolute : bool; g_scale : Q; g_x : Q; g_y : Q }.
Definition g_start : gstate := mkG true 10 0 0.
Section reader.
  (** The colours of the texts without "#": CsvModel.v. *)
  Variable other : text -> Z.
  (** GcodeReader.py 74-78.  A colour may be None, as in CsvModel.v. *)
  Definition comment_thread (w : words) : res (list loaded) :=
    match w_comment w with
    | Some comment =>
        if within (text_of "Thread") comment then
          match split_on 32 comment with
          | _ :: t :: _ => do c <- parse_string_color other t; Ok [mkL c None None None None None None]
          | _ => Err IndexError
          end
        else Ok []
    | None => Ok []
    end.
  (** GcodeReader.py 92-98 *)
  Definition do_m (w : words) (st : gstate) : list (stitch Q) :=
    match word code_m w with
    | Some v =>
        if Qeq_bool v 30 || Qeq_bool v 2 then [mkS (g_x st) (g_y st) END]
        else if Qeq_bool v 0 || Qeq_bool v 1 then [mkS (g_x st) (g_y st) COLOR_CHANGE]
        else []
    | None => []
    end.
  (** GcodeReader.py 80-98: the commands added and the next state.  The test of line 81 is
      (x and y and g = 0) or g = 1. *)
  Definition do_words (w : words) (st : gstate) : res (list (stitch Q) * gstate) :=
    match word code_g w with
    | Some v =>
        let has c := match word c w with Some _ => true | None => false end in
        if (has code_x && has code_y && Qeq_bool v 0) || Qeq_bool v 1 then
          do gx <- needed code_x w;
          do gy <- needed code_y w;
          let dx := (gx * g_scale st * -1)%Q in
          let dy := (gy * g_scale st * -1)%Q in
          let px := if g_absolute st then dx else (g_x st + dx)%Q in
          let py := if g_absolute st then dy else (g_y st + dy)%Q in
          Ok ([mkS px py STITCH], mkG (g_absolute st) (g_scale st) px py)
        else
          let st :=
            if Qeq_bool v 21 || Qeq_bool v 71 then mkG (g_absolute st) 10 (g_x st) (g_y st)
            else if Qeq_bool v 20 || Qeq_bool v 70 then mkG (g_absolute st) 254 (g_x st) (g_y st)
            else if Qeq_bool v 90 then mkG true (g_scale st) (g_x st) (g_y st)
            else if Qeq_bool v 91 then mkG false (g_scale st) (g_x st) (g_y st)
            else st in
          Ok (do_m w st, st)
    | None => Ok (do_m w st, st)
    end.
  Fixpoint interpret (st : gstate) (items : list (res words)) : res (list (stitch Q) * list loaded) :=
    match items with
    | [] => Ok ([], [])
    | Err e :: _ => Err e
    | Ok w :: r =>
        do t <- comment_thread w;
        do '(s, st) <- do_words w st;
        do '(l, threads) <- interpret st r;
        Ok (s ++ l, t ++ threads)
    end.
  (* GcodeReader.py 68-98 *)
  Definition gcode_read (file : list Z) : res (list (stitch Q) * list loaded) := interpret g_start (parse p_start file).
End reader.

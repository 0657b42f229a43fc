(** Commands by name: pyembroidery/EmbFunctions.py 44-127, the decoded_name of CsvWriter.py
    117-129 and JsonWriter.py 7-19 (the same code) and the decoding of CsvReader.py 15-26 and
    JsonReader.py 5-18 (the same code). *)
From Coq Require Import Ascii String ZArith List Bool.
From Verif Require Import PyBase EmbConst FunctionsModel ThreadModel TextModel.
Import ListNotations.
Open Scope Z_scope.

(** EmbFunctions.py 87-127, in its order: get_common_name_dictionary.  The keys are pairwise
    different, so the dictionary is this list. *)
Definition common_names : list (Z * text) :=
  [(NO_COMMAND, text_of "NO_COMMAND");
   (STITCH, text_of "STITCH");
   (JUMP, text_of "JUMP");
   (TRIM, text_of "TRIM");
   (STOP, text_of "STOP");
   (END, text_of "END");
   (SLOW, text_of "SLOW");
   (FAST, text_of "FAST");
   (COLOR_CHANGE, text_of "COLOR_CHANGE");
   (NEEDLE_SET, text_of "NEEDLE_SET");
   (SET_CHANGE_SEQUENCE, text_of "SET_CHANGE_SEQUENCE");
   (SEQUIN_MODE, text_of "SEQUIN_MODE");
   (SEQUIN_EJECT, text_of "SEQUIN_EJECT");
   (SEW_TO, text_of "SEW_TO");
   (NEEDLE_AT, text_of "NEEDLE_AT");
   (STITCH_BREAK, text_of "STITCH_BREAK");
   (SEQUENCE_BREAK, text_of "SEQUENCE_BREAK");
   (COLOR_BREAK, text_of "COLOR_BREAK");
   (TIE_ON, text_of "TIE_ON");
   (TIE_OFF, text_of "TIE_OFF");
   (FRAME_EJECT, text_of "FRAME_EJECT");
   (MATRIX_TRANSLATE, text_of "MATRIX_TRANSLATE");
   (MATRIX_SCALE, text_of "MATRIX_SCALE");
   (MATRIX_ROTATE, text_of "MATRIX_ROTATE");
   (MATRIX_SCALE_ORIGIN, text_of "MATRIX_SCALE_ORIGIN");
   (MATRIX_ROTATE_ORIGIN, text_of "MATRIX_ROTATE_ORIGIN");
   (MATRIX_RESET, text_of "MATRIX_RESET");
   (CONTINGENCY_TIE_ON_THREE_SMALL, text_of "CONTINGENCY_TIE_ON_THREE_SMALL");
   (CONTINGENCY_TIE_OFF_THREE_SMALL, text_of "CONTINGENCY_TIE_OFF_THREE_SMALL");
   (CONTINGENCY_TIE_ON_NONE, text_of "CONTINGENCY_TIE_ON_NONE");
   (CONTINGENCY_TIE_OFF_NONE, text_of "CONTINGENCY_TIE_OFF_NONE");
   (OPTION_MAX_STITCH_LENGTH, text_of "OPTION_MAX_STITCH_LENGTH");
   (OPTION_MAX_JUMP_LENGTH, text_of "OPTION_MAX_JUMP_LENGTH");
   (OPTION_IMPLICIT_TRIM, text_of "OPTION_IMPLICIT_TRIM");
   (OPTION_EXPLICIT_TRIM, text_of "OPTION_EXPLICIT_TRIM");
   (CONTINGENCY_LONG_STITCH_NONE, text_of "CONTINGENCY_LONG_STITCH_NONE");
   (CONTINGENCY_LONG_STITCH_JUMP_NEEDLE, text_of "CONTINGENCY_LONG_STITCH_JUMP_NEEDLE");
   (CONTINGENCY_LONG_STITCH_SEW_TO, text_of "CONTINGENCY_LONG_STITCH_SEW_TO")].

(** EmbFunctions.py 44-84, in its order: get_command_dictionary. *)
Definition command_dictionary : list (text * Z) :=
  [(text_of "NO_COMMAND", NO_COMMAND);
   (text_of "STITCH", STITCH);
   (text_of "JUMP", JUMP);
   (text_of "TRIM", TRIM);
   (text_of "STOP", STOP);
   (text_of "END", END);
   (text_of "SLOW", SLOW);
   (text_of "FAST", FAST);
   (text_of "COLOR_CHANGE", COLOR_CHANGE);
   (text_of "NEEDLE_SET", NEEDLE_SET);
   (text_of "SET_CHANGE_SEQUENCE", SET_CHANGE_SEQUENCE);
   (text_of "SEQUIN_MODE", SEQUIN_MODE);
   (text_of "SEQUIN_EJECT", SEQUIN_EJECT);
   (text_of "SEW_TO", SEW_TO);
   (text_of "NEEDLE_AT", NEEDLE_AT);
   (text_of "STITCH_BREAK", STITCH_BREAK);
   (text_of "SEQUENCE_BREAK", SEQUENCE_BREAK);
   (text_of "COLOR_BREAK", COLOR_BREAK);
   (text_of "TIE_ON", TIE_ON);
   (text_of "TIE_OFF", TIE_OFF);
   (text_of "FRAME_EJECT", FRAME_EJECT);
   (text_of "MATRIX_TRANSLATE", MATRIX_TRANSLATE);
   (text_of "MATRIX_SCALE_ORIGIN", MATRIX_SCALE_ORIGIN);
   (text_of "MATRIX_ROTATE_ORIGIN", MATRIX_ROTATE_ORIGIN);
   (text_of "MATRIX_SCALE", MATRIX_SCALE);
   (text_of "MATRIX_ROTATE", MATRIX_ROTATE);
   (text_of "MATRIX_RESET", MATRIX_RESET);
   (text_of "CONTINGENCY_TIE_ON_THREE_SMALL", CONTINGENCY_TIE_ON_THREE_SMALL);
   (text_of "CONTINGENCY_TIE_OFF_THREE_SMALL", CONTINGENCY_TIE_OFF_THREE_SMALL);
   (text_of "CONTINGENCY_TIE_ON_NONE", CONTINGENCY_TIE_ON_NONE);
   (text_of "CONTINGENCY_TIE_OFF_NONE", CONTINGENCY_TIE_OFF_NONE);
   (text_of "OPTION_MAX_STITCH_LENGTH", OPTION_MAX_STITCH_LENGTH);
   (text_of "OPTION_MAX_JUMP_LENGTH", OPTION_MAX_JUMP_LENGTH);
   (text_of "OPTION_IMPLICIT_TRIM", OPTION_IMPLICIT_TRIM);
   (text_of "OPTION_EXPLICIT_TRIM", OPTION_EXPLICIT_TRIM);
   (text_of "CONTINGENCY_LONG_STITCH_NONE", CONTINGENCY_LONG_STITCH_NONE);
   (text_of "CONTINGENCY_LONG_STITCH_JUMP_NEEDLE", CONTINGENCY_LONG_STITCH_JUMP_NEEDLE);
   (text_of "CONTINGENCY_LONG_STITCH_SEW_TO", CONTINGENCY_LONG_STITCH_SEW_TO)].

Fixpoint name_of (c : Z) (names : list (Z * text)) : option text :=
  match names with
  | [] => None
  | (k, n) :: r => if k =? c then Some n else name_of c r
  end.
Fixpoint command_named (n : text) (d : list (text * Z)) : option Z :=
  match d with
  | [] => None
  | (k, c) :: r => if text_eqb k n then Some c else command_named n r
  end.

(** " t5" and the like; [letter] is the code of t, n or o. *)
Definition attribute (letter : Z) (v : option Z) : text :=
  match v with Some v => [32; letter] ++ str_of_int v | None => [] end.
(* CsvWriter.py 117-129, JsonWriter.py 7-19 *)
Definition decoded_name (data : Z) : text :=
  let '(flag, thread, needle, order) := decode_embroidery_command data in
  match name_of flag common_names with
  | Some name => name ++ attribute 116 thread ++ attribute 110 needle ++ attribute 111 order
  | None => text_of "UNKNOWN " ++ str_of_int data
  end.

(** CsvReader.py 17-26, JsonReader.py 8-17: one word after the name; sp[0] of an empty word
    raises IndexError. *)
Fixpoint add_attributes (command : Z) (words : list text) : res Z :=
  match words with
  | [] => Ok command
  | [] :: _ => Err IndexError
  | (c :: digits) :: r =>
      if c =? 110 then do v <- int_of_text digits; add_attributes (Z.lor command (Z.shiftl (v + 1) 16)) r
      else if c =? 111 then do v <- int_of_text digits; add_attributes (Z.lor command (Z.shiftl (v + 1) 24)) r
      else if c =? 116 then do v <- int_of_text digits; add_attributes (Z.lor command (Z.shiftl (v + 1) 8)) r
      else add_attributes command r
  end.
(* CsvReader.py 15-26, JsonReader.py 5-18 *)
Definition decoded_command (name : text) : res Z :=
  match split_on 32 name with
  | [] => Err IndexError
  | word :: words =>
      match command_named word command_dictionary with
      | None => Err KeyError
      | Some command => add_attributes command words
      end
  end.

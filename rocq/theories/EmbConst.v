(** pyembroidery/EmbConstant.py lines 1-71: command numbers and masks. *)
From Coq Require Import ZArith.
Open Scope Z_scope.

(* EmbConstant.py 4-9 *)
Definition COMMAND_MASK := 0x000000FF.
Definition THREAD_MASK  := 0x0000FF00.
Definition NEEDLE_MASK  := 0x00FF0000.
Definition ORDER_MASK   := 0xFF000000.
Definition FLAGS_MASK   := 0x0000FF00.
(* EmbConstant.py 11-22 *)
Definition NO_COMMAND := -1.
Definition STITCH := 0.
Definition JUMP := 1.
Definition TRIM := 2.
Definition STOP := 3.
Definition END := 4.
Definition COLOR_CHANGE := 5.
Definition NEEDLE_SET := 9.
Definition SEQUIN_MODE := 6.
Definition SEQUIN_EJECT := 7.
Definition SLOW := 0xB.
Definition FAST := 0xC.
(* EmbConstant.py 27 *)
Definition SET_CHANGE_SEQUENCE := 0x10.
(* EmbConstant.py 30-36 *)
Definition SEW_TO := 0xB0.
Definition NEEDLE_AT := 0xB1.
Definition STITCH_BREAK := 0xE0.
Definition SEQUENCE_BREAK := 0xE1.
Definition COLOR_BREAK := 0xE2.
(* EmbConstant.py 39-41 *)
Definition TIE_ON := 0xE4.
Definition TIE_OFF := 0xE5.
Definition FRAME_EJECT := 0xE9.
(* EmbConstant.py 44-49 *)
Definition MATRIX_TRANSLATE := 0xC0.
Definition MATRIX_SCALE_ORIGIN := 0xC1.
Definition MATRIX_ROTATE_ORIGIN := 0xC2.
Definition MATRIX_SCALE := 0xC4.
Definition MATRIX_ROTATE := 0xC5.
Definition MATRIX_RESET := 0xC3.
(* EmbConstant.py 51-54 *)
Definition OPTION_MAX_STITCH_LENGTH := 0xD5.
Definition OPTION_MAX_JUMP_LENGTH := 0xD6.
Definition OPTION_EXPLICIT_TRIM := 0xD7.
Definition OPTION_IMPLICIT_TRIM := 0xD8.
(* EmbConstant.py 56-60 *)
Definition CONTINGENCY_TIE_ON_NONE := 0xD3.
Definition CONTINGENCY_TIE_ON_THREE_SMALL := 0xD1.
Definition CONTINGENCY_TIE_OFF_NONE := 0xD4.
Definition CONTINGENCY_TIE_OFF_THREE_SMALL := 0xD2.
(* EmbConstant.py 62-64 *)
Definition CONTINGENCY_LONG_STITCH_NONE := 0xF0.
Definition CONTINGENCY_LONG_STITCH_JUMP_NEEDLE := 0xF1.
Definition CONTINGENCY_LONG_STITCH_SEW_TO := 0xF2.
(* EmbConstant.py 66-69 *)
Definition CONTINGENCY_SEQUIN_UTILIZE := 0xF5.
Definition CONTINGENCY_SEQUIN_JUMP := 0xF6.
Definition CONTINGENCY_SEQUIN_STITCH := 0xF7.
Definition CONTINGENCY_SEQUIN_REMOVE := 0xF8.
(* EmbConstant.py 71 *)
Definition ALTERNATIVE := 0x100.

(** [stitch[2] & COMMAND_MASK], used all over the library. *)
Definition cmd_of (c : Z) : Z := Z.land c COMMAND_MASK.

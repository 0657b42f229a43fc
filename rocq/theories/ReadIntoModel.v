(** Files read into a pattern that has something in it already: EmbPattern.read (pyembroidery/EmbPattern.py
    223-224) and the argument [pattern] of the read functions (1467-1488, 1551-1561), for EXP and U01 files,
    whose readers only call the pattern's methods for relative stitches. *)
From Coq Require Import ZArith List Bool.
From Verif Require Import PyBase EmbConst StreamModel ExpModel U01Model.
Import ListNotations.
Open Scope Z_scope.

(** Stitches and the position relative stitches count from (EmbPattern.py 79-87; threads and metadata are not
    touched by these readers). *)
Record rpattern := mkRP { r_stitches : list (stitch Z); r_x : Z; r_y : Z }.
Definition empty_pattern : rpattern := mkRP [] 0 0.
(** EmbPattern.py 508-518: [add_stitch_relative] for each call, keeping the last position. *)
Fixpoint calls_into (p : rpattern) (calls : list rel) : rpattern :=
  match calls with
  | [] => p
  | e :: r =>
      let x := r_x p + sx e in
      let y := r_y p + sy e in
      calls_into (mkRP (r_stitches p ++ [mkS x y (scmd e)]) x y) r
  end.
Inductive machine_file := ExpFile (bytes : list Z) | U01File (bytes : list Z).
(** ExpReader.py 4-41; U01Reader.py 4-83, after the 256 bytes of the header *)
Definition file_calls (f : machine_file) : list rel :=
  match f with
  | ExpFile bytes => exp_read_loop bytes ++ [mkS 0 0 END]
  | U01File bytes => u01_read_loop (skipn 0x100 bytes) ++ [mkS 0 0 END]
  end.
Definition read_into (p : rpattern) (f : machine_file) : rpattern := calls_into p (file_calls f).
Definition read_all_into (p : rpattern) (fs : list machine_file) : rpattern := fold_left read_into fs p.
(** The file read on its own. *)
Definition read_alone (f : machine_file) : list (stitch Z) := r_stitches (read_into empty_pattern f).

(** What TXT and SVG files show. *)
From Coq Require Import Ascii String ZArith QArith Qabs List Bool.
From Verif Require Import PyBase EmbConst ThreadModel TextModel PatternModel NameModel GcodeSpec.
Import ListNotations.
Open Scope Z_scope.

(** A numeral at most a twentieth away from [q]. *)
Definition tenth (q : Q) (t : text) : Prop := exists r, writes r t /\ (Qabs (r - q) <= 1 # 20)%Q.
(** A line of a TXT file: the position in the pattern's unit, the colour, the command by name and by number. *)
Definition shows (color : Z) (s : stitch Q) (line : text) : Prop :=
  exists a b name, tenth (sx s) a /\ tenth (sy s) b /\ In (cmd_of (scmd s), name) common_names /\
    line = a ++ text_of "," ++ b ++ text_of " color:" ++ str_of_int color ++ text_of " command:" ++ name
           ++ text_of " flags:" ++ str_of_int (cmd_of (scmd s)) ++ [10].
(** A line in the other layout: the position in mm, the number of colour changes so far and a flag. *)
Definition flag_of : list (Z * Z) :=
  [(STITCH, 0); (JUMP, 1); (TRIM, 2); (STOP, 4); (COLOR_CHANGE, 4); (NEEDLE_SET, 4); (SEQUIN_MODE, 8); (SEQUIN_EJECT, 8); (END, 16)].
Definition shows_mm (changes : nat) (s : stitch Q) (line : text) : Prop :=
  exists a b flag, tenth (sx s / 10) a /\ tenth (sy s / 10) b /\ In (cmd_of (scmd s), flag) flag_of /\
    line = a ++ text_of "," ++ b ++ text_of " color:" ++ str_of_int (Z.of_nat changes) ++ text_of " flags:" ++ str_of_int flag ++ [10].
Definition change (s : stitch Q) : bool := cmd_of (scmd s) =? COLOR_CHANGE.
Fixpoint all_show_mm (changes : nat) (l : list (stitch Q)) (lines : list text) : Prop :=
  match l, lines with
  | [], [] => True
  | s :: l, line :: lines =>
      let changes := if change s then S changes else changes in
      shows_mm changes s line /\ all_show_mm changes l lines
  | _, _ => False
  end.

(** The points of a path "M x,y x,y ...". *)
Definition read_point (t : text) : option (Z * Z) :=
  match split_on 44 t with
  | [a; b] => match int_of_text a, int_of_text b with Ok x, Ok y => Some (x, y) | _, _ => None end
  | _ => None
  end.
Fixpoint read_points (l : list text) : option (list (Z * Z)) :=
  match l with
  | [] => Some []
  | t :: r => match read_point t, read_points r with Some p, Some q => Some (p :: q) | _, _ => None end
  end.
Definition read_path (d : text) : option (list (Z * Z)) :=
  match split_on 32 d with
  | [77] :: r => read_points r
  | _ => None
  end.

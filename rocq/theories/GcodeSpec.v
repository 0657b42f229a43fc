(** G-code programs and what they mean. *)
From Coq Require Import Ascii String ZArith QArith List Bool.
From Verif Require Import PyBase EmbConst StreamSpec ThreadModel Utf8Model TextModel PatternModel CsvModel.
Import ListNotations.
Open Scope Z_scope.

(** ** Numbers *)
Definition digit_list (l : list Z) : Prop := Forall (fun d => 0 <= d <= 9) l.
(** The number written by the digits [l], most significant first. *)
Definition value_of (l : list Z) : Z := fold_left (fun n d => 10 * n + d) l 0.
Definition chars_of (l : list Z) : text := map (fun d => 48 + d) l.
(** An optional sign, digits, and perhaps a point and more digits. *)
Inductive sign := No_sign | Plus | Minus.
Definition sign_text (s : sign) : text := match s with No_sign => [] | Plus => [43] | Minus => [45] end.
Definition sign_value (s : sign) (q : Q) : Q := match s with Minus => (- q)%Q | _ => q end.
Inductive writes : Q -> text -> Prop :=
| writes_whole : forall s a q, digit_list a -> a <> [] -> (q == sign_value s (inject_Z (value_of a)))%Q ->
    writes q (sign_text s ++ chars_of a)
| writes_point : forall s a b q, digit_list a -> digit_list b -> a ++ b <> [] ->
    (q == sign_value s (inject_Z (value_of a) + inject_Z (value_of b) / inject_Z (10 ^ zlen b)))%Q ->
    writes q (sign_text s ++ chars_of a ++ [46] ++ chars_of b).

(** ** Lines *)
(** A word: a capital letter, its number, the text of the number, and the blanks after it. *)
Record gword := { gw_letter : Z; gw_value : Q; gw_text : text; gw_blanks : text }.
Definition gword_ok (w : gword) : Prop :=
  65 <= gw_letter w <= 90 /\ writes (gw_value w) (gw_text w) /\ Forall (fun c => c = 32 \/ c = 9) (gw_blanks w).
Definition gword_bytes (w : gword) : list Z := [gw_letter w] ++ gw_text w ++ gw_blanks w.
(** A line: blanks, a comment in parentheses, words, and the end of the line. *)
Record gline := { gl_comment : option (list Z); gl_words : list gword; gl_end : Z }.
Definition gline_ok (l : gline) : Prop :=
  (match gl_comment l with Some c => Forall (fun b => b <> 10 /\ b <> 13 /\ b <> 41) c | None => gl_words l <> [] end) /\
  Forall gword_ok (gl_words l) /\ (gl_end l = 10 \/ gl_end l = 13).
Definition gline_bytes (l : gline) : list Z :=
  match gl_comment l with Some c => [40] ++ c ++ [41] | None => [] end
  ++ flat_map gword_bytes (gl_words l) ++ [gl_end l].
(** The value of a letter: the last one counts. *)
Fixpoint value_in (letter : Z) (ws : list gword) : option Q :=
  match ws with
  | [] => None
  | w :: r => match value_in letter r with
              | Some q => Some q
              | None => if gw_letter w =? letter then Some (gw_value w) else None
              end
  end.
Definition G := 71. Definition M := 77. Definition X := 88. Definition Y := 89.

Inductive gmeaning := Sew (x y : Q) | Millimetres | Inches | Absolute | Relative | Pause | Finish | Nothing.
Inductive means (ws : list gword) : gmeaning -> Prop :=
| means_sew : forall v x y, value_in G ws = Some v -> (v == 0 \/ v == 1)%Q -> value_in X ws = Some x -> value_in Y ws = Some y ->
    means ws (Sew x y)
| means_mm : forall v, value_in G ws = Some v -> (v == 21 \/ v == 71)%Q -> value_in M ws = None -> means ws Millimetres
| means_inch : forall v, value_in G ws = Some v -> (v == 20 \/ v == 70)%Q -> value_in M ws = None -> means ws Inches
| means_abs : forall v, value_in G ws = Some v -> (v == 90)%Q -> value_in M ws = None -> means ws Absolute
| means_rel : forall v, value_in G ws = Some v -> (v == 91)%Q -> value_in M ws = None -> means ws Relative
| means_lift : forall v, value_in G ws = Some v -> (v == 0)%Q -> value_in X ws = None \/ value_in Y ws = None ->
    value_in M ws = None -> means ws Nothing
| means_other : forall v, value_in G ws = Some v ->
    Forall (fun k => ~ (v == inject_Z k)%Q) [0; 1; 20; 21; 70; 71; 90; 91] -> value_in M ws = None -> means ws Nothing
| means_pause : forall v, value_in G ws = None -> value_in M ws = Some v -> (v == 0 \/ v == 1)%Q -> means ws Pause
| means_finish : forall v, value_in G ws = None -> value_in M ws = Some v -> (v == 30 \/ v == 2)%Q -> means ws Finish
| means_other_m : forall v, value_in G ws = None -> value_in M ws = Some v ->
    Forall (fun k => ~ (v == inject_Z k)%Q) [0; 1; 2; 30] -> means ws Nothing
| means_none : value_in G ws = None -> value_in M ws = None -> means ws Nothing.

(** The machine: positions are absolute or relative, in units of [unit] tenths of a millimetre,
    with both axes turned round. *)
Fixpoint sews (absolute : bool) (unit px py : Q) (p : list gmeaning) : list (stitch Q) :=
  match p with
  | [] => []
  | i :: r =>
      match i with
      | Sew x y =>
          let x' := if absolute then (- (unit * x))%Q else (px - unit * x)%Q in
          let y' := if absolute then (- (unit * y))%Q else (py - unit * y)%Q in
          mkS x' y' STITCH :: sews absolute unit x' y' r
      | Millimetres => sews absolute 10 px py r
      | Inches => sews absolute 254 px py r
      | Absolute => sews true unit px py r
      | Relative => sews false unit px py r
      | Pause => mkS px py COLOR_CHANGE :: sews absolute unit px py r
      | Finish => mkS px py END :: sews absolute unit px py r
      | Nothing => sews absolute unit px py r
      end
  end.

(** ** Comments *)
Definition occurs (p t : text) : Prop := exists a b, t = a ++ p ++ b.
(** What is read of a comment: bytes that are no ASCII characters are left out. *)
Definition ascii_of (c : list Z) : text := filter (fun b => b <? 128) c.
(** The colours named by a comment. *)
Inductive notes : option (list Z) -> list Z -> Prop :=
| notes_nothing : notes None []
| notes_other : forall c, ~ occurs (text_of "Thread") (ascii_of c) -> notes (Some c) []
| notes_thread : forall c a color r, ~ In 32 a -> occurs (text_of "Thread") (ascii_of c) ->
    ascii_of c = a ++ [32] ++ hex_color color ++ r -> r = [] \/ (exists r', r = 32 :: r') ->
    notes (Some c) [color mod 2 ^ 24].

(** The same commands at the same positions. *)
Definition same_stitch (s t : stitch Q) : Prop := (sx s == sx t)%Q /\ (sy s == sy t)%Q /\ scmd s = scmd t.
Definition coloured (c : Z) : loaded := mkL (Some c) None None None None None None.

(** ** What the writer stores *)
(** A coordinate in hundredths of the pattern's unit: at most half a hundredth away. *)
Definition hundredth (q r : Q) : Prop := (Qabs.Qabs (r - q) <= 1 # 200)%Q /\ exists n, (r == n # 100)%Q.
(** A stitch is kept, turned round; a colour change or stop becomes a colour change, both at the needle,
    which is where the last stitch was. *)
Fixpoint kept_commands (px py : Q) (l : list (stitch Q)) (k : list (stitch Q)) : Prop :=
  match l with
  | [] => k = []
  | s :: r =>
      let c := cmd_of (scmd s) in
      if c =? STITCH then
        match k with
        | t :: k => scmd t = STITCH /\ hundredth (- sx s) (sx t) /\ hundredth (- sy s) (sy t) /\ kept_commands (sx t) (sy t) r k
        | [] => False
        end
      else if (c =? JUMP) || (c =? TRIM) then kept_commands px py r k
      else
        match k with
        | t :: k => scmd t = (if c =? END then END else COLOR_CHANGE) /\ (sx t == px)%Q /\ (sy t == py)%Q /\ kept_commands px py r k
        | [] => False
        end
  end.
Definition gcode_commands (l : list (stitch Q)) : Prop :=
  Forall (fun s => In (cmd_of (scmd s)) [STITCH; JUMP; TRIM; COLOR_CHANGE; STOP; END]) l.
(** A text that can stand in a comment. *)
Definition comment_text (t : text) : Prop := Forall (fun c => (0 <= c < 0xD800 \/ 0xE000 <= c < 0x110000) /\ c <> 10 /\ c <> 13 /\ c <> 41) t.
Definition harmless (t : text) : Prop := comment_text t /\ ~ occurs (text_of "Thread") (ascii_of t).

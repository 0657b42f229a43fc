(** What a VP3 file says, read by following every length in it: the file is a title and one block that reaches to the
    end of the file; that block ends with one design block; the design block ends with the colour blocks; every colour
    block ends with its stitch block and a zero.  Anything else, one byte too many or too few anywhere, is refused.
    Nothing here uses the library's reader. *)
From Coq Require Import ZArith List Bool.
From Verif Require Import PyBase EmbConst ThreadModel.
Import ListNotations.
Open Scope Z_scope.

(** A reader takes something from the front of the bytes and leaves the others. *)
Definition reader (A : Type) := list Z -> option (A * list Z).
Definition give {A} (a : A) : reader A := fun b => Some (a, b).
Definition andthen {A B} (r : reader A) (k : A -> reader B) : reader B :=
  fun b => match r b with Some (a, b') => k a b' | None => None end.
Notation "x <~ r ;; k" := (andthen r (fun x => k)) (at level 61, r at next level, right associativity).

Fixpoint bytes (n : nat) : reader (list Z) :=
  match n with
  | O => give []
  | S n => fun b => match b with [] => None | x :: r => (t <~ bytes n;; give (x :: t)) r end
  end.
(** The next bytes must be these. *)
Fixpoint exactly (l : list Z) : reader unit :=
  match l with
  | [] => give tt
  | x :: l => fun b => match b with [] => None | y :: r => if x =? y then exactly l r else None end
  end.
(** Big-endian numbers of n bytes. *)
Definition value (l : list Z) : Z := fold_left (fun v b => 256 * v + b) l 0.
Definition number (n : nat) : reader Z := l <~ bytes n;; give (value l).
Definition signed (n : nat) : reader Z :=
  v <~ number n;; give (if v <? 2 ^ (8 * Z.of_nat n - 1) then v else v - 2 ^ (8 * Z.of_nat n)).
Definition pair_of (n : nat) : reader (Z * Z) := x <~ signed n;; y <~ signed n;; give (x, y).
(** A two-byte length and that many bytes. *)
Definition string : reader (list Z) := n <~ number 2;; bytes (Z.to_nat n).
(** 0, the kind of block, 0, a four-byte length and that many bytes, all of which [r] reads. *)
Definition block {A} (kind : Z) (r : reader A) : reader A :=
  _ <~ exactly [0; kind; 0];; n <~ number 4;; body <~ bytes (Z.to_nat n);;
  fun rest => match r body with Some (a, []) => Some (a, rest) | _ => None end.
Fixpoint times {A} (n : nat) (r : reader A) : reader (list A) :=
  match n with O => give [] | S n => a <~ r;; l <~ times n r;; give (a :: l) end.
Definition others : reader (list Z) := fun b => Some (b, []).

(** Stitches: a step of the needle with a penetration, or a trim. *)
Inductive mark := Step (dx dy : Z) | Cut.
Definition signed_value (l : list Z) : Z :=
  let n := 8 * Z.of_nat (length l) in
  if value l <? 2 ^ (n - 1) then value l else value l - 2 ^ n.
Fixpoint marks (l : list Z) : option (list mark) :=
  match l with
  | [] => Some []
  | x :: y :: r =>
      if negb (x =? 0x80) then option_map (cons (Step (signed_value [x]) (signed_value [y]))) (marks r)
      else if y =? 3 then option_map (cons Cut) (marks r)
      else if y =? 1 then
        match r with
        | a :: b :: c :: d :: e :: g :: r =>
            if (e =? 0x80) && (g =? 2)
            then option_map (cons (Step (signed_value [a; b]) (signed_value [c; d]))) (marks r) else None
        | _ => None
        end
      else None
  | _ => None
  end.

Record section := mkSection {
  s_start : Z * Z;        (* from the middle of the design *)
  s_colour : Z; s_catalog : list Z; s_description : list Z; s_brand : list Z;
  s_travel : Z * Z;       (* from the start to the end of the section *)
  s_stitches : list Z }.
Record document := mkDocument {
  d_right : Z; d_top : Z; d_left : Z; d_bottom : Z;
  d_count : Z; d_colours : Z;
  d_centre : Z * Z;
  d_halves : list Z; d_width : Z; d_height : Z;
  d_sections : list section }.

Definition stitch_block : reader (list Z) := block 1 (_ <~ exactly [0x0A; 0xF6; 0];; others).
Definition colour_block : reader section :=
  block 5
    (start <~ pair_of 4;;
     _ <~ exactly [1; 0];; colour <~ number 3;; _ <~ exactly [0; 0; 0; 5; 0x28];;
     catalog <~ string;; description <~ string;; brand <~ string;;
     travel <~ pair_of 4;;
     stitches <~ stitch_block;; _ <~ exactly [0];;
     give (mkSection start colour catalog description brand travel stitches)).
Definition design_block : reader (Z * Z * list Z * Z * Z * list section) :=
  block 3
    (centre <~ pair_of 4;; _ <~ exactly [0; 0; 0];;
     halves <~ times 4 (signed 4);; width <~ signed 4;; height <~ signed 4;;
     _ <~ string;; _ <~ bytes 24;; _ <~ string;;
     n <~ number 2;; sections <~ times (Z.to_nat n) colour_block;;
     give (centre, halves, width, height, sections)).
Definition whole : reader document :=
  _ <~ exactly [37; 118; 115; 109; 37; 0];; _ <~ string;;
  block 2
    (_ <~ string;;
     right <~ signed 4;; top <~ signed 4;; left <~ signed 4;; bottom <~ signed 4;;
     count <~ signed 4;;
     _ <~ exactly [0];; colours <~ number 1;; _ <~ exactly [12; 0];;
     _ <~ exactly [1];;
     design <~ design_block;;
     let '(centre, halves, width, height, sections) := design in
     give (mkDocument right top left bottom count colours centre halves width height sections)).
Definition vp3_document (file : list Z) : option document :=
  match whole file with Some (d, []) => Some d | _ => None end.

(** ** What it should say *)

(** The smallest box around all commands. *)
Definition box {C} (l : list (stitch C)) (f : stitch C -> Z) (lo hi : Z) : Prop :=
  (forall s, In s l -> lo <= f s <= hi) /\ (exists s, In s l /\ f s = lo) /\ (exists s, In s l /\ f s = hi).

(** The pattern cut before every colour change. *)
Fixpoint colour_sections {C} (l : list (stitch C)) : list (list (stitch C)) :=
  match l with
  | [] => [[]]
  | s :: r =>
      match colour_sections r with
      | [] => []
      | h :: t => if cmd_of (scmd s) =? COLOR_CHANGE then [] :: (s :: h) :: t else (s :: h) :: t
      end
  end.
(** Where section k starts and ends. *)
Definition first_place (k : nat) (sec : list (stitch Z)) : Z * Z :=
  match k, sec with S _, s :: _ => (sx s, sy s) | _, _ => (0, 0) end.
Definition last_place (sec : list (stitch Z)) : Z * Z :=
  match rev sec with s :: _ => (sx s, sy s) | [] => (0, 0) end.

(** The stitches of a section: the steps between penetrations, a cut for every trim and one for END, which is the last. *)
Fixpoint section_marks (px py : Z) (l : list (stitch Z)) : list mark :=
  match l with
  | [] => []
  | s :: r =>
      if cmd_of (scmd s) =? END then [Cut]
      else if cmd_of (scmd s) =? STITCH then Step (sx s - px) (sy s - py) :: section_marks (sx s) (sy s) r
      else if cmd_of (scmd s) =? TRIM then Cut :: section_marks px py r
      else section_marks px py r
  end.
Definition fits (m : mark) : Prop :=
  match m with Step dx dy => -32768 <= dx <= 32767 /\ -32768 <= dy <= 32767 | Cut => True end.
Definition known (s : stitch Z) : Prop :=
  In (cmd_of (scmd s)) [STITCH; JUMP; TRIM; STOP; END; COLOR_CHANGE; SEQUIN_MODE; SEQUIN_EJECT].

(** v is c to within half a unit; v is in hundredths of a unit, c2 is twice c in units. *)
Definition about (v c2 : Z) : Prop := Z.abs (2 * v - 100 * c2) <= 100.

(** What the design part of a PES file ("CSewSeg", PesWriter.py 249-382) is to hold, and a reader for it:
    the library itself reads only the PEC part. *)
From Coq Require Import ZArith QArith List Bool.
From Verif Require Import PyBase EmbConst ThreadModel PatternModel PesModel.
Import ListNotations.
Open Scope Z_scope.

(** ** Reading: 16-bit words, the low byte first *)
Definition word2 (bs : list Z) : option (Z * list Z) :=
  match bs with a :: b :: r => Some (a + 256 * b, r) | _ => None end.
Definition plus_minus (w : Z) : Z := if w <? 32768 then w else w - 65536.
Fixpoint read_points (n : nat) (bs : list Z) : option (list (Z * Z) * list Z) :=
  match n with
  | O => Some ([], bs)
  | S n =>
      match word2 bs with None => None | Some (x, r) =>
      match word2 r with None => None | Some (y, r) =>
      match read_points n r with None => None | Some (l, r) => Some ((plus_minus x, plus_minus y) :: l, r) end end end
  end.
(** A section: flag (0 sewn, 1 jumped), colour number, points. *)
Record section := mkSec { sec_flag : Z; sec_colour : Z; sec_points : list (Z * Z) }.
Definition read_section (bs : list Z) : option (section * list Z) :=
  match word2 bs with None => None | Some (f, r) =>
  match word2 r with None => None | Some (c, r) =>
  match word2 r with None => None | Some (n, r) =>
  match read_points (Z.to_nat n) r with None => None | Some (l, r) => Some (mkSec f c l, r) end end end end.
(** Sections with 0x8003 between them. *)
Fixpoint read_sections (n : nat) (bs : list Z) : option (list section * list Z) :=
  match n with
  | O => Some ([], bs)
  | S O => match read_section bs with None => None | Some (s, r) => Some ([s], r) end
  | S n =>
      match read_section bs with None => None | Some (s, r) =>
      match word2 r with None => None | Some (w, r) =>
      if w =? 0x8003 then match read_sections n r with None => None | Some (l, r) => Some (s :: l, r) end
      else None end end
  end.
(** The list of colours: at which section which colour begins. *)
Fixpoint read_pairs (n : nat) (bs : list Z) : option (list (Z * Z) * list Z) :=
  match n with
  | O => Some ([], bs)
  | S n =>
      match word2 bs with None => None | Some (x, r) =>
      match word2 r with None => None | Some (y, r) =>
      match read_pairs n r with None => None | Some (l, r) => Some ((x, y) :: l, r) end end end
  end.
Definition read_design (sections : Z) (bs : list Z) : option (list section * list (Z * Z) * list Z) :=
  match read_sections (Z.to_nat sections) bs with None => None | Some (l, r) =>
  match word2 r with None => None | Some (n, r) =>
  match read_pairs (Z.to_nat n) r with None => None | Some (log, r) => Some (l, log, r) end end end.
(** The colour in force at section [k]: that of the last entry at or before it. *)
Definition colour_at (log : list (Z * Z)) (k : Z) : option Z :=
  fold_left (fun c e => if fst e <=? k then Some (snd e) else c) log None.

(** ** What it is to hold *)
(** The stitches in order, with the number of the thread: each colour change takes the next. *)
Fixpoint sewn (i : Z) (l : list (stitch Q)) : list (Z * (Q * Q)) :=
  match l with
  | [] => []
  | s :: r =>
      if cmd_of (scmd s) =? STITCH then (i, (sx s, sy s)) :: sewn i r
      else if cmd_of (scmd s) =? COLOR_CHANGE then sewn (i + 1) r
      else sewn i r
  end.
(** The travels: from the last stitch (at first the origin) to where a run of jumps ends. *)
Definition jumps_on (l : list (stitch Q)) : bool := match l with s :: _ => cmd_of (scmd s) =? JUMP | [] => false end.
Fixpoint travels (i : Z) (at_ : Q * Q) (l : list (stitch Q)) : list (Z * ((Q * Q) * (Q * Q))) :=
  match l with
  | [] => []
  | s :: r =>
      if cmd_of (scmd s) =? JUMP then
        (if jumps_on r then [] else [(i, (at_, (sx s, sy s)))]) ++ travels i at_ r
      else if cmd_of (scmd s) =? STITCH then travels i (sx s, sy s) r
      else if cmd_of (scmd s) =? COLOR_CHANGE then travels (i + 1) at_ r
      else travels i at_ r
  end.
(** No colour change directly after another. *)
Fixpoint single_changes (l : list (stitch Q)) : Prop :=
  match l with
  | [] => True
  | s :: r => (cmd_of (scmd s) = COLOR_CHANGE -> match r with t :: _ => cmd_of (scmd t) <> COLOR_CHANGE | [] => True end)
              /\ single_changes r
  end.
(** A position relative to the left lower corner, cut to whole units. *)
Definition cut (v : Q) : Z := Z.quot (Qnum v) (Zpos (Qden v)).
Definition from_corner (e : Q * Q) (p : Q * Q) : Z * Z := (cut (fst p - fst e), cut (snd p - snd e)).

(** ** The pattern as saved: threads instead of numbers, stops included *)
(** The stitches with the thread each is sewn with: a colour change takes the next thread, a stop none. *)
Fixpoint painted (ts : list thread) (l : list (stitch Q)) : list (thread * (Q * Q)) :=
  match l, ts with
  | s :: r, t :: rest =>
      if cmd_of (scmd s) =? STITCH then (t, (sx s, sy s)) :: painted ts r
      else if cmd_of (scmd s) =? COLOR_CHANGE then painted rest r
      else painted ts r
  | _, _ => []
  end.
Fixpoint travelled (ts : list thread) (at_ : Q * Q) (l : list (stitch Q)) : list (thread * ((Q * Q) * (Q * Q))) :=
  match l, ts with
  | s :: r, t :: rest =>
      if cmd_of (scmd s) =? JUMP then
        (if jumps_on r then [] else [(t, (at_, (sx s, sy s)))]) ++ travelled ts at_ r
      else if cmd_of (scmd s) =? STITCH then travelled ts (sx s, sy s) r
      else if cmd_of (scmd s) =? COLOR_CHANGE then travelled rest at_ r
      else travelled ts at_ r
  | _, _ => []
  end.
(** The threads of the file: the current one once more at each stop. *)
Fixpoint listed (ts : list thread) (l : list (stitch Q)) : list thread :=
  match l, ts with
  | s :: r, t :: rest =>
      if cmd_of (scmd s) =? COLOR_CHANGE then t :: listed rest r
      else if cmd_of (scmd s) =? STOP then t :: listed ts r
      else listed ts r
  | _, _ => ts
  end.
(** Neither a colour change nor a stop directly after another. *)
Definition switches (s : stitch Q) : Prop := cmd_of (scmd s) = COLOR_CHANGE \/ cmd_of (scmd s) = STOP.
Definition switches_apart (l : list (stitch Q)) : Prop :=
  forall a s t b, l = a ++ s :: t :: b -> switches s -> ~ switches t.
(** The commands that only patterns not yet encoded have. *)
Definition no_orders (l : list (stitch Q)) : Prop :=
  forall s, In s l -> cmd_of (scmd s) <> COLOR_BREAK /\ cmd_of (scmd s) <> NEEDLE_SET.
(** A thread for every stretch between colour changes. *)
Definition threads_for (l : list (stitch Q)) (ts : list thread) : Prop :=
  (List.length (filter (fun s : stitch Q => Z.eqb (cmd_of (scmd s)) COLOR_CHANGE) l) < List.length ts)%nat.
(** Any two positions, the origin included, are nearer than 32768 units in each direction. *)
Definition places (l : list (stitch Q)) : list (Q * Q) := (0%Q, 0%Q) :: map (fun s => (sx s, sy s)) l.
Definition close_by (l : list (stitch Q)) : Prop :=
  forall p q, In p (places l) -> In q (places l) ->
    (- (32768) < fst p - fst q < 32768)%Q /\ (- (32768) < snd p - snd q < 32768)%Q.
(** The corner with the least x and the greatest y. *)
Definition corner (l : list (stitch Q)) (e : Q * Q) : Prop :=
  In (fst e) (map sx l) /\ In (snd e) (map sy l) /\
  forall s, In s l -> (fst e <= sx s)%Q /\ (sy s <= snd e)%Q.

(** The sewn points and the travels of the sections. *)
Definition drawn (l : list section) : list (Z * (Z * Z)) :=
  flat_map (fun s => map (fun p => (sec_colour s, p)) (sec_points s)) (filter (fun s => sec_flag s =? 0) l).
Definition jumped (l : list section) : list (Z * list (Z * Z)) :=
  map (fun s => (sec_colour s, sec_points s)) (filter (fun s => sec_flag s =? 1) l).
(** The marker before the sections: 0xFFFF, 0, the length of the name and the name "CSewSeg". *)
Definition sewseg_marker : list Z := [255; 255; 0; 0; 7; 0; 67; 83; 101; 119; 83; 101; 103].

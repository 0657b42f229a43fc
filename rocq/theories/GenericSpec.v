(** What a user of the generic writer expects of the file. *)
From Coq Require Import ZArith QArith Qabs List Bool.
From Verif Require Import PyBase EmbConst ThreadModel TextModel PatternModel GenericModel.
Import ListNotations.
Open Scope Z_scope.

(** ** Which commands are written *)
(** The template of a command: its own if it is given, the general one otherwise. *)
Definition template (gs : gsettings) (c : Z) : option text :=
  if existsb (Z.eqb c) named_commands then match g_named gs c with Some t => Some t | None => g_segment gs end else g_segment gs.
(** The commands with a template, with their places in the pattern. *)
Fixpoint written (gs : gsettings) (index : Z) (l : list (stitch Q)) : list (text * Z * stitch Q) :=
  match l with
  | [] => []
  | s :: r =>
      match template gs (cmd_of (scmd s)) with
      | Some t => [(t, index, s)]
      | None => []
      end ++ written gs (index + 1) r
  end.
Definition segment_of (e : gevent) : list (text * gvalues) := match e with Segment t v => [(t, v)] | _ => [] end.
Definition segments (es : list gevent) : list (text * gvalues) := flat_map segment_of es.
(** The values of the commands written follow one another. *)
Fixpoint follow (travel : Q) (ix iy : Z) (x y z : Q) (l : list gvalues) : Prop :=
  match l with
  | [] => True
  | v :: r =>
      v_ix v = ix + v_idx v /\ v_iy v = iy + v_idy v /\
      (Qabs (v_x v - inject_Z (v_ix v)) <= 1 # 2)%Q /\ (Qabs (v_y v - inject_Z (v_iy v)) <= 1 # 2)%Q /\
      v_last_x v = x /\ v_last_y v = y /\ (v_dx v == v_x v - x)%Q /\ (v_dy v == v_y v - y)%Q /\ (v_z v == z)%Q /\
      follow travel (v_ix v) (v_iy v) (v_x v) (v_y v) (if cmd_of (v_command v) =? STITCH then z + travel else z)%Q r
  end.

(** ** Nesting *)
(** Which of document, colour and block is open.  [given]: for which of them there are templates. *)
Record levels := mkLv { l_document : bool; l_color : bool; l_block : bool }.
Definition closed : levels := mkLv false false false.
Definition within_color (c : Z) : bool := existsb (Z.eqb c) [TRIM; NEEDLE_SET].
Definition within_block (c : Z) : bool := existsb (Z.eqb c) [SEQUIN_MODE; SEQUIN_EJECT; STITCH; JUMP; STOP; SLOW; FAST; END].
Definition same := Bool.eqb.
Definition place (given st : levels) (e : gevent) : option levels :=
  match e with
  | Part Document_start _ _ => if l_document st || l_color st || l_block st then None else Some (mkLv true false false)
  | Part Color_start _ _ =>
      if same (l_document st) (l_document given) && negb (l_color st) && negb (l_block st) then Some (mkLv (l_document st) true false) else None
  | Part Block_start _ _ =>
      if same (l_document st) (l_document given) && same (l_color st) (l_color given) && negb (l_block st)
      then Some (mkLv (l_document st) (l_color st) true) else None
  | Part Block_end _ _ => if l_block st then Some (mkLv (l_document st) (l_color st) false) else None
  | Part Color_end _ _ => if l_color st && negb (l_block st) then Some (mkLv (l_document st) false false) else None
  | Part Document_end _ _ => if l_document st && negb (l_color st) && negb (l_block st) then Some closed else None
  | Segment _ v =>
      let c := cmd_of (v_command v) in
      let d := same (l_document st) (l_document given) in
      let k := same (l_color st) (l_color given) in
      let b := same (l_block st) (l_block given) in
      if (if within_block c then d && k && b else if within_color c then d && k else if c =? COLOR_CHANGE then d else true) then Some st else None
  | _ => Some st
  end.
Fixpoint places (given st : levels) (es : list gevent) : option levels :=
  match es with
  | [] => Some st
  | e :: r => match place given st e with Some st => places given st r | None => None end
  end.
(** For each of document, colour and block the start and the end are given, or neither. *)
Definition has (gs : gsettings) (k : part_kind) : bool := match g_part gs k with Some _ => true | None => false end.
Definition paired (gs : gsettings) : Prop :=
  has gs Document_start = has gs Document_end /\ has gs Color_start = has gs Color_end /\ has gs Block_start = has gs Block_end.
Definition given (gs : gsettings) : levels := mkLv (has gs Document_start) (has gs Color_start) (has gs Block_start).

Definition is_part (k : part_kind) (e : gevent) : bool :=
  match e with
  | Part k' _ _ =>
      match k, k' with
      | Color_join, Color_join | Color_start, Color_start | Block_join, Block_join | Block_start, Block_start
      | Document_start, Document_start | Document_end, Document_end | Color_end, Color_end | Block_end, Block_end => true
      | _, _ => false
      end
  | _ => false
  end.
Definition count (k : part_kind) (es : list gevent) : nat := List.length (filter (is_part k) es).

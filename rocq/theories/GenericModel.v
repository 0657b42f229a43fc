(** pyembroidery/GenericWriter.py.  The file is a sequence of templates, each filled in with the
    values at hand: what is modelled is which templates are written, in which order and with
    which values.  str.format_map and the values that do not come from the commands (metadata,
    threads, statistics) are in GenericTextModel.v.  Templates given as a
    dictionary are in GenericTableModel.v. *)
From Coq Require Import Ascii String ZArith QArith Qround List Bool.
From Verif Require Import PyBase EmbConst NumQ ThreadModel TextModel PatternModel NameModel.
Import ListNotations.
Open Scope Z_scope.

(** The templates of GenericWriter.py 54-83 that are not a command's. *)
Inductive part_kind :=
| Pattern_start | Pattern_end | Document_start | Document_end | Color_start | Color_end | Color_join
| Block_start | Block_end | Block_join | Segment_start | Segment_end | Segment_join.
(** GenericWriter.py 54-83, 105: the templates given; [g_named c] is the one of the command c. *)
Record gsettings := mkGS { g_part : part_kind -> option text; g_named : Z -> option text; g_segment : option text; g_travel : Q }.
(** GenericWriter.py 155-201: [g_named] is only asked for these commands. *)
Definition named_commands : list Z :=
  [SEQUIN_MODE; SEQUIN_EJECT; STITCH; TRIM; JUMP; COLOR_CHANGE; NEEDLE_SET; STOP; SLOW; FAST; END].
Definition get_write_segment (gs : gsettings) (cmd : Z) : option text :=
  if existsb (Z.eqb cmd) named_commands then
    match g_named gs cmd with Some t => Some t | None => g_segment gs end
  else g_segment gs.

(** The values for the templates: GenericWriter.py 242-306, 322-371. *)
Record gvalues := mkV {
  v_index : Z; v_command : Z; v_name : text;
  v_x : Q; v_y : Q; v_z : Q; v_dx : Q; v_dy : Q; v_idx : Z; v_idy : Z; v_ix : Z; v_iy : Z; v_last_x : Q; v_last_y : Q;
  v_document : Z; v_color : Z; v_block : Z }.
Inductive gevent :=
| Part (k : part_kind) (t : text) (v : gvalues)
| Segment (t : text) (v : gvalues).
(** The writer between two commands.  The opening and closing flags are gone again by then. *)
Record gwriter := mkGW {
  w_document : bool; w_color : bool; w_block : bool;
  w_document_index : Z; w_color_index : Z; w_block_index : Z;
  w_ix : Z; w_iy : Z; w_last_x : Q; w_last_y : Q; w_z : Q }.
(* GenericWriter.py 84-121 *)
Definition gw_start : gwriter := mkGW false false false (-1) (-1) (-1) 0 0 0 0 0.

Definition part_event (gs : gsettings) (k : part_kind) (v : gvalues) : list gevent :=
  match g_part gs k with Some t => [Part k t v] | None => [] end.
(** Which of document, colour and block a command opens (GenericWriter.py 460-519) and closes
    (524-568). *)
Definition opens (cmd : Z) : bool * bool * bool :=
  if existsb (Z.eqb cmd) [SEQUIN_MODE; SEQUIN_EJECT; STITCH; JUMP; STOP; SLOW; FAST; END] then (true, true, true)
  else if existsb (Z.eqb cmd) [TRIM; NEEDLE_SET] then (true, true, false)
  else if cmd =? COLOR_CHANGE then (true, false, false)
  else (false, false, false).
Definition closes (cmd : Z) : bool * bool * bool :=
  if cmd =? TRIM then (false, false, true)
  else if cmd =? COLOR_CHANGE then (false, true, true)
  else if cmd =? END then (true, true, true)
  else (false, false, false).
(** One command with a template: GenericWriter.py 454-569 with update_positions 242-275,
    open_document 316-333, open_color 335-354, open_block 356-371, write_opens 123-139,
    write_segment 373-386, close_* 396-412 and write_closes 141-153. *)
Definition generic_command (gs : gsettings) (t : text) (index : Z) (s : stitch Q) (name : text) (w : gwriter) : list gevent * gwriter :=
  let cmd := cmd_of (scmd s) in
  let idx := q_round (sx s - inject_Z (w_ix w)) in
  let idy := q_round (sy s - inject_Z (w_iy w)) in
  let ix := w_ix w + idx in
  let iy := w_iy w + idy in
  let z := if cmd =? STITCH then (w_z w + g_travel gs)%Q else w_z w in
  let '(od, oc, ob) := opens cmd in
  (* open_document *)
  let d_new := od && negb (w_document w) in
  let document := if d_new then w_document_index w + 1 else w_document_index w in
  let color0 := if d_new then 0 else w_color_index w in
  (* open_color *)
  let c_new := oc && negb (w_color w) in
  let block0 := if c_new then 0 else w_block_index w in
  let color := if c_new then color0 + 1 else color0 in
  (* open_block *)
  let b_new := ob && negb (w_block w) in
  let block := if b_new then block0 + 1 else block0 in
  let v := mkV index (scmd s) name (sx s) (sy s) (w_z w) (sx s - w_last_x w)%Q (sy s - w_last_y w)%Q idx idy ix iy
             (w_last_x w) (w_last_y w) document color block in
  let '(cd, cc, cb) := closes cmd in
  let is_d := w_document w || od in
  let is_c := w_color w || oc in
  let is_b := w_block w || ob in
  ((if d_new then part_event gs Document_start v else [])
   ++ (if c_new then (if color =? 0 then [] else part_event gs Color_join v) ++ part_event gs Color_start v else [])
   ++ (if b_new then (if block =? 0 then [] else part_event gs Block_join v) ++ part_event gs Block_start v else [])
   ++ part_event gs Segment_start v ++ [Segment t v] ++ part_event gs Segment_join v ++ part_event gs Segment_end v
   ++ (if cb && is_b then part_event gs Block_end v else [])
   ++ (if cc && is_c then part_event gs Color_end v else [])
   ++ (if cd && is_d then part_event gs Document_end v else []),
   mkGW (is_d && negb cd) (is_c && negb cc) (is_b && negb cb) document color block ix iy (sx s) (sy s) z).
(** GenericWriter.py 449-569; the name of an unknown command raises KeyError. *)
Fixpoint generic_commands (gs : gsettings) (index : Z) (l : list (stitch Q)) (w : gwriter) : res (list gevent * gwriter) :=
  match l with
  | [] => Ok ([], w)
  | s :: r =>
      match name_of (cmd_of (scmd s)) common_names with
      | None => Err KeyError
      | Some name =>
          match get_write_segment gs (cmd_of (scmd s)) with
          | Some t =>
              let '(e, w) := generic_command gs t index s name w in
              do '(es, w) <- generic_commands gs (index + 1) r w;
              Ok (e ++ es, w)
          | None => generic_commands gs (index + 1) r w
          end
      end
  end.
(** GenericWriter.py 414-574 without the metadata and thread entries.  The values of the start and
    the end of the pattern are those of no command: [v0].  The last close_block, close_color and
    close_document (571-573) only set flags: nothing is written for them. *)
Definition generic_write (gs : gsettings) (v0 : gvalues) (l : list (stitch Q)) : res (list gevent) :=
  do '(es, _) <- generic_commands gs 0 l gw_start;
  Ok (part_event gs Pattern_start v0 ++ es ++ part_event gs Pattern_end v0).

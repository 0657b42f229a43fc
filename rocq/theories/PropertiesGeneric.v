(** Properties of the generic writer: C102 to C104. *)
From Coq Require Import Ascii String ZArith QArith Qabs List Bool Lia.
From Verif Require Import PyBase EmbConst ThreadModel TextModel PatternModel NameModel GenericModel GenericSpec GenericProofs.
Import ListNotations.
Open Scope Z_scope.

(** The settings of test/test_generic.py, with a document and joins. *)
Definition all_parts (k : part_kind) : option text :=
  match k with
  | Document_start => Some (text_of "<doc>") | Document_end => Some (text_of "</doc>")
  | Color_start => Some (text_of "[") | Color_end => Some (text_of "]") | Color_join => Some (text_of ",")
  | Block_start => Some (text_of "{{") | Block_end => Some (text_of "}}") | Block_join => Some (text_of ";")
  | Segment_end => Some [10] | _ => None
  end.
Definition sample_settings : gsettings := mkGS all_parts (fun c => if c =? STITCH then Some (text_of "Stitch: {x},{y}") else None) (Some (text_of "{cmd_str} {x},{y}")) 10.
Definition no_values : gvalues := mkV 0 0 [] 0 0 0 0 0 0 0 0 0 0 0 0 0 0.
Definition sample_pattern : list (stitch Q) :=
  [mkS (1 # 3)%Q 0%Q JUMP; mkS (2 # 3)%Q (5 # 2)%Q STITCH; mkS 1%Q 4%Q STITCH; mkS 1%Q 4%Q TRIM; mkS 1%Q 4%Q COLOR_CHANGE; mkS 9%Q (-2)%Q STITCH; mkS 9%Q (-2)%Q END].
Definition kinds (es : list gevent) : list text := map (fun e => match e with Part _ t _ => t | Segment t _ => t end) es.

(** ** C102 *)
Theorem C102_generic_segments : forall gs v0 l es, generic_write gs v0 l = Ok es ->
  map (fun '(t, v) => (t, v_index v, mkS (v_x v) (v_y v) (v_command v))) (segments es) = written gs 0 l /\
  follow (g_travel gs) 0 0 0 0 0 (map snd (segments es)).
Proof. exact generic_segments_written. Qed.
(** Nothing but an unknown command makes the writer fail. *)
Theorem C102_generic_known : forall gs v0 l, (exists es, generic_write gs v0 l = Ok es) \/
  generic_write gs v0 l = Err KeyError /\ Exists (fun s => name_of (cmd_of (scmd s)) common_names = None) l.
Proof. exact generic_known. Qed.
Example C102_case : exists es, generic_write sample_settings no_values sample_pattern = Ok es /\
  map (fun '(t, v) => (v_idx v, v_idy v, v_ix v, v_iy v)) (segments es)
  = [(0, 0, 0, 0); (1, 2, 1, 2); (0, 2, 1, 4); (0, 0, 1, 4); (0, 0, 1, 4); (8, -6, 9, -2); (0, 0, 9, -2)].
Proof. eexists. split; [vm_compute; reflexivity|vm_compute; reflexivity]. Qed.

(** ** C103 *)
(** The starts and ends are nested, each command is inside what it belongs to, and a pattern whose last command is an END with a
    template leaves nothing open. *)
Theorem C103_generic_nested_partial : forall gs v0 l es, paired gs -> generic_write gs v0 l = Ok es ->
  exists st, places (given gs) closed es = Some st /\
    forall l' s, l = l' ++ [s] -> cmd_of (scmd s) = END -> template gs END <> None -> st = closed.
Proof. exact generic_well_nested. Qed.
Example C103_case : paired sample_settings /\ template sample_settings END <> None /\ exists es, generic_write sample_settings no_values sample_pattern = Ok es /\
  places (given sample_settings) closed es = Some closed /\ count Color_start es = 2%nat /\ count Block_start es = 2%nat.
Proof.
  split; [repeat split|]. split; [discriminate|]. eexists. split; [vm_compute; reflexivity|]. split; [vm_compute; reflexivity|]. split; vm_compute; reflexivity.
Qed.
(** Templates for stitches and blocks only: the last block is never ended. *)
Theorem C103_refuted : exists gs es, paired gs /\
  generic_write gs no_values [mkS 0%Q 0%Q STITCH; mkS 1%Q 0%Q STITCH; mkS 1%Q 0%Q END] = Ok es /\
  kinds es = [text_of "{{"; text_of "{x},{y} "; text_of "{x},{y} "] /\ count Block_start es = 1%nat /\ count Block_end es = 0%nat.
Proof.
  exists (mkGS (fun k => match k with Block_start => Some (text_of "{{") | Block_end => Some (text_of "}}") | _ => None end)
           (fun c => if c =? STITCH then Some (text_of "{x},{y} ") else None) None 10).
  eexists. split; [repeat split|]. split; [vm_compute; reflexivity|]. split; [reflexivity|]. split; vm_compute; reflexivity.
Qed.

(** ** C104 *)
(** A join is written before every start, the first one included. *)
Theorem C104_generic_joins : forall gs v0 l es, generic_write gs v0 l = Ok es ->
  (has gs Color_join = true -> has gs Color_start = true -> count Color_join es = count Color_start es) /\
  (has gs Block_join = true -> has gs Block_start = true -> count Block_join es = count Block_start es).
Proof. exact generic_joins. Qed.
Theorem C104_refuted : exists gs es, generic_write gs no_values [mkS 0%Q 0%Q STITCH; mkS 0%Q 0%Q END] = Ok es /\
  kinds es = [text_of ", "; text_of "["; text_of "{x}"].
Proof.
  exists (mkGS (fun k => match k with Color_start => Some (text_of "[") | Color_end => Some (text_of "]") | Color_join => Some (text_of ", ") | _ => None end)
           (fun c => if c =? STITCH then Some (text_of "{x}") else None) None 10).
  eexists. split; [vm_compute; reflexivity|]. vm_compute. reflexivity.
Qed.

Print Assumptions C102_generic_segments.
Print Assumptions C102_generic_known.
Print Assumptions C103_generic_nested_partial.
Print Assumptions C103_refuted.
Print Assumptions C104_generic_joins.
Print Assumptions C104_refuted.

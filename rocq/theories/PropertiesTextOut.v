(** Properties of TXT and SVG files: C105 to C107. *)
From Coq Require Import Ascii String ZArith QArith Qabs List Bool Lia.
From Verif Require Import PyBase EmbConst ThreadModel TextModel PatternModel PatternSpec NameModel GcodeSpec TextOutModel TextOutSpec TextOutProofs.
Import ListNotations.
Open Scope Z_scope.

(** ** C105 *)
Theorem C105_txt_lines : forall get l t, txt_write false get l = Ok t ->
  exists lines, t = concat lines /\ Forall2 (shows (t_color (get 0))) l lines.
Proof. intros get l t. apply normal_shows. Qed.
Theorem C105_txt_mimic_lines : forall get l t, txt_write true get l = Ok t -> exists lines, t = concat lines /\ all_show_mm 0 l lines.
Proof. intros get l t. apply (mimic_shows l 0). Qed.
Theorem C105_txt_known : forall get l,
  ((exists t, txt_write false get l = Ok t) <-> Forall (fun s => In (cmd_of (scmd s)) (map fst common_names)) l) /\
  ((exists t, txt_write true get l = Ok t) <-> Forall (fun s => In (cmd_of (scmd s)) (map fst flag_of)) l).
Proof. intros get l. split; [apply normal_total|apply (mimic_total l 0)]. Qed.
Definition two_threads (i : Z) : thread := if i =? 0 then mkT 0xFF0000 None None None None None None else mkT 0x0000FF None None None None None None.
Example C105_case : txt_write false two_threads [mkS (-1 # 4)%Q 12%Q STITCH; mkS 0%Q 0%Q END]
  = Ok (text_of "-0.2,12.0 color:16711680 command:STITCH flags:0" ++ [10] ++ text_of "0.0,0.0 color:16711680 command:END flags:4" ++ [10]) /\
  txt_write true two_threads [mkS (-1 # 4)%Q 12%Q COLOR_CHANGE; mkS 0%Q 0%Q END]
  = Ok (text_of "-0.0,1.2 color:1 flags:4" ++ [10] ++ text_of "0.0,0.0 color:1 flags:16" ++ [10]) /\
  txt_write true two_threads [mkS 0%Q 0%Q SLOW] = Err KeyError.
Proof. split; [|split]; vm_compute; reflexivity. Qed.

(** ** C106 *)
(** The stitch after the colour change is sewn with thread 1, but its line has the colour of thread 0. *)
Theorem C106_refuted : exists l t, l = [mkS 0%Q 0%Q STITCH; mkS 0%Q 0%Q COLOR_CHANGE; mkS 5%Q 0%Q STITCH] /\ txt_write false two_threads l = Ok t /\
  t = text_of "0.0,0.0 color:16711680 command:STITCH flags:0" ++ [10] ++ text_of "0.0,0.0 color:16711680 command:COLOR_CHANGE flags:5" ++ [10]
      ++ text_of "5.0,0.0 color:16711680 command:STITCH flags:0" ++ [10] /\ t_color (two_threads 1) <> 16711680.
Proof. do 2 eexists. split; [reflexivity|]. split; [vm_compute; reflexivity|]. split; [reflexivity|discriminate]. Qed.

(** ** C107 *)
(** The runs of stitches, each with the number of colour changes before it ([stitch_cut]), are the paths. *)
Theorem C107_svg_paths : forall get (l : list (stitch Z)), exists cut, stitch_cut 0 l cut /\
  map (fun p => (read_path (p_data p), p_stroke p)) (svg_paths get l)
  = map (fun '(run, n) => (Some (map (fun s => (sx s, sy s)) run), hex_color (t_color (get n)))) cut.
Proof. exact svg_drawn. Qed.
Example C107_case : svg_paths two_threads [mkS 1 2 STITCH; mkS (-30) 4 STITCH; mkS 0 0 TRIM; mkS 5 5 STITCH; mkS 5 5 COLOR_CHANGE; mkS 7 7 STITCH; mkS 7 7 END]
  = [mkPath (text_of "M 1,2 -30,4") (text_of "#ff0000"); mkPath (text_of "M 5,5") (text_of "#ff0000"); mkPath (text_of "M 7,7") (text_of "#0000ff")].
Proof. vm_compute. reflexivity. Qed.

Print Assumptions C105_txt_lines.
Print Assumptions C105_txt_mimic_lines.
Print Assumptions C105_txt_known.
Print Assumptions C106_refuted.
Print Assumptions C107_svg_paths.

(** C219: the lines the generic writer writes for the commands. *)
From Coq Require Import Ascii String ZArith QArith Qround Lia List Bool.
From Verif Require Import PyBase EmbConst ThreadModel TextModel NameModel PatternModel FilesProofs GenericModel GenericTextModel GenericTextSpec GenericTextProofs PropertiesGenericText.
Import ListNotations.
Open Scope Z_scope.

(** The values of the command with number [i], called [cmd], when the last command with a template was at (px, py). *)
Definition line_names : list text :=
  map text_of ["index"; "command"; "cmd_str"; "x"; "y"; "_x"; "_y"; "dx"; "dy"; "last_x"; "last_y"; "_last_x"; "_last_y"]%string.
Definition line_value (show : Q -> text) (i : Z) (s : stitch Q) (cmd : text) (px py : Q) (name : text) : text :=
  let is n := text_eqb name (text_of n) in
  if is "index"%string then str_of_int i
  else if is "command"%string then str_of_int (scmd s)
  else if is "cmd_str"%string then cmd
  else if is "x"%string then show (sx s)
  else if is "y"%string then show (sy s)
  else if is "_x"%string then show (- sx s)%Q
  else if is "_y"%string then show (- sy s)%Q
  else if is "dx"%string then show (sx s - px)%Q
  else if is "dy"%string then show (sy s - py)%Q
  else if is "last_x"%string then show px
  else if is "last_y"%string then show py
  else if is "_last_x"%string then show (- px)%Q
  else show (- py)%Q.
(** One text for each command, in order; each begins where the one before ended. *)
Fixpoint lines (show : Q -> text) (ps : Z -> list piece) (i : Z) (px py : Q) (l : list (stitch Q * text)) : text :=
  match l with
  | [] => []
  | (s, cmd) :: r => spelled (line_value show i s cmd px py) (ps (cmd_of (scmd s))) ++ lines show ps (i + 1) (sx s) (sy s) r
  end.
Definition bare : part_kind -> option (list piece) := fun _ => None.
(** The template of a command is its own, or the one for all. *)
Definition template_for (named : Z -> option (list piece)) (other : list piece) (c : Z) : list piece :=
  if existsb (Z.eqb c) [SEQUIN_MODE; SEQUIN_EJECT; STITCH; TRIM; JUMP; COLOR_CHANGE; NEEDLE_SET; STOP; SLOW; FAST; END]
  then match named c with Some ps => ps | None => other end else other.

Lemma known_name c n : In (c, n) common_names -> name_of c common_names = Some n.
Proof.
  assert (H : forallb (fun e => match name_of (fst e) common_names with Some m => text_eqb m (snd e) | None => false end) common_names = true) by (vm_compute; reflexivity).
  rewrite forallb_forall in H. intros I. specialize (H _ I). cbn [fst snd] in H. destruct (name_of c common_names) as [m|]; [|discriminate]. apply text_eqb_spec in H. congruence.
Qed.
Section Lines.
Variables (show show_float : Q -> text) (ts : templates) (other : list piece).
Hypothesis Hpart : forall k, ts_part ts k = None.
Hypothesis Hsegment : ts_segment ts = Some other.
Hypothesis Hnames : forall c, plain (template_for (ts_named ts) other c) /\ incl (names_in (template_for (ts_named ts) other c)) line_names.

Lemma the_template c : get_write_segment (settings_of ts) c = Some (template_text (template_for (ts_named ts) other c)).
Proof.
  rewrite segment_pieces. unfold pieces_of, template_for. change named_commands with [SEQUIN_MODE; SEQUIN_EJECT; STITCH; TRIM; JUMP; COLOR_CHANGE; NEEDLE_SET; STOP; SLOW; FAST; END].
  destruct (existsb _ _); [destruct (ts_named ts c)|]; rewrite ?Hsegment; reflexivity.
Qed.
Lemma no_part k v : part_event (settings_of ts) k v = [].
Proof. unfold part_event, settings_of. cbn [g_part]. rewrite Hpart. reflexivity. Qed.
Lemma one_command t i s name w : exists v w', generic_command (settings_of ts) t i s name w = ([Segment t v], w') /\
  v_x v = sx s /\ v_y v = sy s /\ v_dx v = (sx s - w_last_x w)%Q /\ v_dy v = (sy s - w_last_y w)%Q /\ v_last_x v = w_last_x w /\ v_last_y v = w_last_y w /\
  w_last_x w' = sx s /\ w_last_y w' = sy s.
Proof.
  unfold generic_command. destruct (opens (cmd_of (scmd s))) as [[od oc] ob]. destruct (closes (cmd_of (scmd s))) as [[cd cc] cb]. cbv zeta. rewrite !no_part.
  eexists. eexists. split.
  - repeat match goal with |- context [if ?b then [] else []] => replace (if b then @nil gevent else []) with (@nil gevent) by (destruct b; reflexivity) end.
    cbn [app]. repeat match goal with |- context [if ?b then [] else []] => replace (if b then @nil gevent else []) with (@nil gevent) by (destruct b; reflexivity) end.
    cbn [app]. reflexivity.
  - cbn [v_x v_y v_dx v_dy v_last_x v_last_y w_last_x w_last_y]. repeat split.
Qed.
Lemma all_lines l : Forall (fun e => In (cmd_of (scmd (fst e)), snd e) common_names) l -> forall i w d, exists d',
  text_commands show show_float (settings_of ts) i (map fst l) w d
  = Ok (lines show (template_for (ts_named ts) other) i (w_last_x w) (w_last_y w) l, d').
Proof.
  induction 1 as [|[s cmd] l H1 H2 IH]; intros i w d; cbn [map fst snd text_commands lines] in *.
  - eexists. reflexivity.
  - rewrite (known_name _ _ H1), the_template. destruct (Hnames (cmd_of (scmd s))) as [P N].
    destruct (one_command (template_text (template_for (ts_named ts) other (cmd_of (scmd s)))) i s cmd w) as (v & w' & -> & V1 & V2 & V3 & V4 & V5 & V6 & W1 & W2).
    cbn [fill_events template_of values_of after_events]. rewrite format_pieces by exact P. rewrite (evaluate_spelled _ (line_value show i s cmd (w_last_x w) (w_last_y w))).
    2:{ intros n I. apply N in I. rewrite lookup_app, lookup_none.
        2:{ intros J. apply number_keys in J. revert J. apply (disjoint_not n line_names number_names); [vm_compute; reflexivity|exact I]. }
        cbn [line_names map In] in I.
        repeat (destruct I as [<-|I]; [unfold line_value; rewrite <- ?V3, <- ?V4, <- ?V1, <- ?V2, <- ?V5, <- ?V6; reflexivity|]). contradiction. }
    cbn [bindr]. rewrite app_nil_r.
    match goal with |- context [text_commands show show_float (settings_of ts) (i + 1) (map fst l) w' ?x] => destruct (IH (i + 1) w' x) as (d' & ->) end.
    rewrite W1, W2. cbn [bindr]. eexists. reflexivity.
Qed.
End Lines.

(** Without templates for the parts and for entries, and with one for every command, the file is one line for each command, in order, with
    that command's values. *)
Theorem C219_lines : forall show show_float ts other p names,
  (forall k, ts_part ts k = None) -> ts_segment ts = Some other -> ts_metadata ts = None -> ts_thread ts = None ->
  (forall c, plain (template_for (ts_named ts) other c) /\ incl (names_in (template_for (ts_named ts) other c)) line_names) ->
  Forall2 (fun s n => In (cmd_of (scmd s), n) common_names) (gp_stitches p) names ->
  generic_text show show_float (settings_of ts) (entries_of ts) p
  = Ok (lines show (template_for (ts_named ts) other) 0 0 0 (combine (gp_stitches p) names)).
Proof.
  intros show show_float ts other p names Hp Hs Hm Ht Hn F.
  assert (E : map fst (combine (gp_stitches p) names) = gp_stitches p /\ Forall (fun e => In (cmd_of (scmd (fst e)), snd e) common_names) (combine (gp_stitches p) names)).
  { induction F as [|s n l ns H F IH]; cbn [combine map]; [split; [reflexivity|constructor]|]. destruct IH as [-> IH]. split; [reflexivity|]. constructor; assumption. }
  destruct E as [E1 E2]. unfold generic_text. cbv zeta. cbn [settings_of g_part entries_of e_metadata e_thread]. rewrite !Hp, Hm, Ht. cbn [option_map optional_fill optional_entries bindr].
  destruct (all_lines show show_float ts other Hp Hs Hn _ E2 0 gw_start (start_values show show_float p)) as (d' & L). rewrite E1 in L.
  change (mkGS (fun k => option_map template_text (ts_part ts k)) (fun c => option_map template_text (ts_named ts c)) (option_map template_text (ts_segment ts)) (ts_travel ts)) with (settings_of ts).
  rewrite L. cbn [bindr app]. rewrite app_nil_r. reflexivity.
Qed.
Definition line_templates : templates :=
  mkTS bare (fun c => if c =? STITCH then Some [V "index"; W " to "; V "x"; W ","; V "y"; W " by "; V "dx"; W ","; V "dy"; W "; "] else None)
    (Some [V "index"; W " "; V "cmd_str"; W "; "]) None None 10.
Example C219_case :
  (forall c, plain (template_for (ts_named line_templates) [V "index"; W " "; V "cmd_str"; W "; "] c) /\
     incl (names_in (template_for (ts_named line_templates) [V "index"; W " "; V "cmd_str"; W "; "] c)) line_names) /\
  generic_text whole_part whole_part (settings_of line_templates) (entries_of line_templates) two_colours
  = Ok (text_of "0 to 1,2 by 1,2; 1 COLOR_CHANGE; 2 to 9,2 by 8,0; 3 END; ").
Proof.
  split; [|vm_compute; reflexivity]. intros c. unfold template_for. cbn [line_templates ts_named].
  assert (S : forall a b, forallb (fun n => member n b) a = true -> incl a b).
  { intros a b H n J. rewrite forallb_forall in H. apply member_in, H, J. }
  destruct (existsb _ _); [destruct (c =? STITCH)|]; (split; [apply plainb_plain; vm_compute; reflexivity|apply S; vm_compute; reflexivity]).
Qed.
Print Assumptions C219_lines.

(** C225: templates of the generic writer that are chosen from a table by a value of the command. *)
From Coq Require Import Ascii String ZArith QArith Qround Lia List Bool.
From Verif Require Import BitLemmas PyBase EmbConst ThreadModel FunctionsModel TextModel NameModel NameProofs PatternModel FilesProofs GenericModel GenericTextModel GenericTextSpec GenericTextProofs
  PropertiesGenericText PropertiesGenericLines GenericTableModel.
Import ListNotations.
Open Scope Z_scope.

(** * Specification *)
(** A template, or a table: the key to look up, the template if it is not there, the templates by key. *)
Inductive template := One (ps : list piece) | Among (key default : list piece) (choices : list (text * list piece)).
Definition segment_of (t : template) : segment :=
  match t with
  | One ps => Fixed (template_text ps)
  | Among key default choices =>
      Table (template_text key) (Some (template_text default)) (map (fun e => (fst e, Some (template_text (snd e)))) choices)
  end.
Definition tables_of (part : part_kind -> option text) (named : Z -> option template) (other : template) (travel : Q) : table_settings :=
  mkTab part (fun c => option_map segment_of (named c)) (Some (segment_of other)) travel.

(** What a key can be made of: values of the command itself. *)
Definition key_names : list text :=
  map text_of ["index"; "command"; "cmd_str"; "cmd"; "cmd_thread"; "cmd_needle"; "cmd_order"]%string.
(** Thread, needle and order are the bytes above the command, counted from 1; 0 is none. *)
Definition byte_number (command k : Z) : text :=
  let v := (command / 2 ^ k) mod 256 in if v =? 0 then text_of "None" else str_of_int (v - 1).
Definition key_value (i : Z) (s : stitch Q) (cmd name : text) : text :=
  let is n := text_eqb name (text_of n) in
  if is "index"%string then str_of_int i
  else if is "command"%string then str_of_int (scmd s)
  else if is "cmd_str"%string then cmd
  else if is "cmd"%string then str_of_int (scmd s mod 256)
  else if is "cmd_thread"%string then byte_number (scmd s) 8
  else if is "cmd_needle"%string then byte_number (scmd s) 16
  else byte_number (scmd s) 24.
(** The template for a command. *)
Definition chosen (t : template) (i : Z) (s : stitch Q) (cmd : text) : list piece :=
  match t with
  | One ps => ps
  | Among key default choices =>
      match find (fun e => if list_eq_dec Z.eq_dec (spelled (key_value i s cmd) key) (fst e) then true else false) choices with
      | Some e => snd e
      | None => default
      end
  end.
Definition the_one (named : Z -> option template) (other : template) (c : Z) : template :=
  if existsb (Z.eqb c) [SEQUIN_MODE; SEQUIN_EJECT; STITCH; TRIM; JUMP; COLOR_CHANGE; NEEDLE_SET; STOP; SLOW; FAST; END]
  then match named c with Some t => t | None => other end else other.
(** One text for each command, in order. *)
Fixpoint chosen_lines (show : Q -> text) (t : Z -> template) (i : Z) (px py : Q) (l : list (stitch Q * text)) : text :=
  match l with
  | [] => []
  | (s, cmd) :: r =>
      spelled (line_value show i s cmd px py) (chosen (t (cmd_of (scmd s))) i s cmd) ++ chosen_lines show t (i + 1) (sx s) (sy s) r
  end.
Definition names_within (t : template) : Prop :=
  match t with
  | One ps => plain ps /\ incl (names_in ps) line_names
  | Among key default choices =>
      (plain key /\ incl (names_in key) key_names) /\ (plain default /\ incl (names_in default) line_names) /\
      Forall (fun e => plain (snd e) /\ incl (names_in (snd e)) line_names) choices
  end.

(** * Proofs *)
Section Tables.
Variables (show show_float : Q -> text) (named : Z -> option template) (other : template) (travel : Q).
Let tb : table_settings := tables_of (fun _ => None) named other travel.
Hypothesis Hn : forall c, names_within (the_one named other c).
Let ts0 : templates := mkTS (fun _ => None) (fun _ => None) None None None travel.

Lemma the_segment c : get_segment tb c = Some (segment_of (the_one named other c)).
Proof.
  unfold get_segment, the_one, tb. cbn [tables_of tb_named tb_segment].
  change named_commands with [SEQUIN_MODE; SEQUIN_EJECT; STITCH; TRIM; JUMP; COLOR_CHANGE; NEEDLE_SET; STOP; SLOW; FAST; END].
  destruct (existsb _ _); [|reflexivity]. destruct (named c); reflexivity.
Qed.
Lemma choice_find k choices default : choice k (map (fun e => (fst e, Some (template_text (snd e)))) choices) (Some (template_text default))
  = Some (template_text (match find (fun e => if list_eq_dec Z.eq_dec k (fst e) then true else false) choices with Some e => snd e | None => default end)).
Proof.
  induction choices as [|[k' t] r IH]; cbn [map choice find fst snd]; [reflexivity|].
  destruct (list_eq_dec Z.eq_dec k k') as [-> | N]; [rewrite text_eqb_same; reflexivity|]. rewrite text_eqb_other by exact N. exact IH.
Qed.
Lemma number_byte c k m : 0 <= k -> m = Z.shiftl 255 k -> str_of_number (dec_field c m k) = byte_number c k.
Proof.
  intros Hk ->. unfold dec_field, byte_number. rewrite Z.shiftr_land, Z.shiftr_shiftl_l by exact Hk. rewrite Z.sub_diag, Z.shiftl_0_r.
  change 255 with (Z.ones 8). rewrite Z.land_ones, Z.shiftr_div_pow2 by lia. change (2 ^ 8) with 256.
  generalize ((c / 2 ^ k) mod 256) as v. intros v. cbv zeta. destruct (Z.eqb_spec (v - 1) (-1)), (Z.eqb_spec v 0); try lia; reflexivity.
Qed.
Lemma key_lookup i s cmd d n : In n key_names -> lookup n (command_values i s cmd ++ d) = Some (key_value i s cmd n).
Proof.
  intros I.
  assert (E : command_values i s cmd = map (fun n => (n, key_value i s cmd n)) key_names).
  { unfold command_values, decode_embroidery_command, key_names. cbn [map].
    change (key_value i s cmd (text_of "index")) with (str_of_int i). change (key_value i s cmd (text_of "command")) with (str_of_int (scmd s)).
    change (key_value i s cmd (text_of "cmd_str")) with cmd. change (key_value i s cmd (text_of "cmd")) with (str_of_int (scmd s mod 256)).
    change (key_value i s cmd (text_of "cmd_thread")) with (byte_number (scmd s) 8). change (key_value i s cmd (text_of "cmd_needle")) with (byte_number (scmd s) 16).
    change (key_value i s cmd (text_of "cmd_order")) with (byte_number (scmd s) 24).
    rewrite !number_byte by (try reflexivity; lia).
    replace (Z.land (scmd s) COMMAND_MASK) with (scmd s mod 256) by (change COMMAND_MASK with (Z.ones 8); rewrite Z.land_ones by lia; reflexivity). reflexivity. }
  rewrite lookup_app, E. rewrite (lookup_in n (key_value i s cmd n)); [reflexivity| |].
  - rewrite map_map. cbn [fst]. rewrite map_id. apply distinct_nodup. vm_compute. reflexivity.
  - apply in_map_iff. exists n. split; [reflexivity|exact I].
Qed.
Lemma choose_chosen t i s cmd d : names_within t ->
  choose (segment_of t) (command_values i s cmd ++ d) = Ok (Some (template_text (chosen t i s cmd))) /\
  plain (chosen t i s cmd) /\ incl (names_in (chosen t i s cmd)) line_names.
Proof.
  destruct t as [ps | key default choices]; cbn [segment_of choose chosen names_within]; [intros H; split; [reflexivity|exact H]|].
  intros ((P & N) & D & F). split.
  - rewrite format_pieces by exact P. rewrite (evaluate_spelled _ (key_value i s cmd)) by (intros n I; apply key_lookup, N, I).
    cbn [bindr]. rewrite choice_find. reflexivity.
  - match goal with |- context [find ?f choices] => destruct (find f choices) as [e|] eqn:E end; [|exact D]. apply List.find_some in E as [E _]. rewrite Forall_forall in F. exact (F e E).
Qed.
Lemma all_chosen l : Forall (fun e => In (cmd_of (scmd (fst e)), snd e) common_names) l -> forall i w d, exists d',
  table_commands show show_float tb i (map fst l) w d = Ok (chosen_lines show (the_one named other) i (w_last_x w) (w_last_y w) l, d').
Proof.
  induction 1 as [|[s cmd] l H1 H2 IH]; intros i w d; cbn [map fst snd table_commands chosen_lines] in *.
  - eexists. reflexivity.
  - rewrite (known_name _ _ H1), the_segment. destruct (choose_chosen (the_one named other (cmd_of (scmd s))) i s cmd d (Hn _)) as (-> & P & N).
    cbn [bindr]. set (t := template_text _) in *.
    change (parts_of tb) with (settings_of ts0).
    destruct (one_command ts0 (fun _ => eq_refl) t i s cmd w) as (v & w' & -> & V1 & V2 & V3 & V4 & V5 & V6 & W1 & W2). unfold t.
    cbn [fill_events template_of values_of after_events]. rewrite format_pieces by exact P. rewrite (evaluate_spelled _ (line_value show i s cmd (w_last_x w) (w_last_y w))).
    2:{ intros n I. apply N in I. rewrite lookup_app, lookup_none.
        2:{ intros J. apply number_keys in J. revert J. apply (disjoint_not n line_names number_names); [vm_compute; reflexivity|exact I]. }
        cbn [line_names map In] in I.
        repeat (destruct I as [<-|I]; [unfold line_value; rewrite <- ?V3, <- ?V4, <- ?V1, <- ?V2, <- ?V5, <- ?V6; reflexivity|]). contradiction. }
    cbn [bindr]. rewrite app_nil_r.
    match goal with |- context [table_commands show show_float tb (i + 1) (map fst l) w' ?x] => destruct (IH (i + 1) w' x) as (d' & ->) end.
    rewrite W1, W2. cbn [bindr]. eexists. reflexivity.
Qed.
End Tables.

(** The template of each command is the one its table has for the command's own number, name, thread, needle
    and order. *)
Theorem C225_chosen_partial : forall show show_float named other travel p names,
  (forall c, names_within (the_one named other c)) ->
  Forall2 (fun s n => In (cmd_of (scmd s), n) common_names) (gp_stitches p) names ->
  table_text show show_float (tables_of (fun _ => None) named other travel) (mkGE None None) p
  = Ok (chosen_lines show (the_one named other) 0 0 0 (combine (gp_stitches p) names)).
Proof.
  intros show show_float named other travel p names Hn F.
  assert (E : map fst (combine (gp_stitches p) names) = gp_stitches p /\ Forall (fun e => In (cmd_of (scmd (fst e)), snd e) common_names) (combine (gp_stitches p) names)).
  { induction F as [|s n l ns H F IH]; cbn [combine map]; [split; [reflexivity|constructor]|]. destruct IH as [-> IH]. split; [reflexivity|]. constructor; assumption. }
  destruct E as [E1 E2]. unfold table_text. cbv zeta. cbn [tables_of tb_part e_metadata e_thread optional_fill optional_entries bindr].
  destruct (all_chosen show show_float named other travel Hn _ E2 0 gw_start (start_values show show_float p)) as (d' & L). rewrite E1 in L.
  rewrite L. cbn [bindr app]. rewrite app_nil_r. reflexivity.
Qed.

(** With templates only, the writer with tables is the writer of C214 to C219. *)
Lemma fixed_commands show show_float gs l : forall i w d,
  table_commands show show_float (mkTab (g_part gs) (fun c => option_map Fixed (g_named gs c)) (option_map Fixed (g_segment gs)) (g_travel gs)) i l w d
  = text_commands show show_float gs i l w d.
Proof.
  induction l as [|s l IH]; intros i w d; cbn [table_commands text_commands]; [reflexivity|].
  destruct (name_of (cmd_of (scmd s)) common_names) as [name|]; [|reflexivity]. cbv zeta.
  unfold get_segment, get_write_segment. cbn [tb_named tb_segment].
  assert (G : forall t w, generic_command (parts_of (mkTab (g_part gs) (fun c => option_map Fixed (g_named gs c)) (option_map Fixed (g_segment gs)) (g_travel gs))) t i s name w
    = generic_command gs t i s name w) by (intros; reflexivity).
  destruct (existsb (Z.eqb (cmd_of (scmd s))) named_commands); [destruct (g_named gs (cmd_of (scmd s))) as [t|]; cbn [option_map]|];
  try (destruct (g_segment gs) as [u|]; cbn [option_map]); cbn [choose bindr]; rewrite ?G; try apply IH;
  (destruct (generic_command gs _ i s name w) as [es w']; destruct (fill_events show show_float _ es); cbn [bindr]; [rewrite IH; reflexivity|reflexivity]).
Qed.
Theorem C225_without_tables : forall show show_float gs en p,
  table_text show show_float (mkTab (g_part gs) (fun c => option_map Fixed (g_named gs c)) (option_map Fixed (g_segment gs)) (g_travel gs)) en p
  = generic_text show show_float gs en p.
Proof.
  intros. unfold table_text, generic_text. cbv zeta. cbn [tb_part].
  destruct (optional_fill (g_part gs Pattern_start) _); cbn [bindr]; [|reflexivity].
  destruct (optional_entries metadata_values _ _ _) as [[m d1]|]; cbn [bindr]; [|reflexivity].
  destruct (optional_entries thread_values _ _ _) as [[h d2]|]; cbn [bindr]; [|reflexivity].
  rewrite fixed_commands. reflexivity.
Qed.

(** But a key made of the position is looked up before the position is updated: the table is asked for the
    position of the command before, and at the first command the writer raises KeyError. *)
Definition by_place : template :=
  Among [V "x"] [W "elsewhere; "] [(text_of "1", [W "at one; "]); (text_of "9", [W "at nine; "])].
Definition place_named (c : Z) : option template := if c =? JUMP then Some (One [W "jump; "]) else None.
Definition places : gpattern := mkGP [mkS 1 2 JUMP; mkS 9 2 STITCH]%Q [] [].
Theorem C225_refuted :
  table_text whole_part whole_part (tables_of (fun _ => None) place_named by_place 10) (mkGE None None) places = Ok (text_of "jump; at one; ") /\
  (exists p, table_text whole_part whole_part (tables_of (fun _ => None) (fun _ => None) by_place 10) (mkGE None None) p = Err KeyError /\
     gp_stitches p <> []).
Proof.
  split; [vm_compute; reflexivity|]. exists places. split; [vm_compute; reflexivity|discriminate].
Qed.

(** ** A case: needles by number *)
Definition by_needle : template :=
  Among [V "cmd_needle"] [W "other needle; "] [(text_of "2", [W "third "; V "index"; W "; "]); (text_of "None", [W "no needle at "; V "x"; W "; "])].
Definition needle_named (c : Z) : option template := if c =? NEEDLE_SET then Some by_needle else None.
Definition needles : gpattern := mkGP [mkS 1 2 STITCH; mkS 3 2 (NEEDLE_SET + 3 * 65536); mkS 4 2 NEEDLE_SET; mkS 9 2 (NEEDLE_SET + 9 * 65536)]%Q [] [].
Example C225_case :
  (forall c, names_within (the_one needle_named (One [V "cmd_str"; W "; "]) c)) /\
  table_text whole_part whole_part (tables_of (fun _ => None) needle_named (One [V "cmd_str"; W "; "]) 10) (mkGE None None) needles
  = Ok (text_of "STITCH; third 1; no needle at 4; other needle; ").
Proof.
  split; [|vm_compute; reflexivity]. intros c. unfold the_one, needle_named.
  assert (A : forall a b, forallb (fun n => member n b) a = true -> incl a b).
  { intros a b H n J. rewrite forallb_forall in H. apply member_in, H, J. }
  assert (G : forall ps l, plainb ps = true -> forallb (fun n => member n l) (names_in ps) = true -> plain ps /\ incl (names_in ps) l)
    by (intros; split; [apply plainb_plain; assumption|apply A; assumption]).
  assert (O : names_within (One [V "cmd_str"; W "; "])) by (apply G; vm_compute; reflexivity).
  destruct (existsb _ _); [destruct (c =? NEEDLE_SET)|]; [|exact O|exact O].
  cbn [names_within by_needle]. split; [apply G; vm_compute; reflexivity|]. split; [apply G; vm_compute; reflexivity|].
  apply Forall_cons; [apply G; vm_compute; reflexivity|]. apply Forall_cons; [apply G; vm_compute; reflexivity|]. constructor.
Qed.
Print Assumptions C225_chosen_partial.
Print Assumptions C225_without_tables.
Print Assumptions C225_refuted.

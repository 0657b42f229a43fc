(** pyembroidery/GenericWriter.py 414-574 once more, now with templates of commands that are given as a
    dictionary: under None a pair of a template for the key and a default, under texts the templates to choose
    from (453-457).  Everything else is as in GenericTextModel.v. *)
From Coq Require Import Ascii String ZArith QArith List Bool.
From Verif Require Import PyBase EmbConst ThreadModel TextModel NameModel PatternModel GenericModel GenericTextModel.
Import ListNotations.
Open Scope Z_scope.

(** A template of a command; in a dictionary the templates and the default may be None. *)
Inductive segment := Fixed (t : text) | Table (key : text) (default : option text) (choices : list (text * option text)).
(* GenericWriter.py 54-83, 105 *)
Record table_settings := mkTab {
  tb_part : part_kind -> option text; tb_named : Z -> option segment; tb_segment : option segment; tb_travel : Q }.
Definition parts_of (tb : table_settings) : gsettings := mkGS (tb_part tb) (fun _ => None) None (tb_travel tb).
(* GenericWriter.py 155-201 *)
Definition get_segment (tb : table_settings) (cmd : Z) : option segment :=
  if existsb (Z.eqb cmd) named_commands then
    match tb_named tb cmd with Some t => Some t | None => tb_segment tb end
  else tb_segment tb.
(** [d.get(k, default)] *)
Fixpoint choice (k : text) (d : list (text * option text)) (default : option text) : option text :=
  match d with
  | [] => default
  | (k', t) :: d => if text_eqb k k' then t else choice k d default
  end.
(* GenericWriter.py 455-458 *)
Definition choose (sg : segment) (d : dict) : res (option text) :=
  match sg with
  | Fixed t => Ok (Some t)
  | Table key default choices => do k <- format_map key d; Ok (choice k choices default)
  end.

Section Tables.
  Variables show show_float : Q -> text.
  (** GenericWriter.py 449-569.  A choice of None raises AttributeError when it is to be filled in (378);
      simplified: also when a template of a part that is written before it would raise something else. *)
  Fixpoint table_commands (tb : table_settings) (index : Z) (l : list (stitch Q)) (w : gwriter) (d : dict) : res (text * dict) :=
    match l with
    | [] => Ok ([], d)
    | s :: r =>
        match name_of (cmd_of (scmd s)) common_names with
        | None => Err KeyError
        | Some name =>
            let d := command_values index s name ++ d in
            match get_segment tb (cmd_of (scmd s)) with
            | Some sg =>
                do t <- choose sg d;
                match t with
                | None => Err AttributeError
                | Some t =>
                    let '(es, w) := generic_command (parts_of tb) t index s name w in
                    do e <- fill_events show show_float d es;
                    do '(q, d) <- table_commands tb (index + 1) r w (after_events show show_float d es);
                    Ok (e ++ q, d)
                end
            | None => table_commands tb (index + 1) r w d
            end
        end
    end.
  (* GenericWriter.py 414-574 *)
  Definition table_text (tb : table_settings) (en : gentries) (p : gpattern) : res text :=
    let d := start_values show show_float p in
    do a <- optional_fill (tb_part tb Pattern_start) d;
    do '(m, d) <- optional_entries metadata_values (e_metadata en) (gp_extras p) d;
    do '(h, d) <- optional_entries thread_values (e_thread en) (gp_threads p) d;
    do '(b, d) <- table_commands tb 0 (gp_stitches p) gw_start d;
    do z <- optional_fill (tb_part tb Pattern_end) d;
    Ok (a ++ m ++ h ++ b ++ z).
End Tables.

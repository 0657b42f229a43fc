(** Encoding a design again: the conditions. *)
From Coq Require Import ZArith List Bool.
From Verif Require Import PyBase EmbConst FunctionsModel EncoderSpec NumModel EncoderModel.
Import ListNotations.
Open Scope Z_scope.

Section Spec.
Context {C : Type}.
Notation stitches := (list (stitch C)).
(** Something is sewn, and no colour changes before that. *)
Definition opens_with_stitch (l : stitches) : Prop :=
  exists pre a post, l = pre ++ a :: post /\ is_cmd STITCH a = true /\ Forall (fun b => is_cmd COLOR_CHANGE b = false) pre.
Definition no_sequins (l : stitches) : Prop :=
  Forall (fun a => is_cmd SEQUIN_MODE a = false /\ is_cmd SEQUIN_EJECT a = false) l.
(** The design leaves it to the encoder which thread is used: no command about threads carries a thread number,
    and there is no SET_CHANGE_SEQUENCE. *)
Definition leaves_threads_open (l : stitches) : Prop :=
  Forall (fun a => is_cmd SET_CHANGE_SEQUENCE a = false /\
    (is_cmd COLOR_CHANGE a = true \/ is_cmd NEEDLE_SET a = true \/ is_cmd COLOR_BREAK a = true ->
     let '(_, thread, _, _) := decode_embroidery_command (scmd a) in thread = None)) l.
Definition no_tie_commands (l : stitches) : Prop := Forall (fun a => is_cmd TIE_ON a = false /\ is_cmd TIE_OFF a = false) l.
End Spec.

Section Settings.
Context {N : Num}.
(** An encoding that is asked to change nothing by itself: no ties, no explicit trims, no full jumps, no rounding, no
    transformation, speed commands written, colour changes as colour changes. *)
Record asks_nothing (set : settings N) : Prop := {
  an_full : s_full_jump N set = None \/ s_full_jump N set = Some false;
  an_round : s_round N set = None \/ s_round N set = Some false;
  an_needles : s_needle_count N set = None \/ exists n, s_needle_count N set = Some n /\ 1 <= n;
  an_change : s_thread_change_command N set = None \/ s_thread_change_command N set = Some COLOR_CHANGE;
  an_speeds : s_writes_speeds N set = None \/ s_writes_speeds N set = Some true;
  an_trim : s_explicit_trim N set = None \/ s_explicit_trim N set = Some false;
  an_on : s_tie_on N set = None \/ s_tie_on N set = Some (TieBool false);
  an_off : s_tie_off N set = None \/ s_tie_off N set = Some (TieBool false);
  an_translate : s_translate N set = None;
  an_scale : s_scale N set = None;
  an_rotate : s_rotate N set = None }.
(** The settings of the first encoding: colour changes as colour changes, a possible number of needles, and a known
    way to treat sequins. *)
Record ordinary (set : settings N) : Prop := {
  or_needles : s_needle_count N set = None \/ exists n, s_needle_count N set = Some n /\ 1 <= n <= 254;
  or_change : s_thread_change_command N set = None \/ s_thread_change_command N set = Some COLOR_CHANGE;
  or_sequins : s_sequin_contingency N set = None \/
    exists v, s_sequin_contingency N set = Some v /\
      (v = CONTINGENCY_SEQUIN_UTILIZE \/ v = CONTINGENCY_SEQUIN_JUMP \/ v = CONTINGENCY_SEQUIN_STITCH \/ v = CONTINGENCY_SEQUIN_REMOVE) }.
End Settings.

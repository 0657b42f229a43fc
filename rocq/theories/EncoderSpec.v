(** What the encoder promises about its output, in terms of the commands only. *)
From Coq Require Import ZArith List Bool.
From Verif Require Import PyBase EmbConst.
Import ListNotations.
Open Scope Z_scope.

Section Spec.
Context {C : Type}.
Implicit Types (l pre post : list (stitch C)) (a : stitch C).

(** The low byte of a command. *)
Definition is_cmd (k : Z) (a : stitch C) : bool := Z.land (scmd a) 255 =? k.
Definition count_cmd (k : Z) l : Z := Z.of_nat (length (filter (is_cmd k) l)).

(** The list ends with END and has no other END. *)
Definition ends_once l : Prop :=
  exists body e, l = body ++ [e] /\ is_cmd END e = true /\ Forall (fun a => is_cmd END a = false) body.

(** Only these commands: [change] is the kind of thread change asked for. *)
Definition only_core (change : Z) (sequins speeds : Prop) l : Prop :=
  Forall (fun a =>
    is_cmd STITCH a = true \/ is_cmd JUMP a = true \/ is_cmd TRIM a = true \/ is_cmd STOP a = true \/
    is_cmd END a = true \/
    (is_cmd COLOR_CHANGE a = true /\ change = COLOR_CHANGE) \/
    (is_cmd NEEDLE_SET a = true /\ change = NEEDLE_SET) \/
    ((is_cmd SEQUIN_MODE a = true \/ is_cmd SEQUIN_EJECT a = true) /\ sequins) \/
    ((is_cmd SLOW a = true \/ is_cmd FAST a = true) /\ speeds)) l.

(** Every TRIM follows a STITCH with no TRIM, STOP or thread change in between. *)
Definition trims_after_sewing l : Prop :=
  forall pre t post, l = pre ++ t :: post -> is_cmd TRIM t = true ->
  exists p1 a p2, pre = p1 ++ a :: p2 /\ is_cmd STITCH a = true /\
    Forall (fun b => is_cmd TRIM b = false /\ is_cmd STOP b = false /\ is_cmd COLOR_CHANGE b = false /\
                     is_cmd NEEDLE_SET b = false) p2.

(** A jump or trim comes after an even number of mode switches, an eject after an odd number. *)
Definition sequin_discipline l : Prop :=
  forall pre t post, l = pre ++ t :: post ->
  (is_cmd JUMP t = true \/ is_cmd TRIM t = true -> Z.even (count_cmd SEQUIN_MODE pre) = true) /\
  (is_cmd SEQUIN_EJECT t = true -> Z.odd (count_cmd SEQUIN_MODE pre) = true).

Definition sews l : Prop := Exists (fun a => is_cmd STITCH a = true \/ is_cmd SEQUIN_EJECT a = true) l.
(** ** Penetrations *)
(** The positions of the STITCH commands of a list. *)
Definition needle_points l : list (C * C) := map (fun a => (sx a, sy a)) (filter (is_cmd STITCH) l).

(** The commands up to the first END. *)
Fixpoint until_end (l : list (stitch C)) : list (stitch C) :=
  match l with
  | [] => []
  | a :: r => if is_cmd END a then [] else a :: until_end r
  end.

Definition sews_src (a : stitch C) : bool := is_cmd STITCH a || is_cmd NEEDLE_AT a || is_cmd SEW_TO a.


(** ** Thread numbers *)
(** Source commands that sew a stitch or a sequin. *)
Definition sews_any a : bool := sews_src a || is_cmd SEQUIN_EJECT a.
Definition explicit_change a : bool := is_cmd COLOR_CHANGE a || is_cmd NEEDLE_SET a.
Definition is_break a : bool := is_cmd COLOR_BREAK a.
Definition changes_thread a : bool := explicit_change a || is_break a.
(** The thread number a command carries: bits 8-15 hold it plus one, 0 for none. *)
Definition thread_number a : option Z :=
  let v := (scmd a / 256) mod 256 in if v =? 0 then None else Some (v - 1).

(** Something is still to be sewn (or tied) before the END. *)
Definition later_sewing l : bool := existsb (fun a => sews_any a || is_cmd TIE_ON a) (until_end l).
Definition no_more_changes l : bool := forallb (fun a => negb (changes_thread a)) (until_end l).
(** Something is sewn before the next change. *)
Fixpoint sews_next l : bool :=
  match l with
  | [] => false
  | a :: r => if sews_any a then true else if changes_thread a || is_cmd END a then false else sews_next r
  end.

(** Every break has an effect: something was sewn or changed before ([seen]) and is sewn later; or
    it is the first command of its kind and sewing starts right after; or nothing is sewn or
    changed after it. *)
Fixpoint breaks_effective (seen : bool) l : bool :=
  match l with
  | [] => true
  | a :: r =>
      if is_cmd END a then true
      else if sews_any a || explicit_change a then breaks_effective true r
      else if is_break a then
        if later_sewing r then (seen || sews_next r) && breaks_effective true r else no_more_changes r
      else breaks_effective seen r
  end.

(** The thread numbers asked for after sewing has started or a first thread has been chosen. *)
Fixpoint asked_threads (seen : bool) l : list (option Z) :=
  match l with
  | [] => []
  | a :: r =>
      if is_cmd END a then []
      else if sews_any a then asked_threads true r
      else if explicit_change a || (is_break a && later_sewing r)
      then if seen then thread_number a :: asked_threads true r else asked_threads true r
      else asked_threads seen r
  end.
End Spec.

(** [q] in order among [l]. *)
Inductive subseq {A} : list A -> list A -> Prop :=
| sub_nil : subseq [] []
| sub_skip : forall a q l, subseq q l -> subseq q (a :: l)
| sub_take : forall a q l, subseq q l -> subseq (a :: q) (a :: l).


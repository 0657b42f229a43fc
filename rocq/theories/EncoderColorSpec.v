(** Which thread sews each stitch: of a design, and of an encoded pattern. *)
From Coq Require Import ZArith List Bool.
From Verif Require Import PyBase EmbConst EncoderSpec.
Import ListNotations.
Open Scope Z_scope.

Section Spec.
Context {C : Type}.

(** The stitches of an encoded pattern, each with the number of colour changes before it ([n] at the start). *)
Fixpoint coloured (n : nat) (l : list (stitch C)) : list (nat * (C * C)) :=
  match l with
  | [] => []
  | a :: r =>
      if is_cmd COLOR_CHANGE a then coloured (S n) r
      else if is_cmd STITCH a then (n, (sx a, sy a)) :: coloured n r
      else coloured n r
  end.

(** The stitches of a design up to its END, each with the number of its thread.  [n] is None until something is
    sewn or a first thread is asked for.  A COLOR_CHANGE or NEEDLE_SET takes the next thread; so does a COLOR_BREAK if
    there was something before it and something is sewn later. *)
Definition next_thread (n : option nat) : nat := match n with Some k => S k | None => O end.
Definition take_thread (n : option nat) (a : stitch C) (later : list (stitch C)) : option nat :=
  if sews_any a then Some (match n with Some k => k | None => O end)
  else if explicit_change a then Some (next_thread n)
  else if is_break a && (match n with Some _ => true | None => false end) && later_sewing later then Some (next_thread n)
  else n.
Fixpoint threaded (n : option nat) (l : list (stitch C)) : list (nat * stitch C) :=
  match l with
  | [] => []
  | a :: r =>
      if is_cmd END a then []
      else (match take_thread n a r with Some k => if sews_src a then [(k, a)] else [] | None => [] end)
           ++ threaded (take_thread n a r) r
  end.
(** How many threads the design takes. *)
Fixpoint threads_taken (n : option nat) (l : list (stitch C)) : nat :=
  match l with
  | [] => next_thread n
  | a :: r => if is_cmd END a then next_thread n else threads_taken (take_thread n a r) r
  end.
End Spec.

(** What a PMV file keeps of a pattern. *)
From Coq Require Import ZArith QArith Qabs List.
From Verif Require Import PyBase EmbConst.
Import ListNotations.
Open Scope Q_scope.

(** Each x lies at most 7.7 mm from the one before (the first from 0). *)
Fixpoint steps_within (x : Q) (l : list (stitch Q)) : Prop :=
  match l with
  | [] => True
  | s :: r => Qabs (sx s - x) <= 77 /\ steps_within (sx s) r
  end.
(** [lo] and [hi] are the smallest and largest y. *)
Definition y_range (lo hi : Q) (l : list (stitch Q)) : Prop :=
  Forall (fun s => lo <= sy s <= hi) l /\ Exists (fun s => sy s == lo) l /\ Exists (fun s => sy s == hi) l.
(** Designs higher than 7 mm are shrunk to 7 mm; others keep their size. *)
Definition shrink (lo hi : Q) : Q := if Qle_bool (hi - lo) 70 then 1 else 70 / (hi - lo).
(** Nearest point of the 0.25 mm grid: at most 0.125 mm away. *)
Definition near (a b : Q) : Prop := Qabs (a - b) <= 5 # 4.

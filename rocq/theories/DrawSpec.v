(** What drawing calls and lists of threads are meant to do; only data from PyBase is used. *)
From Coq Require Import ZArith QArith List Bool.
From Verif Require Import PyBase EmbConst.
Import ListNotations.
Open Scope Z_scope.

(** The place of the last command; the origin if there is none. *)
Definition pen (l : list (stitch Q)) : Q * Q :=
  match rev l with [] => (0%Q, 0%Q) | s :: _ => (sx s, sy s) end.

(** The thread list as runs of equal threads: the first of a run, and those that follow it. *)
Definition runs_of {T} (same : T -> T -> bool) (l : list T) (runs : list (T * list T)) : Prop :=
  l = concat (map (fun r => fst r :: snd r) runs)
  /\ Forall (fun r => Forall (fun t => same (fst r) t = true) (snd r)) runs
  /\ (forall a x y b, runs = a ++ x :: y :: b -> same (fst x) (fst y) = false).
(** [u] holds each thread of [l] once. *)
Definition each_once {T} (same : T -> T -> bool) (l u : list T) : Prop :=
  incl u l /\ (forall t, In t l -> exists v, In v u /\ same t v = true)
  /\ (forall a x b y c, u = a ++ x :: b ++ y :: c -> same x y = false).

(** What PES files keep of threads and texts. *)
From Coq Require Import Ascii String ZArith List.
From Verif Require Import PyBase ThreadModel TextModel.
Import ListNotations.
Open Scope Z_scope.

(** Texts are cut after 255 characters; empty texts are not kept. *)
Definition stored_text (t : option text) : option text :=
  match t with
  | Some (c :: r) => Some (firstn 255 (c :: r))
  | _ => None
  end.
(** A thread of a version 6 file: opaque colour, four texts, neither details nor weight. *)
Definition stored_thread (t : thread) : thread :=
  mkT (0xFF000000 + t_color t mod 2 ^ 24) (stored_text (t_description t)) (stored_text (t_catalog t)) None
      (stored_text (t_brand t)) (stored_text (t_chart t)) None.
Definition ascii_text (t : option text) : Prop := match t with Some t => Forall (fun c => 0 <= c < 128) t | None => True end.
Definition ascii_thread (t : thread) : Prop :=
  ascii_text (t_description t) /\ ascii_text (t_catalog t) /\ ascii_text (t_brand t) /\ ascii_text (t_chart t).
(** Two threads that a version 6 file stores differently. *)
Definition stored_differ (a b : thread) : Prop :=
  t_color a mod 2 ^ 24 <> t_color b mod 2 ^ 24 \/ stored_text (t_description a) <> stored_text (t_description b)
  \/ stored_text (t_catalog a) <> stored_text (t_catalog b) \/ stored_text (t_brand a) <> stored_text (t_brand b)
  \/ stored_text (t_chart a) <> stored_text (t_chart b).
(** Every two neighbours are related. *)
Definition neighbours {A} (R : A -> A -> Prop) (l : list A) : Prop :=
  forall a x y b, l = a ++ x :: y :: b -> R x y.

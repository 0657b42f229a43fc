(** Specifications for object sharing: what a program sees when it looks at a pattern, and which
    patterns cannot reach each other's stitches. *)
From Coq Require Import ZArith List Bool.
From Verif Require Import PyBase EmbConst EncoderModel HeapModel PatternSpec.
Import ListNotations.
Open Scope Z_scope.

Section HeapSpec.
Context {T C : Type}.
Notation world := (@world T C).

(** All that can be observed of pattern [p]: its stitches (None for a dangling reference), its
    threads, its metadata, the position it continues from. *)
Definition seen (w : world) (p : nat)
    : option (list (option (stitch C)) * list T * dict Z * C * C) :=
  match nth_error (w_pats w) p with
  | None => None
  | Some h => Some (map (nth_error (w_cells w)) (hp_stitches h), hp_threads h, hp_extras h, hp_x h, hp_y h)
  end.
(** [p] is the pattern with stitches [ss], threads [ts] and metadata [ex], at [x], [y]. *)
Definition shows (w : world) (p : nat) (ss : list (stitch C)) (ts : list T) (ex : dict Z) (x y : C) : Prop :=
  seen w p = Some (map Some ss, ts, ex, x, y).

(** The references of every pattern exist. *)
Definition sound (w : world) : Prop :=
  forall p h, nth_error (w_pats w) p = Some h ->
    Forall (fun l => (l < length (w_cells w))%nat) (hp_stitches h).

(** The stitch objects of pattern [p]. *)
Definition objects (w : world) (p : nat) : list nat :=
  match nth_error (w_pats w) p with None => [] | Some h => hp_stitches h end.
(** Two patterns that share no stitch object. *)
Definition apart (w : world) (p q : nat) : Prop :=
  p <> q /\ forall l, In l (objects w p) -> ~ In l (objects w q).

(** A thread change before anything is sewn. *)
Definition leading_change (ss : list (stitch C)) : Prop :=
  exists a s b, ss = a ++ s :: b /\ is_change s /\ Forall (fun t => ~ is_sewing t) a.

(** An edit that only replaces, adds or removes elements of the lists of a pattern, and never
    assigns to a stitch. *)
Definition structural (e : @edit T C) : Prop :=
  match e with Each _ | Assign _ _ => False | _ => True end.

(** The numbers of the sections in which the stitches are sewn: a new section starts with the
    first stitch after one or more thread changes.  [n] is the section last started, [fresh] says
    that the next stitch starts one; [n'] and [fresh'] are those after the stitches. *)
Inductive sewn_in : Z -> bool -> list (stitch C) -> list (stitch C * Z) -> Z -> bool -> Prop :=
| in_nil n f : sewn_in n f [] [] n f
| in_first n s l r n' f' :
    is_sewing s -> sewn_in (n + 1) false l r n' f' -> sewn_in n true (s :: l) ((s, (n + 1)%Z) :: r) n' f'
| in_more n s l r n' f' :
    is_sewing s -> sewn_in n false l r n' f' -> sewn_in n false (s :: l) ((s, n) :: r) n' f'
| in_change n f s l r n' f' : is_change s -> sewn_in n true l r n' f' -> sewn_in n f (s :: l) r n' f'
| in_other n f s l r n' f' :
    ~ is_sewing s -> ~ is_change s -> sewn_in n f l r n' f' -> sewn_in n f (s :: l) r n' f'.

(** The stitches that are sewn, each with its thread: section 0 with the first thread and so on.
    [opened] says that a section is still going on at the end. *)
Definition coloured (ts : list T) (l : list (stitch C)) (out : list (stitch C * T)) (sections : Z)
    (opened : bool) : Prop :=
  exists r n, sewn_in (-1) true l r n (negb opened) /\ sections = (n + 1)%Z /\
    Forall2 (fun (a : stitch C * Z) (b : stitch C * T) => fst a = fst b /\ nth_error ts (Z.to_nat (snd a)) = Some (snd b)) r out.
End HeapSpec.

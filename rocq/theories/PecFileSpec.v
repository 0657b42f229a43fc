(** What a PEC file keeps of a pattern. *)
From Coq Require Import ZArith List Bool.
From Verif Require Import PyBase EmbConst StreamSpec ThreadModel.
Import ListNotations.
Open Scope Z_scope.

(** The commands read back from a whole file: as [pec_view] of the stitch block, with the stops
    restored.  A stop is stored like a colour change to the same thread. *)
Fixpoint pec_file_view (jumped first : bool) (px py : Z) (l : list (stitch Z)) : list (stitch Z) :=
  match l with
  | [] => []
  | s :: r =>
      let c := cmd_of (scmd s) in
      if c =? STITCH then
        (if jumped && (negb (sx s =? px) && negb (sy s =? py)) then [mkS px py STITCH] else [])
        ++ mkS (sx s) (sy s) STITCH :: pec_file_view false false (sx s) (sy s) r
      else if c =? JUMP then
        (if first then [] else [mkS px py TRIM])
        ++ mkS (sx s) (sy s) JUMP :: pec_file_view true false (sx s) (sy s) r
      else if (c =? COLOR_CHANGE) || (c =? STOP) then
        (if jumped then [mkS px py STITCH] else [])
        ++ mkS (sx s) (sy s) c :: pec_file_view false false (sx s) (sy s) r
      else pec_file_view jumped false (sx s) (sy s) r
  end.

(** [order] lists each of the different threads once. *)
Definition set_order (order : list thread -> list thread) : Prop :=
  forall ts, NoDup (order ts) /\ incl (order ts) ts /\
    forall t, In t ts -> exists t', In t' (order ts) /\ thread_eqb t' t = true.

(** The number of stops. *)
Definition stops {C} (l : list (stitch C)) : nat := length (filter (fun s => cmd_of (scmd s) =? STOP) l).

(** A pattern that ends with its only END. *)
Definition ends_once {C} (l : list (stitch C)) : Prop :=
  exists body e, l = body ++ [e] /\ cmd_of (scmd e) = END /\ Forall (fun s => cmd_of (scmd s) <> END) body.

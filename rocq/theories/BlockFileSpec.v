(** From a design of colour blocks to what is loaded from its file: which block sews each stitch. *)
From Coq Require Import ZArith QArith List.
From Verif Require Import PyBase EmbConst EncoderSpec EncoderColorSpec FidelitySpec.
Import ListNotations.
Open Scope Z_scope.

(** A block is a non-empty list of commands of these kinds, with at least one stitch. *)
Definition simple_command (a : stitch Q) : Prop :=
  In (scmd a) [STITCH; NEEDLE_AT; SEW_TO; JUMP; TRIM; STITCH_BREAK; SEQUENCE_BREAK].
Definition simple_block (b : list (stitch Q)) : Prop :=
  Forall simple_command b /\ exists a, In a b /\ sews_src a = true.

(** Blocks one after the other as add_block puts them into a pattern, and perhaps END commands. *)
Definition of_blocks {C} (brk : stitch C) (blocks : list (list (stitch C))) (ends : list (stitch C)) : list (stitch C) :=
  flat_map (fun b => b ++ [brk]) blocks ++ ends.
(** The stitches of each block with the number of the block. *)
Fixpoint numbered {C} (i : nat) (blocks : list (list (stitch C))) : list (nat * stitch C) :=
  match blocks with
  | [] => []
  | b :: r => map (fun a => (i, a)) (filter sews_src b) ++ numbered (S i) r
  end.

(** A stitch of block [i] and a stitch after [i] colour changes, at most half a unit away on each axis. *)
Definition same_block (ia : nat * stitch Q) (iz : nat * (Z * Z)) : Prop :=
  fst ia = fst iz /\ half_unit (snd ia) (snd iz).
(** Every stitch of the blocks is there, in order and in its block; there may be others. *)
Definition blocks_kept (blocks : list (list (stitch Q))) (l : list (stitch Z)) : Prop :=
  exists zs, Forall2 same_block (numbered 0 blocks) zs /\ subseq zs (coloured 0 l).
(** There are no others. *)
Definition blocks_exact (blocks : list (list (stitch Q))) (l : list (stitch Z)) : Prop :=
  Forall2 same_block (numbered 0 blocks) (coloured 0 l).

(** The palette numbers of the threads of a JEF file: the nearest, or the nearest other one where the
    block before has the same number and another thread. *)
Inductive jef_numbers {T} (teq : T -> T -> bool) (near : T -> Z) (near2 : T -> Z -> Z) : option (Z * T) -> list T -> list Z -> Prop :=
| jn_nil : forall last, jef_numbers teq near near2 last [] []
| jn_cons : forall last t ts i r,
    i = match last with
        | Some (n, u) => if (n =? near t) && negb (teq u t) then near2 t (near t) else near t
        | None => near t
        end ->
    jef_numbers teq near near2 (Some (i, t)) ts r ->
    jef_numbers teq near near2 last (t :: ts) (i :: r).

(** Where the stitches of a design with transformation commands are sewn, over exact reals. *)
From Coq Require Import ZArith Reals List Bool.
From Verif Require Import PyBase EmbConst FunctionsModel ThreadModel NumModel NumR MatrixModel EncoderModel EncoderSpec.
Import ListNotations.
Open Scope R_scope.

Notation point := (R * R)%type.
Definition spot (a : stitch R) : point := (sx a, sy a).

(** The elementary maps of the plane.  Angles are in degrees, anticlockwise with y upwards. *)
Definition shift (d p : point) : point := (fst p + fst d, snd p + snd d).
Definition stretch (k p : point) : point := (fst p * fst k, snd p * snd k).
Definition turn (d : R) (p : point) : point :=
  let a := d * (PI * 2 / 360) in (fst p * cos a - snd p * sin a, fst p * sin a + snd p * cos a).
(** [f] with the centre [c] in place of the origin. *)
Definition around (c : point) (f : point -> point) (p : point) : point :=
  shift c (f (fst p - fst c, snd p - snd c)).

(** What becomes of a transformed place: it stays, or goes to a nearest point with whole coordinates. *)
Definition near (z : Z) (v : R) : Prop := Rabs (IZR z - v) <= 1 / 2.
Definition lands (rounded : bool) (p q : point) : Prop :=
  if rounded then exists i j, q = (IZR i, IZR j) /\ near i (fst p) /\ near j (snd p) else q = p.

(** Commands that take the needle to their own place. *)
Definition goes (a : stitch R) : bool := is_cmd JUMP a || is_cmd FRAME_EJECT a.
Definition transforms (a : stitch R) : bool :=
  is_cmd MATRIX_TRANSLATE a || is_cmd MATRIX_SCALE_ORIGIN a || is_cmd MATRIX_ROTATE_ORIGIN a ||
  is_cmd MATRIX_SCALE a || is_cmd MATRIX_ROTATE a || is_cmd MATRIX_RESET a.

(** [sewn rounded f n l qs f' n']: with the map [f] in force and the needle at [n], the stitches of [l] are sewn at [qs]
    and afterwards the map [f'] is in force and the needle at [n'].  A transformation acts on the coordinates of the
    commands after it, before the map that was in force; MATRIX_SCALE and MATRIX_ROTATE have as centre the one place
    that the map in force takes to the needle. *)
Inductive sewn (rounded : bool) : (point -> point) -> point -> list (stitch R) -> list point -> (point -> point) -> point -> Prop :=
| sewn_end : forall f n, sewn rounded f n [] [] f n
| sewn_stitch : forall f n a r q qs f' n', sews_src a = true -> lands rounded (f (spot a)) q ->
    sewn rounded f q r qs f' n' -> sewn rounded f n (a :: r) (q :: qs) f' n'
| sewn_goes : forall f n a r q qs f' n', goes a = true -> lands rounded (f (spot a)) q ->
    sewn rounded f q r qs f' n' -> sewn rounded f n (a :: r) qs f' n'
| sewn_translate : forall f n a r qs f' n', is_cmd MATRIX_TRANSLATE a = true ->
    sewn rounded (fun p => f (shift (spot a) p)) n r qs f' n' -> sewn rounded f n (a :: r) qs f' n'
| sewn_scale_origin : forall f n a r qs f' n', is_cmd MATRIX_SCALE_ORIGIN a = true ->
    sewn rounded (fun p => f (stretch (spot a) p)) n r qs f' n' -> sewn rounded f n (a :: r) qs f' n'
| sewn_rotate_origin : forall f n a r qs f' n', is_cmd MATRIX_ROTATE_ORIGIN a = true ->
    sewn rounded (fun p => f (turn (sx a) p)) n r qs f' n' -> sewn rounded f n (a :: r) qs f' n'
| sewn_scale : forall f n c a r qs f' n', is_cmd MATRIX_SCALE a = true -> (forall p, f p = n <-> p = c) ->
    sewn rounded (fun p => f (around c (stretch (spot a)) p)) n r qs f' n' -> sewn rounded f n (a :: r) qs f' n'
| sewn_rotate : forall f n c a r qs f' n', is_cmd MATRIX_ROTATE a = true -> (forall p, f p = n <-> p = c) ->
    sewn rounded (fun p => f (around c (turn (sx a)) p)) n r qs f' n' -> sewn rounded f n (a :: r) qs f' n'
| sewn_reset : forall f n a r qs f' n', is_cmd MATRIX_RESET a = true ->
    sewn rounded (fun p => p) n r qs f' n' -> sewn rounded f n (a :: r) qs f' n'
| sewn_other : forall f n a r qs f' n', sews_src a = false -> goes a = false -> transforms a = false ->
    sewn rounded f n r qs f' n' -> sewn rounded f n (a :: r) qs f' n'.

(** The map asked for by the settings: rotated, then scaled, then translated. *)
Definition asked (set : settings RNum) (p : point) : point :=
  let p := match s_rotate RNum set with Some d => turn d p | None => p end in
  let p := match s_scale RNum set with
           | Some (ScaleXY _ kx ky) => stretch (kx, ky) p | Some (ScaleOne _ k) => stretch (k, k) p | None => p end in
  match s_translate RNum set with Some d => shift d p | None => p end.

(** Rounding asked for. *)
Definition rounds (set : settings RNum) : bool := match s_round RNum set with Some true => true | _ => false end.

(** The needle after [l], if the map [f] is in force: the place of the last stitch, jump or frame ejection. *)
Definition needle_after (f : point -> point) (l : list (stitch R)) (n : point) : point :=
  fold_left (fun n a => if sews_src a || goes a then f (spot a) else n) l n.

(** What the arguments of add_pattern ask for: the added stitches moved, then rotated and then scaled about [c]. *)
Definition chosen (dx dy kx ky rotate : option R) (c p : point) : point :=
  let p := shift (match dx with Some v => v | None => 0 end, match dy with Some v => v | None => 0 end) p in
  let p := match rotate with Some d => around c (turn d) p | None => p end in
  match kx with Some k => around c (stretch (k, match ky with Some v => v | None => k end)) p | None => p end.

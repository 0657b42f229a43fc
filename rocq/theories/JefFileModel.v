(** pyembroidery/JefReader.py, with the trim interpolation. *)
From Coq Require Import ZArith QArith List.
From Verif Require Import PyBase EmbConst StreamModel PatternModel DstFileModel JefModel.
Import ListNotations.
Open Scope Z_scope.

(** JefReader.py 39-71.  [count_max], [trims], [trim_distance] and [clipping] are the settings trim_at, trims,
    trim_distance and clipping; without settings they are None, False, 3.0 and True. *)
Definition jef_read_file {T} (thread_of : Z -> T) (count_max : option Z) (trims : bool) (trim_distance : option Q) (clipping : bool)
    (fuel : nat) (file : list Z) : res (list (stitch Q) * list (option T)) :=
  do '(raw, threads) <- jef_read thread_of file;
  let count_max := match count_max with Some n => Some n | None => if trims then Some 3 else None end in
  do l <- interpolate_trims count_max (match trim_distance with Some d => Some (d * 10)%Q | None => None end) clipping fuel (map of_int raw);
  Ok (l, threads).

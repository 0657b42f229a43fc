(** pyembroidery/EmbPattern.py 230-305 and 508-549: the calls a program draws with, and the
    lists of threads of 466-476.  Coordinates are exact rationals.  Patterns are those of
    PatternModel; the stitch objects are not shared here (HeapModel has sharing). *)
From Coq Require Import ZArith QArith List Bool.
From Verif Require Import PyBase EmbConst FunctionsModel ThreadModel PatternModel.
Import ListNotations.
Open Scope Z_scope.

(** Python's [l.insert(i, v)] for any integer: negative indices count from the end, and every
    index is brought into the list. *)
Definition list_insert {A} (i : Z) (v : A) (l : list A) : list A :=
  py_insert (Z.min (zlen l) (if i <? 0 then Z.max 0 (i + zlen l) else i)) v l.

(** EmbPattern.py 538-549 *)
Definition insert {T} (position cmd : Z) (x y : Q) (p : pattern T Q) : pattern T Q :=
  mkP (list_insert position (mkS x y cmd) (p_stitches p)) (p_threads p) (p_x p) (p_y p).
Definition prepend_command {T} (cmd : Z) (x y : Q) (p : pattern T Q) : pattern T Q :=
  mkP (list_insert 0 (mkS x y cmd) (p_stitches p)) (p_threads p) (p_x p) (p_y p).
Definition add_command {T} (cmd : Z) (x y : Q) (p : pattern T Q) : pattern T Q :=
  mkP (p_stitches p ++ [mkS x y cmd]) (p_threads p) (p_x p) (p_y p).

(** EmbPattern.py 229-305: the calls with an offset.  Each adds its command, or inserts it
    at the position given. *)
Inductive method : Set :=
| Move | Stitch | Stop | Trim | ColorChange | NeedleChange (needle : Z) | SequinEject | SequinMode | End.
Definition method_command (m : method) : Z :=
  match m with
  | Move => JUMP | Stitch => STITCH | Stop => STOP | Trim => TRIM | ColorChange => COLOR_CHANGE
  | NeedleChange n => encode_thread_change NEEDLE_SET None (Some n) None
  | SequinEject => SEQUIN_EJECT | SequinMode => SEQUIN_MODE | End => END
  end.
Definition relative {T} (m : method) (dx dy : Q) (position : option Z) (p : pattern T Q) : res (pattern T Q) :=
  match position with
  | None => Ok (add_stitch_relative (method_command m) dx dy p)
  | Some position => insert_stitch_relative position (method_command m) dx dy p
  end.
(** EmbPattern.py 236-241 and 250-255: move_abs and stitch_abs ([stitch] says which). *)
Definition absolute {T} (stitch : bool) (x y : Q) (position : option Z) (p : pattern T Q) : pattern T Q :=
  let cmd := if stitch then STITCH else JUMP in
  match position with
  | None => add_stitch_absolute cmd x y p
  | Some position => insert position cmd x y p
  end.

(** A call of one of these, of [translate] (484-487), of [add_thread] (307-315) with a thread, of
    [clear] (216-221; metadata is not part of these patterns), or of the functions with a
    command code (508-549). *)
Inductive call (T : Type) : Type :=
| Relative (m : method) (dx dy : Q) (position : option Z)
| Absolute (stitch : bool) (x y : Q) (position : option Z)
| AddRelative (cmd : Z) (dx dy : Q)
| AddAbsolute (cmd : Z) (x y : Q)
| Insert (position cmd : Z) (x y : Q)
| Prepend (cmd : Z) (x y : Q)
| Command (cmd : Z) (x y : Q)
| Translate (dx dy : Q)
| Thread (t : T)
| Clear.
Arguments Relative {T}. Arguments Absolute {T}. Arguments AddRelative {T}. Arguments AddAbsolute {T}.
Arguments Insert {T}. Arguments Prepend {T}. Arguments Command {T}. Arguments Translate {T}. Arguments Thread {T}. Arguments Clear {T}.

Definition new_pattern {T} : pattern T Q := mkP [] [] 0%Q 0%Q.
Definition draw {T} (c : call T) (p : pattern T Q) : res (pattern T Q) :=
  match c with
  | Relative m dx dy position => relative m dx dy position p
  | Absolute stitch x y position => Ok (absolute stitch x y position p)
  | AddRelative cmd dx dy => Ok (add_stitch_relative cmd dx dy p)
  | AddAbsolute cmd x y => Ok (add_stitch_absolute cmd x y p)
  | Insert position cmd x y => Ok (insert position cmd x y p)
  | Prepend cmd x y => Ok (prepend_command cmd x y p)
  | Command cmd x y => Ok (add_command cmd x y p)
  | Translate dx dy => Ok (mkP (translate dx dy (p_stitches p)) (p_threads p) (p_x p) (p_y p))
  | Thread t => Ok (mkP (p_stitches p) (p_threads p ++ [t]) (p_x p) (p_y p))
  | Clear => Ok new_pattern
  end.
Fixpoint draw_all {T} (cs : list (call T)) (p : pattern T Q) : res (pattern T Q) :=
  match cs with
  | [] => Ok p
  | c :: r => do p <- draw c p; draw_all r p
  end.

(** EmbPattern.py 469-476 *)
Fixpoint singleton_loop {T} (teq : T -> T -> bool) (last : option T) (l : list T) : list T :=
  match l with
  | [] => []
  | t :: r =>
      let same := match last with Some u => teq t u | None => false end in
      (if same then [] else [t]) ++ singleton_loop teq (Some t) r
  end.
Definition get_singleton_threadlist {T} (teq : T -> T -> bool) (l : list T) : list T := singleton_loop teq None l.

(** EmbPattern.py 466-467: a set, as the list of its members in the order they came. *)
Fixpoint set_of {T} (teq : T -> T -> bool) (seen l : list T) : list T :=
  match l with
  | [] => seen
  | t :: r => set_of teq (if existsb (teq t) seen then seen else seen ++ [t]) r
  end.
Definition get_unique_threadlist {T} (teq : T -> T -> bool) (l : list T) : list T := set_of teq [] l.

(** EmbPattern.py 383-387 *)
Definition get_match_commands {C} (command : Z) (l : list (stitch C)) : list (stitch C) :=
  filter (fun s => cmd_of (scmd s) =? command) l.

(** EmbPattern.py 456-464 *)
Definition get_as_stitches {C} (l : list (stitch C)) : list (Z * C * C * (Z * option Z * option Z * option Z)) :=
  map (fun ks => (Z.of_nat (fst ks), sx (snd ks), sy (snd ks), decode_embroidery_command (scmd (snd ks))))
      (combine (seq 0 (length l)) l).

(** Which mutable objects patterns share.  A stitch in Python is a list [x, y, command], an
    object; a pattern holds references to such objects, so two patterns can hold the same one.
    Here a world is the heap of stitch objects and the pattern objects; a pattern refers to its
    stitches by their index in the heap.  Thread objects are values (no modelled operation
    assigns to a field of a thread); metadata is a dictionary from keys to values, both opaque.
    The lists [stitches] and [threadlist] and the dictionary [extras] are not shared between
    patterns: every modelled operation makes a new one or changes one in place (EmbPattern.py
    80-94, 207-221). *)
From Coq Require Import ZArith List Bool.
From Verif Require Import PyBase EmbConst NumModel ThreadModel EncoderModel PatternModel.
Import ListNotations.
Open Scope Z_scope.

Section Heap.
Context {T C : Type}.
Variables (zero : C) (plus : C -> C -> C) (filler : Z -> T) (teq : T -> T -> bool).

(* EmbPattern.py 79-87 *)
Record hpat := mkHP {
  hp_stitches : list nat;
  hp_threads : list T;
  hp_extras : dict Z;
  hp_x : C;
  hp_y : C }.
Record world := mkW { w_cells : list (stitch C); w_pats : list hpat }.

(** A list with element [k] replaced. *)
Definition put {A} (k : nat) (a : A) (l : list A) : list A :=
  match nth_error l k with
  | None => l
  | Some _ => firstn k l ++ a :: skipn (S k) l
  end.

(** Access to a pattern object and to a stitch object.  The failure branches stand for
    references that do not exist; a Python program cannot hold one. *)
Definition pat_of (w : world) (p : nat) : res hpat :=
  match nth_error (w_pats w) p with Some h => Ok h | None => Err AttributeError end.
Definition cell_of (w : world) (l : nat) : res (stitch C) :=
  match nth_error (w_cells w) l with Some s => Ok s | None => Err AttributeError end.
Definition set_pat (w : world) (p : nat) (h : hpat) : world := mkW (w_cells w) (put p h (w_pats w)).
Definition set_cell (w : world) (l : nat) (s : stitch C) : world := mkW (put l s (w_cells w)) (w_pats w).
(** A new object [x, y, command]. *)
Definition alloc (w : world) (s : stitch C) : world * nat :=
  (mkW (w_cells w ++ [s]) (w_pats w), length (w_cells w)).
(** The contents of the stitch objects [ls]. *)
Fixpoint contents (w : world) (ls : list nat) : res (list (stitch C)) :=
  match ls with
  | [] => Ok []
  | l :: r => do s <- cell_of w l; do ss <- contents w r; Ok (s :: ss)
  end.

(** [d.update(e)] *)
Definition dict_update (d e : dict Z) : dict Z := fold_left (fun d kv => dict_set (fst kv) (snd kv) d) e d.

(* EmbPattern.py 79-87: EmbPattern() *)
Definition new_pattern (w : world) : world * nat :=
  (mkW (w_cells w) (w_pats w ++ [mkHP [] [] [] zero zero]), length (w_pats w)).

(* EmbPattern.py 207-214: the lists are copied, their elements are not *)
Definition copy (w : world) (p : nat) : res (world * nat) :=
  do h <- pat_of w p;
  let ' (w, q) := new_pattern w in
  Ok (set_pat w q (mkHP (hp_stitches h) (hp_threads h) (dict_update [] (hp_extras h)) (hp_x h) (hp_y h)), q).

(* EmbPattern.py 216-221 *)
Definition clear (w : world) (p : nat) : world := set_pat w p (mkHP [] [] [] zero zero).

(* EmbPattern.py 508-518, 546-549 *)
Definition add_command (w : world) (p : nat) (cmd : Z) (x y : C) : res world :=
  do h <- pat_of w p;
  let ' (w, l) := alloc w (mkS x y cmd) in
  Ok (set_pat w p (mkHP (hp_stitches h ++ [l]) (hp_threads h) (hp_extras h) (hp_x h) (hp_y h))).
Definition add_stitch_absolute (w : world) (p : nat) (cmd : Z) (x y : C) : res world :=
  do w <- add_command w p cmd x y;
  do h <- pat_of w p;
  Ok (set_pat w p (mkHP (hp_stitches h) (hp_threads h) (hp_extras h) x y)).
Definition add_stitch_relative (w : world) (p : nat) (cmd : Z) (dx dy : C) : res world :=
  do h <- pat_of w p;
  add_stitch_absolute w p cmd (plus (hp_x h) dx) (plus (hp_y h) dy).

(** EmbPattern.py 484-491: [for stitch in self.stitches: ...] changing the stitch in place by
    [f].  An object that occurs twice in the list is changed twice. *)
Fixpoint each_cell (f : stitch C -> stitch C) (ls : list nat) (w : world) : res world :=
  match ls with
  | [] => Ok w
  | l :: r => do s <- cell_of w l; each_cell f r (set_cell w l (f s))
  end.
Definition each (w : world) (p : nat) (f : stitch C -> stitch C) : res world :=
  do h <- pat_of w p; each_cell f (hp_stitches h) w.
Definition moved (dx dy : C) (s : stitch C) : stitch C := mkS (plus (sx s) dx) (plus (sy s) dy) (scmd s).
Definition translate (w : world) (p : nat) (dx dy : C) : res world := each w p (moved dx dy).

(* EmbPattern.py 493-506 *)
Definition fix_color_count (w : world) (p : nat) : res world :=
  do h <- pat_of w p;
  do ss <- contents w (hp_stitches h);
  Ok (set_pat w p (mkHP (hp_stitches h) (PatternModel.fix_color_count filler ss (hp_threads h))
                     (hp_extras h) (hp_x h) (hp_y h))).

(** EmbPattern.py 644-650: the loop over the joined part. *)
Fixpoint suppress (w : world) (ls : list nat) : res world :=
  match ls with
  | [] => Ok w
  | l :: r =>
      do s <- cell_of w l;
      if sews (scmd s) then Ok w
      else if changes (scmd s) then suppress (set_cell w l (mkS (sx s) (sy s) NO_COMMAND)) r
      else suppress w r
  end.

(** EmbPattern.py 615-632: removing END and adding the transformation commands. *)
Definition drop_end (w : world) (p : nat) : res world :=
  do h <- pat_of w p;
  match rev (hp_stitches h) with
  | [] => Err IndexError                              (* self.stitches[-1] *)
  | l :: _ =>
      do s <- cell_of w l;
      if scmd s =? END
      then Ok (set_pat w p (mkHP (removelast (hp_stitches h)) (hp_threads h) (hp_extras h)
                              (hp_x h) (hp_y h)))
      else Ok w
  end.
Definition or_zero (v : option C) : C := match v with Some v => v | None => zero end.
Definition add_placement (w : world) (p : nat) (dx dy sx sy rotate : option C) : res world :=
  do w <- match dx, dy with
          | None, None => Ok w
          | _, _ => add_command w p MATRIX_TRANSLATE (or_zero dx) (or_zero dy)
          end;
  do w <- match sx with                               (* sx is not None or sx is not None *)
          | None => Ok w
          | Some v => add_command w p MATRIX_SCALE v (match sy with Some u => u | None => v end)
          end;
  match rotate with
  | None => Ok w
  | Some r => add_command w p MATRIX_ROTATE r zero
  end.
(** EmbPattern.py 634-641: joining the thread lists. *)
Definition join_threads (w : world) (p q : nat) : res world :=
  do b <- pat_of w q;
  match hp_threads b with
  | [] => Ok w
  | t :: ts =>
      do a <- pat_of w p;
      match rev (hp_threads a) with
      | [] => Err IndexError                          (* self.threadlist[-1] *)
      | u :: _ =>
          if teq t u
          then Ok (set_pat w p (mkHP (hp_stitches a) (hp_threads a ++ ts) (hp_extras a) (hp_x a) (hp_y a)))
          else add_stitch_relative
                 (set_pat w p (mkHP (hp_stitches a) (hp_threads a ++ t :: ts) (hp_extras a) (hp_x a) (hp_y a)))
                 p COLOR_CHANGE zero zero
      end
  end.
(** EmbPattern.py 599-652.  [p] is self, [q] the added pattern; they may be the same object. *)
Definition add_pattern (w : world) (p q : nat) (dx dy sx sy rotate : option C) : res world :=
  do w <- drop_end w p;
  do w <- add_placement w p dx dy sx sy rotate;
  do w <- fix_color_count w p;
  do w <- join_threads w p q;
  do a <- pat_of w p;
  do b <- pat_of w q;
  let w := set_pat w p (mkHP (hp_stitches a ++ hp_stitches b) (hp_threads a) (hp_extras a) (hp_x a) (hp_y a)) in
  do w <- suppress w (hp_stitches b);
  do a <- pat_of w p;
  do b <- pat_of w q;
  Ok (set_pat w p (mkHP (hp_stitches a) (hp_threads a) (dict_update (hp_extras a) (hp_extras b))
                     (hp_x a) (hp_y a))).
(* EmbPattern.py 197-200: self + other *)
Definition plus_pattern (w : world) (p q : nat) : res (world * nat) :=
  do ' (w, r) <- copy w p;
  do w <- add_pattern w r q None None None None None;
  Ok (w, r).

(** EmbEncoder.py 83-98 and EmbPattern.py 867-872: the encoder reads the stitches of the source
    and appends new objects [x, y, flags] to the destination (EmbEncoder.py 361-374, the only
    places that touch the destination's stitches); it never assigns to a stitch.  [enc] is what
    it appends: [transcode] of EncoderModel.v.  EmbEncoder.py 84-87: when source and destination
    are the same object the source is a copy and the destination is cleared. *)
Variable enc : list (stitch C) -> list T -> res (list (stitch C) * list T).
Fixpoint append_all (w : world) (p : nat) (ss : list (stitch C)) : res world :=
  match ss with
  | [] => Ok w
  | s :: r =>
      do h <- pat_of w p;
      let ' (w, l) := alloc w s in
      append_all (set_pat w p (mkHP (hp_stitches h ++ [l]) (hp_threads h) (hp_extras h) (hp_x h) (hp_y h))) p r
  end.
Definition transcode_into (w : world) (src dst : nat) : res world :=
  do s <- pat_of w src;
  do d <- pat_of w dst;
  let w := set_pat w dst (mkHP (hp_stitches d) (hp_threads d) (dict_update (hp_extras d) (hp_extras s))
                            (hp_x d) (hp_y d)) in
  do ss <- contents w (hp_stitches s);
  do ' (out, ts) <- enc ss (hp_threads s);
  do w <- append_all w dst out;
  do d <- pat_of w dst;
  Ok (set_pat w dst (mkHP (hp_stitches d) (hp_threads d ++ ts) (hp_extras d) (hp_x d) (hp_y d))).
Definition transcode_obj (w : world) (src dst : nat) : res world :=
  if Nat.eqb src dst then
    do ' (w, src) <- copy w dst;
    transcode_into (clear w dst) src dst
  else transcode_into w src dst.
Definition get_normalized_pattern (w : world) (p : nat) : res (world * nat) :=
  let ' (w, q) := new_pattern w in
  do w <- transcode_obj w p q;
  Ok (w, q).

(** Everything a program can do to a pattern's stitches through that pattern alone: the
    methods that edit in place are compositions of these (EmbPattern.py 138-144, 216-304,
    478-549, 654-800). *)
Inductive edit :=
| Each (f : stitch C -> stitch C)        (* for stitch in p.stitches: stitch[...] = ... *)
| Assign (k : nat) (s : stitch C)        (* p.stitches[k][0], [1], [2] = ... *)
| Replace (k : nat) (s : stitch C)       (* p.stitches[k] = [...] *)
| Insert (k : nat) (s : stitch C)        (* p.stitches.insert(k, [...]), append *)
| Delete (a b : nat)                     (* del p.stitches[a:b] *)
| Threads (ts : list T)
| Extras (d : dict Z)
| Previous (x y : C)
| Clear.
Definition with_stitches (h : hpat) (ls : list nat) : hpat :=
  mkHP ls (hp_threads h) (hp_extras h) (hp_x h) (hp_y h).
Definition apply_edit (w : world) (p : nat) (e : edit) : res world :=
  do h <- pat_of w p;
  match e with
  | Each f => each w p f
  | Assign k s =>
      match nth_error (hp_stitches h) k with
      | None => Err IndexError
      | Some l => Ok (set_cell w l s)
      end
  | Replace k s =>
      match nth_error (hp_stitches h) k with
      | None => Err IndexError
      | Some _ => let ' (w, l) := alloc w s in Ok (set_pat w p (with_stitches h (put k l (hp_stitches h))))
      end
  | Insert k s =>
      let ' (w, l) := alloc w s in
      Ok (set_pat w p (with_stitches h (firstn k (hp_stitches h) ++ l :: skipn k (hp_stitches h))))
  | Delete a b => Ok (set_pat w p (with_stitches h (firstn a (hp_stitches h) ++ skipn (Nat.max a b) (hp_stitches h))))
  | Threads ts => Ok (set_pat w p (mkHP (hp_stitches h) ts (hp_extras h) (hp_x h) (hp_y h)))
  | Extras d => Ok (set_pat w p (mkHP (hp_stitches h) (hp_threads h) d (hp_x h) (hp_y h)))
  | Previous x y => Ok (set_pat w p (mkHP (hp_stitches h) (hp_threads h) (hp_extras h) x y))
  | Clear => Ok (clear w p)
  end.
Fixpoint apply_edits (w : world) (p : nat) (es : list edit) : res world :=
  match es with
  | [] => Ok w
  | e :: r => do w <- apply_edit w p e; apply_edits w p r
  end.
End Heap.

(** What the writers do to the pattern they are given before they write (EmbPattern.py
    1625-1647: the encoded pattern, or the user's own pattern when the setting [encode] is off).
    PngWriter.py 503-506 translates it to its bounds; JefWriter.py 31, PecWriter.py 29,
    PesWriter.py 30 and Vp3Writer.py 63 complete its thread list. *)
Section Writers.
Context {T C : Type}.
Variables (plus : C -> C -> C) (opp : C -> C) (filler : Z -> T).
Definition png_prepare (bounds : list (stitch C) -> C * C) (w : @world T C) (p : nat) : res world :=
  do h <- pat_of w p;
  do ss <- contents w (hp_stitches h);
  let ' (x, y) := bounds ss in
  translate plus w p (opp x) (opp y).
End Writers.

(** The encoder of EncoderModel.v as the [enc] above: its thread list has the source's threads
    and, where the source has none, a thread with a random colour, here [rnd k] for the [k]-th
    entry. *)
Section Encoding.
Variables (N : Num) (set : settings N) (rnd : nat -> thread).
Fixpoint resolve (k : nat) (ts : list tref) : list thread :=
  match ts with
  | [] => []
  | Own t :: r => t :: resolve (S k) r
  | Filler :: r => rnd k :: resolve (S k) r
  end.
Definition encoder (ss : list (stitch (F N))) (ts : list thread)
    : res (list (stitch (F N)) * list thread) :=
  do ' (out, os) <- transcode N set (EncoderModel.mkP N ss ts);
  Ok (out, resolve 0 os).
End Encoding.

(** pyembroidery/EmbPattern.py 119-143: a pattern printed and used as a sequence.  Generic in what a stitch
    [S0], a thread [T] and a metadata value [V] are.  Slices are those without a step.  Keys of other types
    (which the list refuses with TypeError) are left out. *)
From Coq Require Import Ascii String ZArith Bool List.
From Verif Require Import PyBase ThreadModel TextModel PatternModel DstFileModel ValueModel.
Import ListNotations.
Open Scope Z_scope.

Section Items.
  Context {S0 T V : Type}.
  (* EmbPattern.py 79-87: stitches, threadlist and extras *)
  Record ipattern := mkIP { ip_stitches : list S0; ip_threads : list T; ip_extras : list (text * V) }.

  (** What is written between the brackets: a string, an int, or from:to with either end left out. *)
  Inductive key := KName (name : text) | KAt (i : Z) | KRange (from to : option Z).
  Inductive item := INamed (v : V) | IStitch (s : S0) | IStitches (l : list S0).

  (** The position a list index means: negative ones count from the end (Python's list). *)
  Definition position (n i : Z) : res nat :=
    let i := if i <? 0 then i + n else i in
    if (0 <=? i) && (i <? n) then Ok (Z.to_nat i) else Err IndexError.
  (** An end of a slice: negative ones count from the end, then limited to 0..n. *)
  Definition limit (n i : Z) : Z := Z.min n (Z.max 0 (if i <? 0 then i + n else i)).
  Definition from_of (n : Z) (o : option Z) : Z := match o with Some i => limit n i | None => 0 end.
  Definition to_of (n : Z) (o : option Z) : Z := match o with Some i => limit n i | None => n end.

  (* EmbPattern.py 131-132 *)
  Definition len (p : ipattern) : Z := zlen (ip_stitches p).
  (* EmbPattern.py 134-137 *)
  Definition getitem (p : ipattern) (k : key) : res item :=
    match k with
    | KName name => match lookup name (ip_extras p) with Some v => Ok (INamed v) | None => Err KeyError end
    | KAt i =>
        do k <- position (len p) i;
        match nth_error (ip_stitches p) k with Some s => Ok (IStitch s) | None => Err IndexError end
    | KRange a b => Ok (IStitches (py_slice (from_of (len p) a) (to_of (len p) b) (ip_stitches p)))
    end.

  (** d[name] = v *)
  Fixpoint set_name (name : text) (v : V) (d : list (text * V)) : list (text * V) :=
    match d with
    | [] => [(name, v)]
    | (k, w) :: d => if text_eqb name k then (k, v) :: d else (k, w) :: set_name name v d
    end.
  (** An assignment p[key] = value, with the value its key asks for. *)
  Inductive assignment := SetName (name : text) (v : V) | SetAt (i : Z) (s : S0) | SetRange (from to : option Z) (l : list S0).
  (* EmbPattern.py 139-143 *)
  Definition setitem (p : ipattern) (a : assignment) : res ipattern :=
    match a with
    | SetName name v => Ok (mkIP (ip_stitches p) (ip_threads p) (set_name name v (ip_extras p)))
    | SetAt i s =>
        do k <- position (len p) i;
        Ok (mkIP (firstn k (ip_stitches p) ++ s :: skipn (S k) (ip_stitches p)) (ip_threads p) (ip_extras p))
    | SetRange a b l =>
        let a := from_of (len p) a in
        let b := Z.max a (to_of (len p) b) in
        Ok (mkIP (firstn (Z.to_nat a) (ip_stitches p) ++ l ++ skipn (Z.to_nat b) (ip_stitches p)) (ip_threads p) (ip_extras p))
    end.
  (** Several assignments, the pattern staying as it is where one raises. *)
  Definition assign (p : ipattern) (a : assignment) : ipattern := match setitem p a with Ok p => p | Err _ => p end.
  Definition assign_all (p : ipattern) (h : list assignment) : ipattern := fold_left assign h p.

  (** [for s in p]: the class has no __iter__, so Python asks for the items 0, 1, 2, ... until IndexError. *)
  Fixpoint iterate (fuel : nat) (p : ipattern) (i : Z) : res (list S0) :=
    match fuel with
    | O => Err OutOfFuel
    | S fuel =>
        match getitem p (KAt i) with
        | Ok (IStitch s) => do r <- iterate fuel p (i + 1); Ok (s :: r)
        | Ok _ => Err TypeError
        | Err IndexError => Ok []
        | Err e => Err e
        end
    end.
  (** [reversed(p)]: Python asks for the items len(p) - 1, ..., 0. *)
  Fixpoint backwards (fuel : nat) (p : ipattern) : res (list S0) :=
    match fuel with
    | O => Ok []
    | S k =>
        match getitem p (KAt (Z.of_nat k)) with
        | Ok (IStitch s) => do r <- backwards k p; Ok (s :: r)
        | Ok _ => Err TypeError
        | Err IndexError => Ok []
        | Err e => Err e
        end
    end.

  (* EmbPattern.py 119-129; [show] is what %s makes of a metadata value *)
  Definition printed (show : V -> text) (p : ipattern) : text :=
    text_of "EmbPattern "
    ++ match lookup (text_of "name") (ip_extras p) with Some v => show v ++ text_of " " | None => [] end
    ++ text_of "(commands: " ++ pad_left 3 (str_of_int (zlen (ip_stitches p)))
    ++ text_of ", threads: " ++ pad_left 3 (str_of_int (zlen (ip_threads p))) ++ text_of ")".
End Items.
Arguments ipattern : clear implicits.
Arguments item : clear implicits.
Arguments assignment : clear implicits.

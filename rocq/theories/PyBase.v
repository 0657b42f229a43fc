(** Python execution basics shared by every model file: exceptions as values,
    byte strings, and a few list operations with Python's exact behaviour. *)
From Coq Require Import ZArith List Bool Lia.
Import ListNotations.
Open Scope Z_scope.

(** The exceptions that the modelled code can raise.  [OutOfFuel] is not a Python
    exception: it marks exhaustion of the explicit fuel of a loop. *)
Inductive exn :=
| ValueError | IndexError | KeyError | TypeError | ZeroDivisionError
| AssertionError | AttributeError | OverflowError | OutOfFuel.

Inductive res (A : Type) := Ok (a : A) | Err (e : exn).
Arguments Ok {A} a.
Arguments Err {A} e.

Definition bindr {A B} (r : res A) (f : A -> res B) : res B :=
  match r with Ok a => f a | Err e => Err e end.
Notation "'do' x <- r ; k" := (bindr r (fun x => k))
  (at level 200, x name, r at level 100, k at level 200).
Notation "'do' ' p <- r ; k" := (bindr r (fun p => k))
  (at level 200, p pattern, r at level 100, k at level 200).

Definition is_ok {A} (r : res A) : bool :=
  match r with Ok _ => true | Err _ => false end.

(** A byte string is a list of integers; well formed when all are in 0..255
    (the invariant of Python's bytes/bytearray). *)
Definition byte_ok (b : Z) : Prop := 0 <= b < 256.
Definition bytes_ok (l : list Z) : Prop := Forall byte_ok l.

(** [bytes(bytearray([b]))] raises ValueError if an element is not in range(256). *)
Definition py_bytearray (l : list Z) : res (list Z) :=
  if forallb (fun b => (0 <=? b) && (b <? 256)) l then Ok l else Err ValueError.

(** [f.read(n)] on a stream whose remaining content is [s]: the first n bytes, or
    fewer at end of file, and the remaining content. *)
Definition py_read (n : nat) (s : list Z) : list Z * list Z := (firstn n s, skipn n s).

(** A stitch is the Python list [x, y, command]. *)
Record stitch (C : Type) := mkS { sx : C; sy : C; scmd : Z }.
Arguments mkS {C}.
Arguments sx {C}.
Arguments sy {C}.
Arguments scmd {C}.

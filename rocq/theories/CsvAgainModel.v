(** Loading a CSV file and saving what was loaded as CSV: pyembroidery/CsvReader.py and
    CsvWriter.py one after the other.  CSV files are written without encoding (CsvWriter.py 7,
    EmbPattern.py 1571-1576), so what is written is what was read. *)
From Coq Require Import ZArith List Bool.
From Verif Require Import PyBase EmbConst ThreadModel CsvModel.
Import ListNotations.
Open Scope Z_scope.

(** A loaded thread as the writer uses it.  hex_color() on a thread whose colour is None raises
    TypeError (EmbThread.py 184-201). *)
Definition writable_thread (l : loaded) : res thread :=
  match l_color l with
  | None => Err TypeError
  | Some c => Ok (mkT c (l_description l) (l_catalog l) (l_details l) (l_brand l) (l_chart l) (l_weight l))
  end.
Fixpoint writable_threads (l : list loaded) : res (list thread) :=
  match l with
  | [] => Ok []
  | a :: r => do t <- writable_thread a; do ts <- writable_threads r; Ok (t :: ts)
  end.

Section again.
  Context {C : Type}.
  Variables (zero : C) (minus : C -> C -> C) (show : C -> text) (float_of : text -> res C).
  Variables (show_distance show_angle : C -> C -> text) (other : text -> Z).
  (** The texts of the extents are computed from the stitches (CsvWriter.py 35-52). *)
  Variable extents : list (stitch C) -> list text.

  Definition csv_store (v : version) (out : loading (C := C)) : res (list Z) :=
    do threads <- writable_threads (d_threads out);
    csv_write zero minus show show_distance show_angle v (extents (d_stitches out))
      (mkC (d_stitches out) threads (d_extras out)).
  Definition csv_again (v : version) (file : list Z) : res (list Z) :=
    do out <- csv_read zero float_of other file; csv_store v out.
  Fixpoint csv_agains (v : version) (n : nat) (file : list Z) : res (list Z) :=
    match n with
    | O => Ok file
    | S n => do file <- csv_again v file; csv_agains v n file
    end.
End again.

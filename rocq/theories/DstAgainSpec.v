(** Saving a loaded DST file again. *)
From Coq Require Import ZArith QArith List Bool.
From Verif Require Import PyBase EmbConst.
Import ListNotations.
Open Scope Z_scope.

(** The stitch bytes of a DST file have no record that turns sequin mode on or off: in a record's
    third byte the bits 0x43 set, 0x80 not.  All of 0xF3 set: the record that ends the design. *)
Fixpoint sequin_free (s : list Z) : Prop :=
  match s with
  | _ :: _ :: b2 :: r => Z.land b2 0xF3 = 0xF3 \/ Z.land b2 0xC3 <> 0x43 /\ sequin_free r
  | _ => True
  end.

(** Colour changes stand where the needle is. *)
Fixpoint still (x y : Q) (l : list (stitch Q)) : Prop :=
  match l with
  | [] => True
  | a :: r => (cmd_of (scmd a) = COLOR_CHANGE -> (sx a == x)%Q /\ (sy a == y)%Q) /\ still (sx a) (sy a) r
  end.

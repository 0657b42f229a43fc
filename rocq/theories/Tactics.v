(** Proof automation only. *)
From Coq Require Import ZArith Bool.
Open Scope Z_scope.

Ltac is_num a :=
  match a with
  | Z0 => idtac
  | Zpos _ => idtac
  | Zneg _ => idtac
  | _ => is_const a
  end.

(** Evaluates comparisons between closed numbers in the goal. *)
Ltac ceq1 :=
  match goal with
  | |- context [Z.eqb ?a ?b] =>
      is_num a; is_num b; let v := eval vm_compute in (Z.eqb a b) in change (Z.eqb a b) with v
  | |- context [Z.leb ?a ?b] =>
      is_num a; is_num b; let v := eval vm_compute in (Z.leb a b) in change (Z.leb a b) with v
  | |- context [Z.ltb ?a ?b] =>
      is_num a; is_num b; let v := eval vm_compute in (Z.ltb a b) in change (Z.ltb a b) with v
  end.
Ltac ceq := repeat ceq1; cbn [negb andb orb]; cbn iota.

(** Metadata given more than once in a CSV file (C170). *)
From Coq Require Import Ascii String ZArith List Bool Lia.
From Verif Require Import PyBase EmbConst PatternModel ThreadModel Utf8Model TextModel CsvModel CsvFileProofs CsvMetaProofs.
Import ListNotations.
Open Scope Z_scope.

Theorem C170_last_value : forall C (zero : C) float_of other file out, csv_read zero float_of other file = Ok out ->
  exists t rows, utf8_decode file = Some t /\ csv_rows StartRecord [] [] (universal_newlines t) = map Ok rows /\
    NoDup (map fst (d_extras out)) /\
    forall name value, In (name, value) (d_extras out) <-> last_given rows name value.
Proof.
  intros C zero float_of other file out H. unfold csv_read in H. destruct (utf8_decode file) as [t|]; [|discriminate].
  apply (rows_extras zero float_of other _ []) in H.
  - destruct H as (rows & E & N & I). exists t, rows. cbn [app] in I. auto.
  - constructor.
  - intros n v. split; [intros []|]. intros (b & r & a & E & _). destruct b; discriminate.
Qed.
Print Assumptions C170_last_value.
Example C170_case : option_map (@d_extras Z) (match csv_read 0 int_of_text (fun _ => 0)
    (text_of "@,name,first" ++ [10] ++ text_of "@,author,me" ++ [10] ++ text_of "#@,name,no" ++ [10] ++ text_of "@,name,last" ++ [10])
    with Ok o => Some o | _ => None end)
  = Some [(text_of "name", text_of "last"); (text_of "author", text_of "me")].
Proof. vm_compute. reflexivity. Qed.

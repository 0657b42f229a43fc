(** Properties of the colour-file formats EDR, COL and INF (C49, C65). *)
From Coq Require Import Ascii String ZArith List Bool Lia.
From Verif Require Import PyBase ThreadModel TextModel PatternModel ColorFileModel ColorFileProofs.
Import ListNotations.
Open Scope Z_scope.

(** C49.  What comes back is, thread by thread, the 24-bit colour (and nothing else). *)
Theorem C49_edr_round_trip threads :
  edr_read (edr_write threads) = map (fun t => plain_thread (t_color t mod 2 ^ 24)) threads.
Proof. apply edr_round_trip. Qed.

(** COL: the 24-bit colour, and the position in the list as catalogue number. *)
Theorem C49_col_round_trip threads : exists file ts, col_write threads = Ok file /\ col_read file = Ok ts /\
  List.length ts = List.length threads /\
  forall k t, nth_error threads k = Some t ->
    nth_error ts k = Some (mkT (t_color t mod 2 ^ 24) None (Some (str_of_int (Z.of_nat k))) None None None None).
Proof.
  destruct (col_round_trip threads) as (file & E & R). exists file. eexists. split; [exact E|]. split; [exact R|].
  rewrite map_length, combine_length, map_length, seq_length, Nat.min_id. split; [reflexivity|].
  intros k t H. rewrite nth_error_map.
  assert (K : nth_error (combine (map Z.of_nat (seq 0 (List.length threads))) threads) k = Some (Z.of_nat k, t)).
  { assert (G : forall (ts : list thread) b k, nth_error ts k = Some t ->
      nth_error (combine (map Z.of_nat (seq b (List.length ts))) ts) k = Some (Z.of_nat (b + k), t)).
    { induction ts as [|u r IH]; intros b [|j] Hj; try discriminate; cbn [List.length seq map combine nth_error] in *.
      - injection Hj as ->. rewrite Nat.add_0_r. reflexivity.
      - rewrite IH by exact Hj. do 3 f_equal. lia. }
    apply (G threads 0%nat k H). }
  rewrite K. reflexivity.
Qed.

(** The texts InfWriter stores for a thread. *)
Definition inf_description (t : thread) : text := match t_description t with Some d => d | None => text_of "Unknown" end.
Definition inf_chart (t : thread) : text := match t_chart t with Some d => d | None => text_of "Unknown" end.
Definition ascii_texts (t : thread) : Prop :=
  Forall (fun c => 0 < c < 128) (inf_description t) /\ Forall (fun c => 0 < c < 128) (inf_chart t) /\
  Z.of_nat (List.length (inf_description t)) + Z.of_nat (List.length (inf_chart t)) <= 65524.
Theorem C49_inf_round_trip threads : Forall ascii_texts threads -> Z.of_nat (List.length threads) < 2 ^ 32 ->
  exists file, inf_write threads = Ok file /\
    inf_read file = Ok (map (fun t => mkT (t_color t mod 2 ^ 24) (Some (inf_description t)) None None None
                                        (Some (inf_chart t)) None) threads).
Proof. intros H L. apply (inf_round_trip threads H L). Qed.

Definition ex_red : thread := mkT 0x12FF0307 (Some [82; 111; 116]) None None None (Some [73; 115; 97]) None.
Definition ex_blue : thread := plain_thread 255.
Example C49_ex_hyps : Forall ascii_texts [ex_red; ex_blue].
Proof. repeat (apply Forall_cons || apply Forall_nil); unfold ascii_texts; cbn; (split; [|split]); try lia;
  repeat (apply Forall_cons || apply Forall_nil); lia. Qed.
Example C49_ex_edr : edr_read (edr_write [ex_red; ex_blue]) = [plain_thread 0xFF0307; plain_thread 255].
Proof. vm_compute. reflexivity. Qed.
Example C49_ex_col : bindr (col_write [ex_red; ex_blue]) col_read
  = Ok [mkT 0xFF0307 None (Some [48]) None None None None; mkT 255 None (Some [49]) None None None None].
Proof. vm_compute. reflexivity. Qed.
Example C49_ex_inf : bindr (inf_write [ex_red; ex_blue]) inf_read
  = Ok [mkT 0xFF0307 (Some [82; 111; 116]) None None None (Some [73; 115; 97]) None;
        mkT 255 (Some (text_of "Unknown")) None None None (Some (text_of "Unknown")) None].
Proof. vm_compute. reflexivity. Qed.

(** C65.  With a description outside ASCII the threads after it are lost: the recorded length
    counts characters, the text is stored in bytes. *)
Definition accented : thread := mkT 0xFF0307 (Some [233; 116; 233]) None None None (Some [97]) None.
Theorem C65_inf_non_ascii_refuted : exists threads file ts,
  inf_write threads = Ok file /\ inf_read file = Ok ts /\
  List.length ts <> List.length threads /\ Forall (fun t => 0 <= t_color t < 2 ^ 24) threads.
Proof.
  exists [accented; ex_blue]. eexists. eexists. split; [vm_compute; reflexivity|]. split; [vm_compute; reflexivity|].
  split; [vm_compute; discriminate|]. repeat (apply Forall_cons || apply Forall_nil); cbn; lia.
Qed.

Print Assumptions C49_edr_round_trip.
Print Assumptions C49_col_round_trip.
Print Assumptions C49_inf_round_trip.
Print Assumptions C65_inf_non_ascii_refuted.

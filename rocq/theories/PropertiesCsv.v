(** Properties of the CSV and JSON formats (C45, C46, C66-C68). *)
From Coq Require Import Ascii String ZArith List Bool Lia.
From Verif Require Import PyBase EmbConst BitLemmas FunctionsModel FunctionsProofs ThreadModel ThreadProofs Utf8Model Utf8Proofs TextModel TextProofs
  NameModel NameProofs PatternModel ColorFileModel CsvModel CsvProofs CsvFileProofs JsonModel.
Import ListNotations.
Open Scope Z_scope.

(** The commands of EmbConstant.py, without NO_COMMAND and the four CONTINGENCY_SEQUIN_
    values. *)
Definition named_commands : list Z :=
  [STITCH; JUMP; TRIM; STOP; END; SLOW; FAST; COLOR_CHANGE; NEEDLE_SET; SET_CHANGE_SEQUENCE; SEQUIN_MODE; SEQUIN_EJECT;
   SEW_TO; NEEDLE_AT; STITCH_BREAK; SEQUENCE_BREAK; COLOR_BREAK; TIE_ON; TIE_OFF; FRAME_EJECT;
   MATRIX_TRANSLATE; MATRIX_SCALE; MATRIX_ROTATE; MATRIX_SCALE_ORIGIN; MATRIX_ROTATE_ORIGIN; MATRIX_RESET;
   CONTINGENCY_TIE_ON_THREE_SMALL; CONTINGENCY_TIE_OFF_THREE_SMALL; CONTINGENCY_TIE_ON_NONE; CONTINGENCY_TIE_OFF_NONE;
   OPTION_MAX_STITCH_LENGTH; OPTION_MAX_JUMP_LENGTH; OPTION_IMPLICIT_TRIM; OPTION_EXPLICIT_TRIM;
   CONTINGENCY_LONG_STITCH_NONE; CONTINGENCY_LONG_STITCH_JUMP_NEEDLE; CONTINGENCY_LONG_STITCH_SEW_TO].

Lemma named_ok c : In c named_commands -> name_of c common_names <> None.
Proof.
  assert (G : forallb (fun c => match name_of c common_names with Some _ => true | None => false end) named_commands = true)
    by (vm_compute; reflexivity).
  intros H. rewrite forallb_forall in G. specialize (G c H). destruct (name_of c common_names); congruence.
Qed.
Lemma unnamed c : 0 <= c -> ~ In c named_commands -> name_of c common_names = None.
Proof.
  intros Hc H. destruct (name_of c common_names) as [n|] eqn:E; [|reflexivity]. apply name_of_in in E. exfalso.
  assert (G : forallb (fun e => (fst e =? -1) || existsb (Z.eqb (fst e)) named_commands) common_names = true)
    by (vm_compute; reflexivity).
  rewrite forallb_forall in G. specialize (G _ E). cbn [fst] in G.
  destruct (Z.eqb_spec c (-1)); [lia|]. cbn [orb] in G. apply existsb_exists in G as (k & Hk & K).
  apply Z.eqb_eq in K. congruence.
Qed.

(** C45.  Every value with the low byte of a named command, whatever its thread, needle and
    order bytes, comes back; every other value is refused when read, never taken for another
    command. *)
Theorem C45_command_names c : 0 <= c < 2 ^ 32 -> In (c mod 256) named_commands ->
  decoded_command (decoded_name c) = Ok c.
Proof.
  intros Hc H. rewrite command_by_name. pose proof (named_ok _ H) as N.
  destruct (name_of (c mod 256) common_names); [|congruence]. rewrite Z.mod_small by exact Hc. reflexivity.
Qed.
Theorem C45_other_values_refused c : ~ In (c mod 256) named_commands -> decoded_command (decoded_name c) = Err KeyError.
Proof.
  intros H. rewrite command_by_name, unnamed; [reflexivity| |exact H]. apply Z.mod_pos_bound. lia.
Qed.
(** In particular a thread change keeps its thread, needle and order numbers. *)
Corollary C45_thread_changes t n o : 0 <= t < 255 -> 0 <= n < 255 -> 0 <= o < 255 ->
  exists c', decoded_command (decoded_name (encode_thread_change NEEDLE_SET (Some t) (Some n) (Some o))) = Ok c' /\
    decode_embroidery_command c' = (NEEDLE_SET, Some t, Some n, Some o).
Proof.
  intros Ht Hn Ho.
  set (c := encode_thread_change NEEDLE_SET (Some t) (Some n) (Some o)).
  assert (F : forall v, 0 <= v < 255 -> FunctionsProofs.field_fits (Some v)) by (intros v Hv; cbn; lia).
  pose proof (FunctionsProofs.decode_encode NEEDLE_SET _ _ _ (F t Ht) (F n Hn) (F o Ho)) as D.
  pose proof (FunctionsProofs.encode_sum NEEDLE_SET (Some t) (Some n) (Some o)) as E.
  pose proof (FunctionsProofs.enc_field_fits (Some t) (F t Ht)).
  pose proof (FunctionsProofs.enc_field_fits (Some n) (F n Hn)).
  pose proof (FunctionsProofs.enc_field_fits (Some o) (F o Ho)).
  specialize (E ltac:(assumption) ltac:(assumption) ltac:(lia)).
  exists c. split.
  - apply C45_command_names.
    + unfold c. rewrite E. unfold NEEDLE_SET. change (2 ^ 8) with 256. change (2 ^ 16) with 65536. change (2 ^ 24) with 16777216.
        change (2 ^ 32) with 4294967296 || idtac. clear -H H0 H1. lia.
    + unfold c. rewrite E.
      replace ((NEEDLE_SET mod 256 + enc_field (Some t) * 2 ^ 8 + enc_field (Some n) * 2 ^ 16 + enc_field (Some o) * 2 ^ 24) mod 256)
        with NEEDLE_SET.
      * do 8 right. left. reflexivity.
      * unfold NEEDLE_SET. change (2 ^ 8) with 256. change (2 ^ 16) with 65536. change (2 ^ 24) with 16777216.
        change (2 ^ 32) with 4294967296 || idtac. clear -H H0 H1. lia.
  - unfold c. rewrite D. cbn [FunctionsProofs.field_low option_map]. change (NEEDLE_SET mod 256) with NEEDLE_SET. rewrite !Z.mod_small by lia. reflexivity.
Qed.
Example C45_ex : decoded_name (encode_thread_change NEEDLE_SET (Some 3) (Some 7) None) = text_of "NEEDLE_SET t3 n7" /\
  In (encode_thread_change NEEDLE_SET (Some 3) (Some 7) None mod 256) named_commands.
Proof. split; [vm_compute; reflexivity|]. vm_compute. tauto. Qed.

(** ** Whole CSV files *)
(** Text that a CSV cell can hold: no NUL, quote or carriage return, no surrogate, at most
    131072 characters. *)
Definition csv_text (t : text) : Prop :=
  Forall (fun c => 0 < c <= 0x10FFFF /\ ~ (0xD800 <= c <= 0xDFFF) /\ c <> 34 /\ c <> 13) t /\ zlen t <= 131072.
Lemma csv_text_cell t : csv_text t -> cell_text t.
Proof. intros [H L]. split; [|exact L]. eapply Forall_impl; [|exact H]. intros c Hc. cbn beta in Hc. unfold cell_char, scalar. lia. Qed.
Definition csv_opt (t : option text) : Prop := match t with Some t => csv_text t | None => True end.
Lemma csv_opt_cell t : csv_opt t -> cell_text (str_opt t).
Proof. destruct t as [t|]; [apply csv_text_cell|]. intros _. cbn [str_opt]. const_cell. Qed.
(** The texts of a thread that CSV stores. *)
Definition csv_thread (t : thread) : Prop :=
  csv_opt (t_description t) /\ csv_opt (t_brand t) /\ csv_opt (t_catalog t) /\ csv_opt (t_details t) /\ csv_opt (t_weight t).
(** A missing text is stored as the word None. *)
Definition or_none (t : option text) : option text := Some (match t with Some t => t | None => text_of "None" end).

(** C66.  [ok] are the coordinates whose printed form reads back; the other columns only have
    to be storable. *)
Theorem C66_csv_round_trip {C} (zero : C) minus show float_of show_distance show_angle other (ok : C -> Prop) v extents p :
  (forall x, ok x -> csv_text (show x) /\ float_of (show x) = Ok x) ->
  (forall v x y x0 y0, ok x -> ok y -> ok x0 -> ok y0 ->
     Forall csv_text (more_columns show show_distance show_angle v (minus x x0) (minus y y0))) ->
  ok zero -> Forall csv_text extents ->
  zlen (c_stitches p) < 2 ^ 64 -> zlen (c_threads p) < 2 ^ 64 ->
  Forall (fun s => ok (sx s) /\ ok (sy s) /\ 0 <= scmd s < 2 ^ 32 /\ In (scmd s mod 256) named_commands) (c_stitches p) ->
  Forall csv_thread (c_threads p) ->
  Forall (fun '(k, w) => csv_text k /\ csv_text w) (c_extras p) -> NoDup (map fst (c_extras p)) ->
  exists file, csv_write zero minus show show_distance show_angle v extents p = Ok file /\
    csv_read zero float_of other file =
    Ok (mkLd (c_stitches p)
          (map (fun t => mkL (Some (t_color t mod 2 ^ 24)) (or_none (t_description t)) (or_none (t_catalog t)) None
                           (or_none (t_brand t)) None None) (c_threads p))
          (c_extras p)).
Proof.
  intros Hshow Hmore Hz He Ls Lt Hs Ht Hm Nd.
  destruct (csv_round_trip zero minus show float_of show_distance show_angle other ok) with (v := v) (extents := extents) (p := p)
    as (file & W & R).
  - intros x Hx. destruct (Hshow x Hx). split; [apply csv_text_cell|]; assumption.
  - intros v' x y x0 y0 A B D E. eapply Forall_impl; [|exact (Hmore v' x y x0 y0 A B D E)]. apply csv_text_cell.
  - exact Hz.
  - eapply Forall_impl; [|exact He]. apply csv_text_cell.
  - exact Ls.
  - exact Lt.
  - eapply Forall_impl; [|exact Hs]. intros s (A & B & _ & D). split; [exact A|]. split; [exact B|]. apply named_ok. exact D.
  - eapply Forall_impl; [|exact Ht]. intros t (A & B & D & E & F). unfold thread_ok.
    split; [|split; [|split; [|split]]]; apply csv_opt_cell; assumption.
  - eapply Forall_impl; [|exact Hm]. intros [k w] [A B]. split; apply csv_text_cell; assumption.
  - exact Nd.
  - exists file. split; [exact W|]. rewrite R. do 2 f_equal.
    + rewrite <- (map_id (c_stitches p)) at 2. apply map_ext_in. intros s Hin. rewrite Forall_forall in Hs.
      destruct (Hs s Hin) as (_ & _ & D & _). unfold same_command. rewrite Z.mod_small by exact D. destruct s; reflexivity.
    + apply map_ext. intros t. unfold from_csv, or_none, str_opt. rewrite land_ffffff. reflexivity.
Qed.

(** Integer coordinates below 2^53, which float() reads exactly, satisfy the hypotheses. *)
Definition int_ok (x : Z) : Prop := - 2 ^ 53 <= x <= 2 ^ 53.
Lemma int_text x : - 2 ^ 60 <= x <= 2 ^ 60 -> csv_text (str_of_int x).
Proof.
  intros H. split.
  - eapply Forall_impl; [|apply str_of_int_chars]. unfold number_char, digit. intros c; lia.
  - pose proof (str_length x 61 ltac:(cbn; lia)). lia.
Qed.
Example C66_integers x : int_ok x -> csv_text (str_of_int x) /\ int_of_text (str_of_int x) = Ok x.
Proof. intros H. split; [apply int_text; unfold int_ok in H; lia|apply int_of_str_0]. Qed.
Example C66_integer_columns v x y x0 y0 : int_ok x -> int_ok y -> int_ok x0 -> int_ok y0 ->
  Forall csv_text (more_columns str_of_int (fun dx dy => str_of_int (Z.sqrt (dx * dx + dy * dy))) (fun _ _ => text_of "0.5") v
                     (x - x0) (y - y0)).
Proof.
  intros A B D E. unfold int_ok in *.
  assert (N : csv_text (text_of "0.5")).
  { split; [|vm_compute; discriminate]. repeat (apply Forall_cons || apply Forall_nil); vm_compute; intuition discriminate. }
  assert (Q : csv_text (str_of_int (Z.sqrt ((x - x0) * (x - x0) + (y - y0) * (y - y0))))).
  { apply int_text. split; [pose proof (Z.sqrt_nonneg ((x - x0) * (x - x0) + (y - y0) * (y - y0))); lia|].
    rewrite <- (Z.sqrt_square (2 ^ 60)) by lia. apply Z.sqrt_le_mono.
    assert (forall u w, - 2 ^ 53 <= u <= 2 ^ 53 -> - 2 ^ 53 <= w <= 2 ^ 53 -> (u - w) * (u - w) <= 2 ^ 54 * 2 ^ 54) as M.
    { intros u w Hu Hw. assert (Z.abs (u - w) <= 2 ^ 54) by lia.
      rewrite <- (Z.abs_square (u - w)). apply Z.mul_le_mono_nonneg; lia. }
    pose proof (M x x0 ltac:(lia) ltac:(lia)). pose proof (M y y0 ltac:(lia) ltac:(lia)).
    assert (2 ^ 54 * 2 ^ 54 + 2 ^ 54 * 2 ^ 54 <= 2 ^ 60 * 2 ^ 60) by (vm_compute; discriminate). lia. }
  destruct v; cbn [more_columns]; repeat (apply Forall_cons || apply Forall_nil); try exact N; try exact Q; apply int_text; lia.
Qed.

Definition ex_pattern : content (C := Z) :=
  mkC [mkS 0 0 STITCH; mkS (-12) 345 (encode_thread_change NEEDLE_SET (Some 3) (Some 7) None); mkS 5 6 END]
    [mkT 0x12FF0307 (Some [82; 233; 10; 116]) None None (Some [73; 44; 97]) None None; plain_thread 255]
    [(text_of "name", [20320; 22909]); (text_of "author", [])].
Definition ex_csv (v : version) := csv_write 0 Z.sub str_of_int (fun dx dy => str_of_int (Z.sqrt (dx * dx + dy * dy)))
    (fun _ _ => text_of "0.5") v (map str_of_int [-12; 0; 5; 345; 17; 345]) ex_pattern.
Example C66_ex : bindr (ex_csv Full) (csv_read 0 int_of_text (fun _ => 0)) =
  Ok (mkLd (c_stitches ex_pattern)
        [mkL (Some 0xFF0307) (Some [82; 233; 10; 116]) (Some (text_of "None")) None (Some [73; 44; 97]) None None;
         mkL (Some 255) (Some (text_of "None")) (Some (text_of "None")) None (Some (text_of "None")) None None]
        (c_extras ex_pattern)).
Proof. vm_compute. reflexivity. Qed.
Example C66_ex_hyps :
  Forall (fun s => int_ok (sx s) /\ int_ok (sy s) /\ 0 <= scmd s < 2 ^ 32 /\ In (scmd s mod 256) named_commands) (c_stitches ex_pattern)
  /\ Forall csv_thread (c_threads ex_pattern)
  /\ Forall (fun '(k, w) => csv_text k /\ csv_text w) (c_extras ex_pattern) /\ NoDup (map fst (c_extras ex_pattern)).
Proof.
  assert (T : forall t, forallb (fun c => (0 <? c) && (c <? 0xD800) && negb (c =? 34) && negb (c =? 13)) t = true ->
    (List.length t <= 100)%nat -> csv_text t).
  { intros t H L. split; [|unfold zlen; lia]. rewrite forallb_forall in H. apply Forall_forall. intros c Hc.
    specialize (H c Hc). destruct (Z.ltb_spec 0 c), (Z.ltb_spec c 0xD800), (Z.eqb_spec c 34), (Z.eqb_spec c 13); try discriminate; lia. }
  split; [|split; [|split]].
  - repeat (apply Forall_cons || apply Forall_nil); (split; [unfold int_ok; cbn; lia|]; split; [unfold int_ok; cbn; lia|]; split; [vm_compute; split; congruence|]);
      vm_compute; tauto.
  - repeat (apply Forall_cons || apply Forall_nil); unfold csv_thread; cbn [csv_opt t_description t_brand t_catalog t_details t_weight plain_thread];
      (split; [|split; [|split; [|split]]]); try exact I; (apply T; [vm_compute; reflexivity|cbn; lia]).
  - repeat (apply Forall_cons || apply Forall_nil); (split; apply T; [vm_compute; reflexivity|cbn; lia|vm_compute; reflexivity|cbn; lia]).
  - cbn [ex_pattern c_extras map fst]. repeat constructor; vm_compute; intuition discriminate.
Qed.

(** ** JSON *)
(** C67.  Stitches, all thread attributes with the 24-bit colour, and the metadata that is a
    string, an int or a float come back. *)
Theorem C67_json_round_trip {C F} (other : text -> Z) (stitches : list (stitch C)) threads (extras : list (text * value F)) :
  Forall (fun s => 0 <= scmd s < 2 ^ 32 /\ In (scmd s mod 256) named_commands) stitches ->
  json_read other (json_write stitches threads extras) =
  Ok (stitches,
      map (fun t => mkL (Some (t_color t mod 2 ^ 24)) (t_description t) (t_catalog t) (t_details t) (t_brand t)
                      (t_chart t) (t_weight t)) threads,
      filter (fun e => match snd e with VOther => false | _ => true end) extras).
Proof.
  intros H. unfold json_read, json_write. cbn [j_threads j_stitches j_extras].
  assert (T : load_threads other (map json_thread threads) = Ok (map (fun t => mkL (Some (t_color t mod 2 ^ 24)) (t_description t)
    (t_catalog t) (t_details t) (t_brand t) (t_chart t) (t_weight t)) threads)).
  { induction threads as [|t r IH]; cbn [map load_threads]; [reflexivity|]. unfold load_thread. cbn [j_color json_thread].
    assert (E : parse_string_color other (hex_color (t_color t)) = Ok (Some (t_color t mod 2 ^ 24))).
    { change (2 ^ 24) with 16777216. rewrite <- land_ffffff, <- hex_round_trip. reflexivity. }
    rewrite E. cbn [bindr]. rewrite IH. reflexivity. }
  rewrite T. cbn [bindr].
  assert (S : load_stitches (map (fun s => (sx s, sy s, decoded_name (scmd s))) stitches) = Ok stitches).
  { induction H as [|s r [Hc Hn] _ IH]; cbn [map load_stitches]; [reflexivity|].
    rewrite C45_command_names by assumption. cbn [bindr]. rewrite IH. destruct s; reflexivity. }
  rewrite S. reflexivity.
Qed.
Example C67_ex : json_read (fun _ => 0) (json_write (F := Z) [mkS 1 2 STITCH; mkS 3 4 (encode_thread_change COLOR_CHANGE (Some 1) None None)]
    [plain_thread 0xAABBCC] [(text_of "name", VStr (text_of "x")); (text_of "graphic", VOther)])
  = Ok ([mkS 1 2 STITCH; mkS 3 4 (encode_thread_change COLOR_CHANGE (Some 1) None None)],
        [mkL (Some 0xAABBCC) None None None None None None], [(text_of "name", VStr (text_of "x"))]).
Proof. vm_compute. reflexivity. Qed.

(** ** C46: not every saved pattern can be loaded *)
(** A documented command without an entry in the name table makes both formats unreadable,
    whatever the rest of the pattern. *)
Theorem C46_json_loading_refuted {C F} (other : text -> Z) (x y : C) threads (extras : list (text * value F)) c :
  In c [NO_COMMAND; CONTINGENCY_SEQUIN_UTILIZE; CONTINGENCY_SEQUIN_JUMP; CONTINGENCY_SEQUIN_STITCH; CONTINGENCY_SEQUIN_REMOVE] ->
  json_read other (json_write [mkS x y c] threads extras) = Err KeyError.
Proof.
  intros H. pose proof (C67_json_round_trip other ([] : list (stitch C)) threads extras (Forall_nil _)) as T.
  unfold json_read, json_write in *. cbn [j_threads j_stitches j_extras map] in *.
  destruct (load_threads other (map json_thread threads)) as [l|e]; [|discriminate]. cbn [bindr load_stitches].
  rewrite C45_other_values_refused; [reflexivity|].
  cbn [In] in H. destruct H as [<-|[<-|[<-|[<-|[<-|[]]]]]]; vm_compute; intuition discriminate.
Qed.
Theorem C46_csv_loading_refuted : exists p file,
  csv_write 0 Z.sub str_of_int (fun _ _ => []) (fun _ _ => []) Plain (map str_of_int [0; 0; 0; 0; 0; 0]) p = Ok file /\
  csv_read 0 int_of_text (fun _ => 0) file = Err KeyError /\
  map scmd (c_stitches p) = [CONTINGENCY_SEQUIN_JUMP].
Proof.
  exists (mkC [mkS 0 0 CONTINGENCY_SEQUIN_JUMP] [] []). eexists. split; [vm_compute; reflexivity|].
  split; vm_compute; reflexivity.
Qed.

(** ** C68: texts in CSV *)
(** A quote in a metadata value changes it, a carriage return too; a missing description comes
    back as a word; the chart, the details and the weight of a thread are lost. *)
Definition csv_there (p : content (C := Z)) : res (loading (C := Z)) :=
  bindr (csv_write 0 Z.sub str_of_int (fun _ _ => []) (fun _ _ => []) Plain (map str_of_int [0; 0; 0; 0; 0; 0]) p)
    (csv_read 0 int_of_text (fun _ => 0)).
Theorem C68_csv_text_refuted :
  (exists v v', v <> v' /\ csv_there (mkC [] [] [(text_of "name", v)]) = Ok (mkLd [] [] [(text_of "name", v')])) /\
  (exists t, t_details t <> None /\ t_weight t <> None /\ t_chart t <> None /\ t_description t = None /\
     csv_there (mkC [] [t] []) = Ok (mkLd [] [mkL (Some (t_color t)) (Some (text_of "None")) (Some (text_of "None")) None (Some (text_of "None")) None None] [])).
Proof.
  split.
  - exists [97; 34; 98]. eexists. split; [|vm_compute; reflexivity]. discriminate.
  - exists (mkT 255 None None (Some [97]) None (Some [98]) (Some [99])).
    repeat (split; [discriminate|]). split; vm_compute; reflexivity.
Qed.

Print Assumptions C45_command_names.
Print Assumptions C45_other_values_refused.
Print Assumptions C45_thread_changes.
Print Assumptions C46_json_loading_refuted.
Print Assumptions C46_csv_loading_refuted.
Print Assumptions C66_csv_round_trip.
Print Assumptions C67_json_round_trip.
Print Assumptions C68_csv_text_refuted.

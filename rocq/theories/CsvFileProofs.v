(** The CSV file as a list of rows, and what the reader makes of them. *)
From Coq Require Import Ascii String ZArith List Bool Lia.
From Verif Require Import PyBase EmbConst BitLemmas ThreadModel ThreadProofs Utf8Model Utf8Proofs TextModel TextProofs
  NameModel NameProofs PatternModel ColorFileModel CsvModel CsvProofs.
Import ListNotations.
Open Scope Z_scope.

Lemma pair_rows {A B} (f : A -> B -> list text) l :
  flat_map csv_row (map (fun '(k, v) => f k v) l) = flat_map (fun '(k, v) => csv_row (f k v)) l.
Proof. induction l as [|[k v] r IH]; cbn [map flat_map]; [reflexivity|]. rewrite IH. reflexivity. Qed.

Section file.
  Context {C : Type}.
  Variables (zero : C) (minus : C -> C -> C) (show : C -> text) (float_of : text -> res C).
  Variables (show_distance show_angle : C -> C -> text).
  Variable other : text -> Z.

  (** Rows the reader skips: the mark has no "*", "@" or "$". *)
  Definition skipped (row : list text) : Prop :=
    match row with
    | [] => True
    | mark :: _ => has_char 42 mark = false /\ (has_char 35 mark = true \/ (has_char 64 mark = false /\ has_char 36 mark = false))
    end.
  Lemma read_skipped row (out : loading) : skipped row -> read_row zero float_of other row out = Ok out.
  Proof.
    destruct row as [|mark r]; [reflexivity|]. cbn [skipped read_row]. intros [E H]. rewrite E.
    destruct (has_char 35 mark); [reflexivity|]. destruct H as [H|[H1 H2]]; [discriminate|]. rewrite H1, H2. reflexivity.
  Qed.
  Lemma read_all_skipped rows q (out : loading) : Forall skipped rows ->
    read_rows zero float_of other (map Ok rows ++ q) out = read_rows zero float_of other q out.
  Proof.
    induction 1 as [|row rows H _ IH]; [reflexivity|]. cbn [map app read_rows bindr].
    rewrite read_skipped by exact H. exact IH.
  Qed.

  Definition data_rows (extents : list text) (l : list (stitch C)) : list (list text) :=
    [[text_of "#"; text_of "[VAR_NAME]"; text_of "[VAR_VALUE]"];
     [text_of ">"; text_of "STITCH_COUNT:"; str_of_int (zlen l)];
     [text_of ">"; text_of "THREAD_COUNT:"; str_of_int (count_stitch_commands COLOR_CHANGE l)];
     [text_of ">"; text_of "NEEDLE_COUNT:"; str_of_int (count_stitch_commands NEEDLE_SET l)]]
    ++ map (fun '(n, v) => [text_of ">"; n; v])
         (combine [text_of "EXTENTS_LEFT:"; text_of "EXTENTS_TOP:"; text_of "EXTENTS_RIGHT:";
                   text_of "EXTENTS_BOTTOM:"; text_of "EXTENTS_WIDTH:"; text_of "EXTENTS_HEIGHT:"] extents)
    ++ map (fun '(k, n) => [text_of ">"; count_name k; str_of_int n])
         (fold_left (fun d s => count_in (cmd_of (scmd s)) d) l [])
    ++ [[]].
  Lemma csv_data_rows extents l : csv_data extents l = flat_map csv_row (data_rows extents l).
  Proof.
    unfold csv_data, data_rows. rewrite !flat_map_app, !pair_rows. cbn [flat_map].
    rewrite app_nil_r, <- !app_assoc. reflexivity.
  Qed.
  Definition meta_rows (extras : list (text * text)) : list (list text) :=
    match extras with
    | [] => []
    | _ => [text_of "#"; text_of "[METADATA_NAME]"; text_of "[METADATA]"]
           :: map (fun '(k, v) => [text_of "@"; k; v]) extras ++ [[]]
    end.
  Lemma csv_metadata_rows extras : csv_metadata extras = flat_map csv_row (meta_rows extras).
  Proof.
    unfold csv_metadata, meta_rows. destruct extras as [|e r]; [reflexivity|].
    cbn [flat_map]. rewrite flat_map_app, pair_rows. reflexivity.
  Qed.
  Definition thread_cells (i : Z) (t : thread) : list text :=
    [text_of "$"; str_of_int i; hex_color (t_color t); str_opt (t_description t);
     str_opt (t_brand t); str_opt (t_catalog t); str_opt (t_details t); str_opt (t_weight t)].
  Fixpoint thread_rows (i : Z) (threads : list thread) : list (list text) :=
    match threads with [] => [] | t :: r => thread_cells i t :: thread_rows (i + 1) r end.
  Lemma csv_thread_rows_rows threads : forall i, csv_thread_rows i threads = flat_map csv_row (thread_rows i threads).
  Proof. induction threads as [|t r IH]; intros i; cbn [csv_thread_rows thread_rows flat_map]; [reflexivity|]. rewrite IH. reflexivity. Qed.
  Definition thread_section (threads : list thread) : list (list text) :=
    match threads with
    | [] => []
    | _ => [text_of "#"; text_of "[THREAD_NUMBER]"; text_of "[HEX_COLOR]"; text_of "[DESCRIPTION]";
            text_of "[BRAND]"; text_of "[CATALOG_NUMBER]"; text_of "[DETAILS]"; text_of "[WEIGHT]"]
           :: thread_rows 0 threads ++ [[]]
    end.
  Lemma csv_threads_rows threads : csv_threads threads = flat_map csv_row (thread_section threads).
  Proof.
    unfold csv_threads, thread_section. destruct threads as [|t r]; [reflexivity|].
    rewrite csv_thread_rows_rows. cbn [flat_map]. rewrite flat_map_app. reflexivity.
  Qed.
  Definition stitch_cells (v : version) (i : Z) (x y : C) (s : stitch C) : list text :=
    [text_of "*"; str_of_int i; decoded_name (scmd s); show (sx s); show (sy s)]
    ++ more_columns show show_distance show_angle v (minus (sx s) x) (minus (sy s) y).
  Fixpoint stitch_rows (v : version) (i : Z) (x y : C) (l : list (stitch C)) : list (list text) :=
    match l with [] => [] | s :: r => stitch_cells v i x y s :: stitch_rows v (i + 1) (sx s) (sy s) r end.
  Lemma csv_stitch_rows_rows v l : forall i x y,
    csv_stitch_rows minus show show_distance show_angle v i x y l = flat_map csv_row (stitch_rows v i x y l).
  Proof. induction l as [|s r IH]; intros i x y; cbn [csv_stitch_rows stitch_rows flat_map]; [reflexivity|]. rewrite IH. reflexivity. Qed.
  Definition stitch_section (v : version) (l : list (stitch C)) : list (list text) :=
    match l with
    | [] => []
    | _ => ([text_of "#"; text_of "[STITCH_INDEX]"; text_of "[STITCH_TYPE]"; text_of "[X]"; text_of "[Y]"]
            ++ more_titles v) :: stitch_rows v 0 zero zero l
    end.
  Lemma csv_stitches_rows v l : csv_stitches zero minus show show_distance show_angle v l = flat_map csv_row (stitch_section v l).
  Proof.
    unfold csv_stitches, stitch_section. destruct l as [|s r]; [reflexivity|].
    rewrite csv_stitch_rows_rows. reflexivity.
  Qed.
  Definition all_rows (v : version) (extents : list text) (p : content) : list (list text) :=
    data_rows extents (c_stitches p) ++ meta_rows (c_extras p) ++ thread_section (c_threads p)
    ++ stitch_section v (c_stitches p).
  Lemma csv_write_rows v extents p :
    csv_write zero minus show show_distance show_angle v extents p = utf8_encode (flat_map csv_row (all_rows v extents p)).
  Proof.
    unfold csv_write, all_rows. rewrite csv_data_rows, csv_metadata_rows, csv_threads_rows, csv_stitches_rows.
    rewrite !flat_map_app. reflexivity.
  Qed.

  (** *** Every cell can be read back *)
  Lemma count_step l k d : fold_left (fun n (s : stitch C) => if cmd_of (scmd s) =? k then n + 1 else n) l d
    <= d + zlen l /\ d <= fold_left (fun n (s : stitch C) => if cmd_of (scmd s) =? k then n + 1 else n) l d.
  Proof.
    revert d. induction l as [|s r IH]; intros d; cbn [fold_left]; unfold zlen in *; cbn [List.length]; [lia|].
    destruct (cmd_of (scmd s) =? k); [specialize (IH (d + 1))|specialize (IH d)]; lia.
  Qed.
  Lemma count_cell k (l : list (stitch C)) : zlen l < 2 ^ 64 -> cell_text (str_of_int (count_stitch_commands k l)).
  Proof. intros H. apply str_cell. unfold count_stitch_commands. pose proof (count_step l k 0). lia. Qed.

  (** Counters: keys are bytes, counts positive and summing to the number of stitches. *)
  Definition counters (n : Z) (d : list (Z * Z)) : Prop :=
    Forall (fun '(k, v) => 0 <= k < 256 /\ 0 < v <= n) d.
  Lemma count_in_counters c n d : 0 <= c < 256 -> 0 <= n -> counters n d -> counters (n + 1) (count_in c d).
  Proof.
    intros Hc Hn. induction d as [|[k v] r IH]; intros H; cbn [count_in].
    - repeat constructor; lia.
    - inversion H as [|? ? Hk Hr]; subst. destruct (k =? c).
      + constructor; [lia|]. eapply Forall_impl; [|exact Hr]. intros [a b]. lia.
      + constructor; [lia|]. apply IH. exact Hr.
  Qed.
  Lemma counters_fold (l : list (stitch C)) : forall n d, 0 <= n -> counters n d ->
    counters (n + zlen l) (fold_left (fun d s => count_in (cmd_of (scmd s)) d) l d).
  Proof.
    induction l as [|s r IH]; intros n d Hn H; cbn [fold_left]; unfold zlen in *; cbn [List.length].
    - replace (n + Z.of_nat 0) with n by lia. exact H.
    - replace (n + Z.of_nat (S (List.length r))) with (n + 1 + Z.of_nat (List.length r)) by lia.
      apply IH; [lia|]. apply count_in_counters; [|lia|exact H].
      unfold cmd_of. change COMMAND_MASK with 0xFF. rewrite land_ff. apply Z.mod_pos_bound. lia.
  Qed.

  Lemma data_rows_ok extents l : Forall cell_text extents -> zlen l < 2 ^ 64 ->
    Forall cells (data_rows extents l) /\ Forall skipped (data_rows extents l).
  Proof.
    intros He Hl. unfold data_rows. rewrite !Forall_app.
    assert (S : forall n, cell_text n -> forall v, cell_text v -> cells [text_of ">"; n; v] /\ skipped [text_of ">"; n; v]).
    { intros n Hn v Hv. split; [|cbn; auto]. constructor; [const_cell|]. constructor; [exact Hn|]. constructor; [exact Hv|constructor]. }
    assert (F : Forall (fun '(n, v) => cells [text_of ">"; n; v] /\ skipped [text_of ">"; n; v])
      (combine [text_of "EXTENTS_LEFT:"; text_of "EXTENTS_TOP:"; text_of "EXTENTS_RIGHT:";
                   text_of "EXTENTS_BOTTOM:"; text_of "EXTENTS_WIDTH:"; text_of "EXTENTS_HEIGHT:"] extents)).
    { apply Forall_forall. intros [n v] H. apply S.
      - apply in_combine_l in H. cbn [In] in H.
        repeat (destruct H as [<-|H]; [const_cell|]). destruct H.
      - apply in_combine_r in H. rewrite Forall_forall in He. auto. }
    assert (G : Forall (fun '(k, n) => cells [text_of ">"; count_name k; str_of_int n] /\
                                       skipped [text_of ">"; count_name k; str_of_int n])
      (fold_left (fun d s => count_in (cmd_of (scmd s)) d) l [])).
    { pose proof (counters_fold l 0 [] ltac:(lia) ltac:(constructor)) as K.
      eapply Forall_impl; [|exact K]. intros [k n] [H1 H2]. apply S.
      - apply count_name_cell. exact H1.
      - apply str_cell. lia. }
    assert (H0 : cells [] /\ skipped []) by (split; [constructor|exact I]).
    split; (split; [|split; [|split]]).
    - constructor; [repeat (constructor; [const_cell|]); constructor|].
      constructor; [apply S; [const_cell|apply str_cell; unfold zlen in *; lia]|].
      constructor; [apply S; [const_cell|apply count_cell; exact Hl]|].
      constructor; [apply S; [const_cell|apply count_cell; exact Hl]|constructor].
    - apply Forall_map. eapply Forall_impl; [|exact F]. intros [n v]; tauto.
    - apply Forall_map. eapply Forall_impl; [|exact G]. intros [n v]; tauto.
    - constructor; [apply H0|constructor].
    - repeat (apply Forall_cons || apply Forall_nil); cbn; auto.
    - apply Forall_map. eapply Forall_impl; [|exact F]. intros [n v]; tauto.
    - apply Forall_map. eapply Forall_impl; [|exact G]. intros [n v]; tauto.
    - constructor; [apply H0|constructor].
  Qed.

  (** *** Metadata *)
  Lemma text_eqb_spec a : forall b, text_eqb a b = true <-> a = b.
  Proof.
    induction a as [|x a IH]; intros [|y b]; cbn [text_eqb]; try (split; [discriminate|discriminate]).
    - tauto.
    - rewrite andb_true_iff, Z.eqb_eq, IH. split; [intros [-> ->]; reflexivity|intros [= -> ->]; auto].
  Qed.
  Lemma dict_set_new k v d : ~ In k (map fst d) -> dict_set k v d = d ++ [(k, v)].
  Proof.
    induction d as [|[a b] r IH]; intros H; cbn [dict_set app]; [reflexivity|].
    destruct (text_eqb a k) eqn:E.
    - apply text_eqb_spec in E. exfalso. apply H. left. exact E.
    - rewrite IH; [reflexivity|]. intros K. apply H. right. exact K.
  Qed.
  Lemma read_meta extras q : forall st th d, NoDup (map fst (d ++ extras)) ->
    read_rows zero float_of other (map Ok (map (fun '(k, v) => [text_of "@"; k; v]) extras) ++ q) (mkLd st th d)
    = read_rows zero float_of other q (mkLd st th (d ++ extras)).
  Proof.
    induction extras as [|[k v] r IH]; intros st th d H; cbn [map app].
    - rewrite app_nil_r. reflexivity.
    - cbn [read_rows bindr]. change (read_row zero float_of other [text_of "@"; k; v] (mkLd st th d))
        with (Ok (mkLd st th (dict_set k v d))).
      cbn [bindr]. rewrite dict_set_new.
      + rewrite IH; rewrite <- app_assoc; [reflexivity|exact H].
      + rewrite map_app in H. cbn [map fst] in H. apply NoDup_remove_2 in H. intros K. apply H. apply in_or_app. left. exact K.
  Qed.
  Lemma meta_rows_read extras q st th : NoDup (map fst extras) ->
    read_rows zero float_of other (map Ok (meta_rows extras) ++ q) (mkLd st th [])
    = read_rows zero float_of other q (mkLd st th extras).
  Proof.
    intros H. unfold meta_rows. destruct extras as [|e r]; [reflexivity|]. set (E := e :: r) in *. cbn [map app].
    rewrite map_app, <- app_assoc. cbn [read_rows bindr]. rewrite read_skipped by (cbn; auto). cbn [bindr].
    rewrite (read_meta E _ st th []) by exact H. reflexivity.
  Qed.

  (** *** Threads *)
  Definition from_csv (t : thread) : loaded :=
    mkL (Some (Z.land (t_color t) 0xFFFFFF)) (Some (str_opt (t_description t))) (Some (str_opt (t_catalog t)))
      None (Some (str_opt (t_brand t))) None None.
  Lemma read_thread i t st th d :
    read_row zero float_of other (thread_cells i t) (mkLd st th d) = Ok (mkLd st (th ++ [from_csv t]) d).
  Proof.
    unfold read_row, thread_cells. change (has_char 42 (text_of "$")) with false. change (has_char 35 (text_of "$")) with false.
    change (has_char 64 (text_of "$")) with false. change (has_char 36 (text_of "$")) with true. cbn iota.
    unfold read_thread_row, cell. cbn [nth_error].
    assert (E : parse_string_color other (hex_color (t_color t)) = Ok (Some (Z.land (t_color t) 0xFFFFFF))).
    { rewrite <- hex_round_trip. reflexivity. }
    rewrite E. reflexivity.
  Qed.
  Lemma read_threads threads q : forall i st th d,
    read_rows zero float_of other (map Ok (thread_rows i threads) ++ q) (mkLd st th d)
    = read_rows zero float_of other q (mkLd st (th ++ map from_csv threads) d).
  Proof.
    induction threads as [|t r IH]; intros i st th d; cbn [thread_rows map app].
    - rewrite app_nil_r. reflexivity.
    - cbn [read_rows bindr]. rewrite read_thread. cbn [bindr]. rewrite IH, <- app_assoc. reflexivity.
  Qed.
  Lemma thread_section_read threads q st d :
    read_rows zero float_of other (map Ok (thread_section threads) ++ q) (mkLd st [] d)
    = read_rows zero float_of other q (mkLd st (map from_csv threads) d).
  Proof.
    unfold thread_section. destruct threads as [|t r]; [reflexivity|]. set (E := t :: r). cbn [map app].
    rewrite map_app, <- app_assoc. cbn [read_rows bindr]. rewrite read_skipped by (cbn; auto). cbn [bindr].
    rewrite read_threads. reflexivity.
  Qed.

  (** *** Stitches *)
  Variable ok : C -> Prop.
  Hypothesis show_ok : forall x, ok x -> cell_text (show x) /\ float_of (show x) = Ok x.
  Definition named (s : stitch C) : Prop := name_of (scmd s mod 256) common_names <> None.
  Definition same_command (s : stitch C) : stitch C := mkS (sx s) (sy s) (scmd s mod 2 ^ 32).
  Lemma read_stitch v i x y s st th d : ok (sx s) -> ok (sy s) -> named s ->
    read_row zero float_of other (stitch_cells v i x y s) (mkLd st th d) = Ok (mkLd (st ++ [same_command s]) th d).
  Proof.
    intros Hx Hy Hn. unfold read_row, stitch_cells. cbn [app]. change (has_char 42 (text_of "*")) with true. cbn iota.
    unfold read_stitch_row.
    assert (Z3 : forall m, zlen (text_of "*" :: str_of_int i :: decoded_name (scmd s) :: show (sx s) :: show (sy s) :: m) =? 3 = false).
    { intros m. apply Z.eqb_neq. unfold zlen. cbn [List.length]. lia. }
    rewrite Z3.
    change (py_index 2 (text_of "*" :: str_of_int i :: decoded_name (scmd s) :: show (sx s) :: show (sy s)
      :: more_columns show show_distance show_angle v (minus (sx s) x) (minus (sy s) y))) with (Ok (decoded_name (scmd s))).
    change (py_index 3 (text_of "*" :: str_of_int i :: decoded_name (scmd s) :: show (sx s) :: show (sy s)
      :: more_columns show show_distance show_angle v (minus (sx s) x) (minus (sy s) y))) with (Ok (show (sx s))).
    change (py_index 4 (text_of "*" :: str_of_int i :: decoded_name (scmd s) :: show (sx s) :: show (sy s)
      :: more_columns show show_distance show_angle v (minus (sx s) x) (minus (sy s) y))) with (Ok (show (sy s))).
    cbn [bindr]. rewrite command_by_name. unfold named in Hn. destruct (name_of (scmd s mod 256) common_names); [|congruence].
    cbn [bindr]. rewrite (proj2 (show_ok _ Hx)). cbn [bindr]. rewrite (proj2 (show_ok _ Hy)). reflexivity.
  Qed.
  Lemma read_stitches v l : Forall (fun s => ok (sx s) /\ ok (sy s) /\ named s) l -> forall i x y st th d,
    read_rows zero float_of other (map Ok (stitch_rows v i x y l)) (mkLd st th d)
    = Ok (mkLd (st ++ map same_command l) th d).
  Proof.
    induction 1 as [|s r (Hx & Hy & Hn) _ IH]; intros i x y st th d; cbn [stitch_rows map].
    - rewrite app_nil_r. reflexivity.
    - cbn [read_rows bindr]. rewrite read_stitch by assumption. cbn [bindr]. rewrite IH, <- app_assoc. reflexivity.
  Qed.
  Lemma stitch_section_read v l th d : Forall (fun s => ok (sx s) /\ ok (sy s) /\ named s) l ->
    read_rows zero float_of other (map Ok (stitch_section v l)) (mkLd [] th d) = Ok (mkLd (map same_command l) th d).
  Proof.
    intros H. unfold stitch_section. destruct l as [|s r]; [reflexivity|]. set (E := s :: r) in *. cbn [map].
    cbn [read_rows bindr]. rewrite read_skipped by (destruct v; cbn; auto). cbn [bindr]. rewrite read_stitches by exact H. reflexivity.
  Qed.

  (** *** All cells *)
  Hypothesis more_ok : forall v x y x0 y0, ok x -> ok y -> ok x0 -> ok y0 ->
    Forall cell_text (more_columns show show_distance show_angle v (minus x x0) (minus y y0)).
  Hypothesis zero_ok : ok zero.
  Lemma stitch_rows_cells v l : Forall (fun s => ok (sx s) /\ ok (sy s) /\ named s) l -> forall i x y,
    ok x -> ok y -> 0 <= i -> i + zlen l < 2 ^ 64 -> Forall cells (stitch_rows v i x y l).
  Proof.
    induction 1 as [|s r (Hx & Hy & Hn) _ IH]; intros i x y Ox Oy Hi Hl; cbn [stitch_rows]; [constructor|].
    unfold zlen in *. cbn [List.length] in Hl. constructor; [|apply IH; try assumption; lia].
    unfold stitch_cells, cells. apply Forall_app. split; [|apply more_ok; assumption].
    constructor; [const_cell|]. constructor; [apply str_cell; lia|]. constructor; [apply decoded_name_cell; exact Hn|].
    constructor; [apply show_ok; exact Hx|]. constructor; [apply show_ok; exact Hy|constructor].
  Qed.
  Definition thread_ok (t : thread) : Prop :=
    cell_text (str_opt (t_description t)) /\ cell_text (str_opt (t_brand t)) /\ cell_text (str_opt (t_catalog t)) /\
    cell_text (str_opt (t_details t)) /\ cell_text (str_opt (t_weight t)).
  Lemma thread_rows_cells l : Forall thread_ok l -> forall i, 0 <= i -> i + zlen l < 2 ^ 64 -> Forall cells (thread_rows i l).
  Proof.
    induction 1 as [|t r (H1 & H2 & H3 & H4 & H5) _ IH]; intros i Hi Hl; cbn [thread_rows]; [constructor|].
    unfold zlen in *. cbn [List.length] in Hl. constructor; [|apply IH; lia].
    unfold thread_cells, cells. constructor; [const_cell|]. constructor; [apply str_cell; lia|].
    constructor; [apply hex_color_cell|]. repeat (constructor; [assumption|]). constructor.
  Qed.
  Lemma all_rows_cells v extents p :
    Forall cell_text extents -> zlen (c_stitches p) < 2 ^ 64 -> zlen (c_threads p) < 2 ^ 64 ->
    Forall (fun s => ok (sx s) /\ ok (sy s) /\ named s) (c_stitches p) ->
    Forall thread_ok (c_threads p) -> Forall (fun '(k, w) => cell_text k /\ cell_text w) (c_extras p) ->
    Forall cells (all_rows v extents p).
  Proof.
    intros He Ls Lt Hs Ht Hm. assert (E0 : Forall cells [[]]) by (constructor; constructor).
    unfold all_rows. apply Forall_app; split; [apply data_rows_ok; assumption|].
    apply Forall_app; split; [|apply Forall_app; split].
    - unfold meta_rows. destruct (c_extras p) as [|e r]; [constructor|].
      constructor; [repeat (constructor; [const_cell|]); constructor|]. apply Forall_app; split; [|exact E0].
      apply Forall_map. eapply Forall_impl; [|exact Hm]. intros [k w] [Hk Hw].
      constructor; [const_cell|]. constructor; [exact Hk|]. constructor; [exact Hw|constructor].
    - unfold thread_section. destruct (c_threads p) as [|t r]; [constructor|].
      constructor; [repeat (constructor; [const_cell|]); constructor|]. apply Forall_app; split; [|exact E0].
      apply thread_rows_cells; [exact Ht|lia|lia].
    - unfold stitch_section. destruct (c_stitches p) as [|s r]; [constructor|].
      constructor; [destruct v; repeat (constructor; [const_cell|]); constructor|].
      apply stitch_rows_cells; try assumption; lia.
  Qed.

  Theorem csv_round_trip v extents p :
    Forall cell_text extents -> zlen (c_stitches p) < 2 ^ 64 -> zlen (c_threads p) < 2 ^ 64 ->
    Forall (fun s => ok (sx s) /\ ok (sy s) /\ named s) (c_stitches p) ->
    Forall thread_ok (c_threads p) -> Forall (fun '(k, w) => cell_text k /\ cell_text w) (c_extras p) ->
    NoDup (map fst (c_extras p)) ->
    exists file, csv_write zero minus show show_distance show_angle v extents p = Ok file /\
      csv_read zero float_of other file
      = Ok (mkLd (map same_command (c_stitches p)) (map from_csv (c_threads p)) (c_extras p)).
  Proof.
    intros He Ls Lt Hs Ht Hm Nd. pose proof (all_rows_cells v extents p He Ls Lt Hs Ht Hm) as Hc.
    destruct (rows_round_trip _ Hc) as (file & E & t & D & R). exists file. rewrite csv_write_rows.
    split; [exact E|]. unfold csv_read. rewrite D, R. unfold all_rows. rewrite !map_app.
    rewrite read_all_skipped by (apply data_rows_ok; assumption).
    rewrite meta_rows_read by exact Nd. rewrite thread_section_read. apply stitch_section_read. exact Hs.
  Qed.
End file.

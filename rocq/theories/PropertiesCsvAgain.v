(** C208: saving a loaded CSV file. *)
From Coq Require Import Ascii String ZArith List Bool Lia.
From Verif Require Import PyBase EmbConst BitLemmas FunctionsModel ThreadModel ThreadProofs Utf8Model Utf8Proofs TextModel TextProofs
  NameModel PatternModel ColorFileModel CsvModel CsvFileProofs CsvMetaProofs CsvAgainModel PropertiesCsv.
Import ListNotations.
Open Scope Z_scope.

(** ** Everything the reader keeps is storable, but for quotes and NUL characters *)
Definition field_char (c : Z) : Prop := scalar c /\ c <> 13.
Definition field_ok (t : text) : Prop := Forall field_char t /\ zlen t <= 131072.
Lemma decode_scalar : forall f t, bytes_ok f -> utf8_decode f = Some t -> Forall scalar t.
Proof.
  assert (G : forall n f t, (List.length f <= n)%nat -> bytes_ok f -> utf8_decode f = Some t -> Forall scalar t).
  { induction n as [|n IH]; intros f t L B E; [destruct f; [injection E as <-; constructor|cbn in L; lia]|].
    destruct f as [|b0 r0]; [injection E as <-; constructor|]. unfold bytes_ok in *. apply Forall_cons_iff in B as [B0 B].
    assert (O : forall c r, scalar c -> (List.length r <= n)%nat -> Forall byte_ok r -> ocons c (utf8_decode r) = Some t -> Forall scalar t).
    { intros c r Hc Hl Hb Ho. destruct (utf8_decode r) as [u|] eqn:Eu; cbn [ocons] in Ho; [|discriminate]. injection Ho as <-. constructor; [exact Hc|]. eapply IH; eassumption. }
    cbn [utf8_decode] in E. unfold byte_ok in B0. cbn in L. destruct (Z.ltb_spec b0 0x80) as [H0|H0].
    { eapply O; [|  |exact B|exact E]; [unfold scalar; lia|lia]. }
    destruct (Z.ltb_spec b0 0xC0); [discriminate|]. destruct r0 as [|b1 r1]; [discriminate|]. apply Forall_cons_iff in B as [B1 B]. cbn in L.
    unfold cont in E. destruct (negb _) eqn:C1 in E; [discriminate|]. apply negb_false_iff in C1. apply andb_true_iff in C1. rewrite ?Z.leb_le, ?Z.ltb_lt in C1.
    destruct (Z.ltb_spec b0 0xE0).
    { destruct (Z.ltb_spec ((b0 - 0xC0) * 64 + (b1 - 0x80)) 0x80); [discriminate|]. eapply O; [| |exact B|exact E]; [unfold scalar; lia|lia]. }
    destruct r1 as [|b2 r2]; [discriminate|]. apply Forall_cons_iff in B as [B2 B]. cbn in L.
    destruct (negb _) eqn:C2 in E; [discriminate|]. apply negb_false_iff in C2. apply andb_true_iff in C2. rewrite ?Z.leb_le, ?Z.ltb_lt in C2.
    destruct (Z.ltb_spec b0 0xF0).
    { destruct (_ || _) eqn:D in E; [discriminate|]. apply orb_false_iff in D as [D1 D2]. unfold surrogate in D2. apply Z.ltb_ge in D1.
      eapply O; [| |exact B|exact E]; [|lia]. unfold scalar. apply andb_false_iff in D2. rewrite ?Z.leb_gt, ?Z.ltb_ge in D2. lia. }
    destruct r2 as [|b3 r3]; [discriminate|]. apply Forall_cons_iff in B as [B3 B]. cbn in L.
    destruct (_ || _) eqn:D in E; [discriminate|]. apply orb_false_iff in D as [C3 D]. apply negb_false_iff in C3. apply andb_true_iff in C3. rewrite ?Z.leb_le, ?Z.ltb_lt in C3.
    destruct (_ || _) eqn:D' in E; [discriminate|]. apply orb_false_iff in D' as [D1 D2]. apply Z.ltb_ge in D1, D2.
    eapply O; [| |exact B|exact E]; [unfold scalar; lia|lia]. }
  intros f t. apply (G (List.length f)). lia.
Qed.
Lemma newlines_ok : forall t, Forall scalar t -> Forall field_char (universal_newlines t).
Proof.
  assert (G : forall n t, (List.length t <= n)%nat -> Forall scalar t -> Forall field_char (universal_newlines t)).
  { assert (F10 : field_char 10) by (unfold field_char, scalar; lia).
    induction n as [|n IH]; intros t L H; [destruct t; [constructor|cbn in L; lia]|]. destruct t as [|c r]; [constructor|]. cbn in L.
    apply Forall_cons_iff in H as [Hc H]. cbn [universal_newlines]. destruct (Z.eqb_spec c 13) as [->|N].
    - destruct r as [|d r']; [constructor; [exact F10|constructor]|]. destruct (d =? 10); constructor; try exact F10; apply IH; try (cbn in L; cbn; lia); try exact H.
      apply Forall_cons_iff in H. tauto.
    - constructor; [split; assumption|]. apply IH; [lia|exact H]. }
  intros t. apply (G (List.length t)). lia.
Qed.
Lemma field_snoc f c : field_char c -> field_ok f -> field_limit <=? zlen f = false -> field_ok (f ++ [c]).
Proof.
  intros Hc [H1 H2] L. apply Z.leb_gt in L. unfold field_limit in L. split; [apply Forall_app; split; [exact H1|constructor; [exact Hc|constructor]]|].
  unfold zlen in *. rewrite app_length. cbn. lia.
Qed.
Lemma rows_ok : forall t st field row, Forall field_char t -> field_ok field -> Forall field_ok row ->
  forall r, In (Ok r) (csv_rows st field row t) -> Forall field_ok r.
Proof.
  assert (F0 : field_ok []) by (split; [constructor|cbn; lia]).
  assert (S : forall f row, field_ok f -> Forall field_ok row -> Forall field_ok (save f row)).
  { intros f row Hf Hr. unfold save. apply Forall_app. split; [exact Hr|constructor; [exact Hf|constructor]]. }
  induction t as [|c t IH]; intros st field row Ht Hf Hr r; cbn [csv_rows].
  - destruct st; cbn [In]; intros [E|[]] || intros []; injection E as <-; apply S; assumption.
  - apply Forall_cons_iff in Ht as [Hc Ht].
    assert (F1 : field_ok [c]) by (split; [constructor; [exact Hc|constructor]|cbn; lia]).
    assert (E : forall r, In (Ok r) (csv_rows StartRecord [] [] t) -> Forall field_ok r) by (intros r0; apply IH; auto).
    destruct st.
    + destruct (c =? 10); [intros [[= <-]|H]; [constructor|apply E; exact H]|]. destruct (c =? 34); [apply IH; auto|]. destruct (c =? 44); apply IH; auto.
    + destruct (c =? 10); [intros [[= <-]|H]; [apply S; assumption|apply E; exact H]|]. destruct (c =? 34); [apply IH; auto|]. destruct (c =? 44); apply IH; auto.
    + destruct (c =? 10); [intros [[= <-]|H]; [apply S; assumption|apply E; exact H]|]. destruct (c =? 44); [apply IH; auto|].
      destruct (field_limit <=? zlen field) eqn:L; [intros [[=]|[]]|]. apply IH; auto. apply field_snoc; assumption.
    + destruct (c =? 34); [apply IH; auto|]. destruct (field_limit <=? zlen field) eqn:L; [intros [[=]|[]]|]. apply IH; auto. apply field_snoc; assumption.
    + destruct (c =? 10); [intros [[= <-]|H]; [apply S; assumption|apply E; exact H]|]. destruct (c =? 44); [apply IH; auto|].
      destruct (field_limit <=? zlen field) eqn:L; [intros [[=]|[]]|]. apply IH; auto. apply field_snoc; assumption.
Qed.

Section again.
Context {C : Type} (zero : C) (minus : C -> C -> C) (show : C -> text) (float_of : text -> res C).
Context (show_distance show_angle : C -> C -> text) (other : text -> Z) (extents : list (stitch C) -> list text).
Notation loading := (@loading C).
Definition opt_ok (t : option text) : Prop := match t with Some t => field_ok t | None => True end.
(** What a loaded pattern looks like. *)
Definition as_loaded (out : loading) : Prop :=
  Forall (fun l => opt_ok (l_description l) /\ opt_ok (l_catalog l) /\ opt_ok (l_brand l) /\ l_details l = None /\ l_weight l = None) (d_threads out) /\
  Forall (fun '(k, w) => field_ok k /\ field_ok w) (d_extras out) /\ NoDup (map fst (d_extras out)).
Lemma cell_ok n row : Forall field_ok row -> opt_ok (cell n row).
Proof. intros H. unfold cell. destruct (nth_error row n) as [t|] eqn:E; [|exact I]. cbn. rewrite Forall_forall in H. apply H. eapply nth_error_In. exact E. Qed.
Lemma set_ok k w d : field_ok k -> field_ok w -> Forall (fun '(k, w) => field_ok k /\ field_ok w) d -> Forall (fun '(k, w) => field_ok k /\ field_ok w) (dict_set k w d).
Proof.
  intros Hk Hw. induction d as [|[a b] d IH]; intros H; cbn [dict_set]; [constructor; [auto|constructor]|]. apply Forall_cons_iff in H as [H1 H].
  destruct (text_eqb a k); constructor; try tauto.
Qed.
Lemma read_row_ok row out out' : Forall field_ok row -> as_loaded out -> read_row zero float_of other row out = Ok out' -> as_loaded out'.
Proof.
  intros Hr (A1 & A2 & A3) E. unfold read_row in E. destruct row as [|mark cells]; [injection E as <-; split; [|split]; assumption|].
  destruct (has_char 42 mark).
  { unfold read_stitch_row in E. repeat match type of E with bindr ?x _ = _ => destruct x; cbn [bindr] in E; [|discriminate] end.
    injection E as <-. split; [|split]; assumption. }
  destruct (has_char 35 mark); [injection E as <-; split; [|split]; assumption|]. destruct (has_char 64 mark).
  { destruct cells as [|k [|w [|x r]]]; injection E as <-; try (split; [|split]; assumption).
    apply Forall_cons_iff in Hr as [_ Hr]. apply Forall_cons_iff in Hr as [H1 Hr]. apply Forall_cons_iff in Hr as [H2 _].
    split; [exact A1|]. cbn [d_extras]. split; [apply set_ok; assumption|]. apply set_in. exact A3. }
  destruct (has_char 36 mark); [|injection E as <-; split; [|split]; assumption].
  unfold read_thread_row in E. match type of E with bindr ?x _ = _ => destruct x as [l|] eqn:El; cbn [bindr] in E; [|discriminate] end. injection E as <-.
  split; [|split; assumption]. cbn [d_threads]. apply Forall_app. split; [exact A1|]. constructor; [|constructor].
  assert (G : forall color, (do color <- color; Ok (mkL color (cell 3 (mark :: cells)) (cell 5 (mark :: cells)) None (cell 4 (mark :: cells)) None None)) = Ok l ->
    opt_ok (l_description l) /\ opt_ok (l_catalog l) /\ opt_ok (l_brand l) /\ l_details l = None /\ l_weight l = None).
  { intros [color|] Hl; [|discriminate]. cbn [bindr] in Hl. injection Hl as <-. cbn [l_description l_catalog l_brand l_details l_weight]. split; [exact (cell_ok 3 _ Hr)|]. split; [exact (cell_ok 5 _ Hr)|]. split; [exact (cell_ok 4 _ Hr)|]. split; reflexivity. }
  destruct cells as [|c1 [|c2 [|c3 [|c4 [|c5 [|c6 [|c7 r]]]]]]]; try (eapply G; exact El).
  destruct ((zlen c2 <=? 3) && (zlen c3 <=? 3) && (zlen c4 <=? 3)); [|eapply G; exact El].
  repeat match type of El with bindr ?x _ = _ => destruct x; cbn [bindr] in El; [|discriminate] end. injection El as <-.
  cbn [l_description l_catalog l_brand l_details l_weight opt_ok].
  rewrite Forall_forall in Hr. split; [apply Hr; cbn; tauto|]. split; [apply Hr; cbn; tauto|]. auto.
Qed.
Lemma csv_read_ok file out : bytes_ok file -> csv_read zero float_of other file = Ok out -> as_loaded out.
Proof.
  intros B E. unfold csv_read in E. destruct (utf8_decode file) as [t|] eqn:D; [|discriminate].
  assert (F0 : field_ok []) by (split; [constructor|cbn; lia]).
  pose proof (rows_ok _ StartRecord [] [] (newlines_ok _ (decode_scalar _ _ B D)) F0 (Forall_nil _)) as R.
  assert (A : as_loaded (mkLd [] [] [])) by (split; [constructor|split; constructor]).
  revert E R A. generalize (csv_rows StartRecord [] [] (universal_newlines t)), (@mkLd C [] [] []). intros rows. clear B D.
  induction rows as [|row rows IH]; intros o E R A; cbn [read_rows] in E; [injection E as <-; exact A|].
  destruct row as [row|]; cbn [bindr] in E; [|discriminate]. destruct (read_row zero float_of other row o) as [o'|] eqn:Er; cbn [bindr] in E; [|discriminate].
  eapply IH; [exact E| |].
  - intros r Hr. apply R. right. exact Hr.
  - eapply read_row_ok; [|exact A|exact Er]. apply R. left. reflexivity.
Qed.

(** ** The fixed point *)
(** No text of the pattern has a quote or a NUL character, every thread has a colour, every command has a name
    and thread, needle and order numbers that fit. *)
Definition unquoted (t : text) : Prop := ~ In 34 t /\ ~ In 0 t.
Definition unquoted_opt (t : option text) : Prop := match t with Some t => unquoted t | None => True end.
Definition ordinary (out : loading) : Prop :=
  Forall (fun '(k, w) => unquoted k /\ unquoted w) (d_extras out) /\
  Forall (fun l => l_color l <> None /\ unquoted_opt (l_description l) /\ unquoted_opt (l_catalog l) /\ unquoted_opt (l_brand l)) (d_threads out) /\
  Forall (fun s => 0 <= scmd s < 2 ^ 32 /\ In (scmd s mod 256) named_commands) (d_stitches out).
Lemma unquoted_text t : field_ok t -> unquoted t -> csv_text t.
Proof.
  intros [H L] [Q N]. split; [|exact L]. rewrite Forall_forall in *. intros c Hc. destruct (H c Hc) as [Sc R]. unfold scalar in Sc.
  assert (c <> 34) by (intros ->; contradiction). assert (c <> 0) by (intros ->; contradiction). lia.
Qed.
Lemma unquoted_opt_text t : opt_ok t -> unquoted_opt t -> csv_opt t.
Proof. destruct t; cbn; [apply unquoted_text|auto]. Qed.
(** The second loading: the same stitches and metadata; the threads have the same colours, and the texts they are
    printed with. *)
Definition shown (l : loaded) : loaded :=
  mkL (option_map (fun c => c mod 2 ^ 24) (l_color l)) (or_none (l_description l)) (or_none (l_catalog l)) None (or_none (l_brand l)) None None.
Lemma hex_mod c : hex_color (c mod 16777216) = hex_color c.
Proof.
  rewrite <- land_ffffff. unfold hex_color, get_red, get_green, get_blue. do 2 f_equal; [|f_equal]; f_equal.
  - rewrite Z.shiftr_land. rewrite <- Z.land_assoc. reflexivity.
  - rewrite Z.shiftr_land. rewrite <- Z.land_assoc. reflexivity.
  - rewrite <- Z.land_assoc. reflexivity.
Qed.
Lemma writable l : Forall (fun l => l_color l <> None) l -> exists ts, writable_threads l = Ok ts /\
  map (fun t => mkL (Some (t_color t)) (t_description t) (t_catalog t) (t_details t) (t_brand t) (t_chart t) (t_weight t)) ts = l.
Proof.
  induction l as [|a l IH]; intros H; [exists []; split; reflexivity|]. apply Forall_cons_iff in H as [Ha H]. destruct (IH H) as (ts & E & M).
  cbn [writable_threads]. unfold writable_thread. destruct a as [[c|] d k e b h w]; cbn [l_color] in *; [|contradiction]. cbn [bindr]. rewrite E. cbn [bindr].
  eexists. split; [reflexivity|]. cbn [map t_color t_description t_catalog t_details t_brand t_chart t_weight l_description l_catalog l_details l_brand l_chart l_weight]. rewrite M. reflexivity.
Qed.
Theorem C208_csv_settles (ok : C -> Prop) v file out :
  (forall x, ok x -> csv_text (show x) /\ float_of (show x) = Ok x) ->
  (forall v x y x0 y0, ok x -> ok y -> ok x0 -> ok y0 -> Forall csv_text (more_columns show show_distance show_angle v (minus x x0) (minus y y0))) ->
  (forall l, Forall (fun s => ok (sx s) /\ ok (sy s)) l -> Forall csv_text (extents l)) -> ok zero ->
  bytes_ok file -> csv_read zero float_of other file = Ok out -> ordinary out ->
  Forall (fun s => ok (sx s) /\ ok (sy s)) (d_stitches out) -> zlen (d_stitches out) < 2 ^ 64 -> zlen (d_threads out) < 2 ^ 64 ->
  exists file1, csv_again zero minus show float_of show_distance show_angle other extents v file = Ok file1 /\
    csv_read zero float_of other file1 = Ok (mkLd (d_stitches out) (map shown (d_threads out)) (d_extras out)) /\
    forall n, csv_agains zero minus show float_of show_distance show_angle other extents v n file1 = Ok file1.
Proof.
  intros Hshow Hmore Hext Hz B E (O1 & O2 & O3) Hok Ls Lt. destruct (csv_read_ok _ _ B E) as (A1 & A2 & A3).
  destruct (writable (d_threads out)) as (ts & W & M); [eapply Forall_impl; [|exact O2]; cbn; tauto|].
  set (p := mkC (d_stitches out) ts (d_extras out)).
  assert (Ts : Forall csv_thread (c_threads p) /\ Forall (fun t => t_details t = None /\ t_weight t = None) ts).
  { cbn [c_threads p]. rewrite <- M in A1, O2. rewrite Forall_map in A1, O2. cbn [l_color l_description l_catalog l_brand l_details l_weight] in A1, O2.
    split; rewrite Forall_forall in *; intros t Ht; specialize (A1 t Ht); specialize (O2 t Ht); destruct A1 as (X1 & X2 & X3 & X4 & X5), O2 as (Y0 & Y1 & Y2 & Y3); [|auto].
    unfold csv_thread. rewrite X4, X5. split; [apply unquoted_opt_text; assumption|]. split; [apply unquoted_opt_text; assumption|].
    split; [apply unquoted_opt_text; assumption|]. cbn. auto. }
  destruct Ts as [Ts Tn].
  destruct (C66_csv_round_trip zero minus show float_of show_distance show_angle other ok v (extents (d_stitches out)) p) as (file1 & W1 & R1); try assumption.
  - apply Hext. exact Hok.
  - cbn [c_threads p]. rewrite <- M in Lt. unfold zlen in *. rewrite map_length in Lt. exact Lt.
  - cbn [c_stitches p]. rewrite Forall_forall in *. intros s Hs. destruct (Hok s Hs), (O3 s Hs). auto.
  - cbn [c_extras p]. rewrite Forall_forall in *. intros [k w] Hkw. specialize (A2 _ Hkw). specialize (O1 _ Hkw). cbn beta iota in A2, O1.
    split; apply unquoted_text; tauto.
  - assert (S1 : csv_again zero minus show float_of show_distance show_angle other extents v file = Ok file1).
    { unfold csv_again, csv_store. rewrite E. cbn [bindr]. rewrite W. cbn [bindr]. exact W1. }
    assert (S2 : csv_read zero float_of other file1 = Ok (mkLd (d_stitches out) (map shown (d_threads out)) (d_extras out))).
    { rewrite R1. cbn [c_stitches c_threads c_extras p]. do 2 f_equal. rewrite <- M, map_map. apply map_ext. intros t. reflexivity. }
    assert (S3 : csv_again zero minus show float_of show_distance show_angle other extents v file1 = Ok file1).
    { unfold csv_again. rewrite S2. cbn [bindr]. unfold csv_store. cbn [d_stitches d_threads d_extras].
      assert (W2 : writable_threads (map shown (d_threads out)) = Ok (map (fun t => mkT (t_color t mod 2 ^ 24) (or_none (t_description t)) (or_none (t_catalog t)) None (or_none (t_brand t)) None None) ts)).
      { rewrite <- M, map_map. clear. induction ts as [|t ts IH]; [reflexivity|]. cbn [map writable_threads]. rewrite IH. reflexivity. }
      rewrite W2. cbn [bindr]. rewrite <- W1. unfold csv_write. cbn [c_stitches c_threads c_extras p]. do 3 f_equal.
      assert (G : forall i, csv_thread_rows i (map (fun t => mkT (t_color t mod 2 ^ 24) (or_none (t_description t)) (or_none (t_catalog t)) None (or_none (t_brand t)) None None) ts) = csv_thread_rows i ts).
      { clear - Tn. induction ts as [|t ts IH]; intros i; [reflexivity|]. apply Forall_cons_iff in Tn as [[T1 T2] Tn]. cbn [map csv_thread_rows]. rewrite (IH Tn).
        cbn [t_color t_description t_catalog t_brand t_details t_weight]. rewrite T1, T2. change (2 ^ 24) with 16777216. rewrite hex_mod. reflexivity. }
      f_equal. unfold csv_threads. destruct ts as [|t ts']; [reflexivity|]. cbn [map]. cbn [map] in G. rewrite G. reflexivity. }
    exists file1. split; [exact S1|]. split; [exact S2|]. induction n as [|n IH]; [reflexivity|]. cbn [csv_agains]. rewrite S3. exact IH.
Qed.
End again.
Print Assumptions C208_csv_settles.

(** A quote in a name: the first save changes the name, the second loses it together with the entry after it. *)
Definition c208_read := csv_read 0 int_of_text (fun _ => 0).
Definition c208_agains := csv_agains 0 Z.sub str_of_int int_of_text (fun dx dy => str_of_int (Z.sqrt (dx * dx + dy * dy))) (fun _ _ => text_of "0.5")
  (fun _ => 0) (fun _ => map str_of_int [0; 0; 0; 0; 0; 0]).
Definition c208_quote : list Z :=
  text_of "@,name," ++ [34] ++ text_of "a" ++ [34; 34] ++ text_of "b" ++ [34; 10] ++ text_of "@,author,me" ++ [10] ++ text_of "*,0,STITCH,1,2" ++ [10].
Theorem C208_quote_refuted : exists out0 out1 out2,
  c208_read c208_quote = Ok out0 /\ bindr (c208_agains Plain 1 c208_quote) c208_read = Ok out1 /\ bindr (c208_agains Plain 2 c208_quote) c208_read = Ok out2 /\
  d_extras out0 = [(text_of "name", [97; 34; 98]); (text_of "author", text_of "me")] /\
  d_extras out1 = [(text_of "name", [97; 98; 34]); (text_of "author", text_of "me")] /\ d_extras out2 = [].
Proof. do 3 eexists. repeat (split; [vm_compute; reflexivity|]). vm_compute. reflexivity. Qed.
Print Assumptions C208_quote_refuted.

(** A file as another program writes it: cells without quotes, a line end of Windows, a short thread row, an entry
    given twice. *)
Definition c208_file : list Z :=
  text_of "@,name,first" ++ [13; 10] ++ text_of "@,name,last" ++ [13; 10] ++ text_of "$,1,255,128,0,Orange,77" ++ [10] ++ text_of "$,2,#0f0" ++ [10]
  ++ text_of "*,0,STITCH,1,2" ++ [10] ++ text_of "*,1,NEEDLE_SET n7,5,-2" ++ [10] ++ text_of "*,2,END" ++ [10].
Example C208_case : exists out, c208_read c208_file = Ok out /\ bytes_ok c208_file /\ ordinary out /\
  map (fun s => (sx s, sy s, scmd s)) (d_stitches out) = [(1, 2, STITCH); (5, -2, encode_thread_change NEEDLE_SET None (Some 7) None); (0, 0, END)] /\
  map l_color (d_threads out) = [Some 0xFF8000; Some 0x00FF00] /\ map l_description (d_threads out) = [Some (text_of "Orange"); None] /\
  exists file1, c208_agains Full 1 c208_file = Ok file1 /\ file1 <> c208_file /\ c208_agains Full 1 file1 = Ok file1.
Proof.
  eexists. split; [vm_compute; reflexivity|]. split; [|split; [|split; [|split; [|split]]]].
  - unfold bytes_ok, byte_ok. apply Forall_forall. intros b Hb. assert (G : forallb (fun b => (0 <=? b) && (b <? 256)) c208_file = true) by (vm_compute; reflexivity).
    rewrite forallb_forall in G. specialize (G b Hb). apply andb_true_iff in G as [G1 G2]. apply Z.leb_le in G1. apply Z.ltb_lt in G2. lia.
  - unfold ordinary. cbn [d_extras d_threads d_stitches]. split; [|split].
    + constructor; [|constructor]. unfold unquoted. cbn. intuition discriminate.
    + constructor; [|constructor; [|constructor]]; cbn; unfold unquoted; cbn; intuition discriminate.
    + constructor; [|constructor; [|constructor; [|constructor]]]; (split; [cbn; lia|]); vm_compute; intuition.
  - vm_compute. reflexivity.
  - vm_compute. reflexivity.
  - vm_compute. reflexivity.
  - eexists. split; [vm_compute; reflexivity|]. split; [discriminate|vm_compute; reflexivity].
Qed.

(** Properties C136 to C145: files by name, failed saves, conversion, and the versions of PES files. *)
From Coq Require Import Ascii String ZArith QArith Qabs List Bool Lia Lqa.
From Verif Require Import PyBase EmbConst PatternModel StreamModel StreamSpec NumModel NumQ MatrixModel EncoderModel EncoderSpec MetricSpec
  QuantModel ThreadModel Utf8Model TextModel DstModel DstFileModel DstFileSpec DstWholeProofs FidelitySpec
  PecModel PecFileModel PecFileSpec PesModel PecFileProofs PesSpec PesProofs PropertiesThread PropertiesPes Vp3Model ValueModel FilesModel FilesSpec FilesProofs PropertiesPipeline PropertiesFidelity.
Import ListNotations.
Open Scope Z_scope.

Section Generic.
Context {P S : Type}.
Variables (empty : P) (reader : string -> S -> list Z -> P -> P * option exn)
  (writer : string -> S -> P -> P * list Z * option exn) (encodes : string -> S -> bool) (complete : string -> S -> S)
  (normalize : S -> P -> res P) (openable : text -> bool).
Notation read := (static_read empty reader).
Notation write := (static_write writer encodes complete normalize openable).
Notation change := (convert empty reader writer encodes complete normalize openable).

(** ** C136: the extension of the name decides the format *)
(** What a reader makes of the file. *)
Definition loaded_by (m : string) (set : S) (b : list Z) (p : P) : read_result :=
  match reader m set b p with (q, None) => Loaded q | (q, Some e) => Failed q (Raised e) end.
Definition given (pattern : option P) : P := match pattern with Some p => p | None => empty end.
(** What is saved as [b] under [name], the rest of the files as they were. *)
Definition only_changes (fs fs' : files) (name : text) (b : list Z) : Prop :=
  fs' name = Some b /\ forall n, n <> name -> fs' n = fs n.
Theorem C136_read_by_name : forall fs name f set pattern, In f supported_formats -> names_format name f ->
  (f_reader f = None -> read fs name set pattern = NoPattern) /\
  (forall m, f_reader f = Some m -> fs name = None -> read fs name set pattern = Failed (given pattern) IOError) /\
  (forall m b, f_reader f = Some m -> fs name = Some b -> read fs name set pattern = loaded_by m set b (given pattern)).
Proof.
  intros fs name f set pattern I H. destruct (found_both name f I H) as [E _].
  unfold static_read, read_embroidery. rewrite E. split; [intros ->; reflexivity|]. split.
  - intros m -> ->. reflexivity.
  - intros m b -> ->. unfold loaded_by, given. destruct (reader m set b _) as [q [e|]]; reflexivity.
Qed.
Theorem C136_write_by_name : forall fs p name f set, In f supported_formats -> names_format name f ->
  (f_writer f = None -> write fs p name set = (fs, p, Some IOError)) /\
  (forall m q q' b, f_writer f = Some m -> encodes m set = true -> normalize (complete m set) p = Ok q ->
     openable name = true -> writer m (complete m set) q = (q', b, None) ->
     exists fs', write fs p name set = (fs', p, None) /\ only_changes fs fs' name b) /\
  (forall m q' b, f_writer f = Some m -> encodes m set = false ->
     openable name = true -> writer m set p = (q', b, None) ->
     exists fs', write fs p name set = (fs', q', None) /\ only_changes fs fs' name b).
Proof.
  intros fs p name f set I H. destruct (found_both name f I H) as [_ E].
  assert (O : forall b, only_changes fs (with_file name b fs) name b).
  { intros b. split; unfold with_file; [rewrite text_eqb_same; reflexivity|]. intros n Hn. rewrite (text_eqb_other n name Hn). reflexivity. }
  unfold static_write, write_embroidery. rewrite E. split; [intros ->; reflexivity|]. split.
  - intros m q q' b -> -> -> -> ->. eexists. split; [reflexivity|apply O].
  - intros m q' b -> -> -> ->. eexists. split; [reflexivity|apply O].
Qed.
Theorem C136_other_names : forall fs name set, (forall f, In f supported_formats -> ~ names_format name f) ->
  (forall pattern, read fs name set pattern = NoPattern) /\ (forall p, write fs p name set = (fs, p, Some IOError)).
Proof.
  intros fs name set H. destruct (found_none name H) as [E1 E2]. unfold static_read, static_write. rewrite E1, E2. split; reflexivity.
Qed.
(** A name means at most one format. *)
Theorem C136_one_format : forall name f g, In f supported_formats -> In g supported_formats ->
  names_format name f -> names_format name g -> f = g.
Proof.
  intros name f g If Ig Hf Hg. destruct (found_both name f If Hf) as [E _]. destruct (found_both name g Ig Hg) as [E' _]. congruence.
Qed.

(** The format named is read and written by its own modules. *)
Theorem C136_own_modules : forall f, In f supported_formats ->
  (forall m, f_reader f = Some m -> m = module_name (f_extension f) "Reader") /\
  (forall m, f_writer f = Some m -> m = module_name (f_extension f) "Writer").
Proof.
  set (own := fun f => match f_reader f with Some m => String.eqb m (module_name (f_extension f) "Reader") | None => true end &&
    match f_writer f with Some m => String.eqb m (module_name (f_extension f) "Writer") | None => true end).
  assert (A : forallb own supported_formats = true) by (vm_compute; reflexivity).
  intros f I. rewrite forallb_forall in A. specialize (A f I). unfold own in A. apply andb_true_iff in A. destruct A as [A1 A2].
  split; intros m E; [rewrite E in A1; apply String.eqb_eq in A1; exact A1|rewrite E in A2; apply String.eqb_eq in A2; exact A2].
Qed.

(** ** C138: what a save leaves alone *)
Theorem C138_save_touches_one_file : forall fs p name set fs' p' err, write fs p name set = (fs', p', err) ->
  (forall n, n <> name -> fs' n = fs n) /\
  (err = Some IOError -> fs' = fs /\ p' = p) /\
  (forall f m, In f supported_formats -> names_format name f -> f_writer f = Some m -> encodes m set = true ->
     p' = p /\ forall e, normalize (complete m set) p = Err e -> fs' = fs /\ err = Some (Raised e)).
Proof.
  intros fs p name set fs' p' err H.
  assert (G : forall n b, n <> name -> with_file name b fs n = fs n)
    by (intros n b Hn; unfold with_file; rewrite (text_eqb_other n name Hn); reflexivity).
  unfold static_write in H.
  destruct (last_format (lower (get_extension_by_filename name)) supported_formats) as [g|] eqn:E.
  2:{ inversion H; subst. split; [reflexivity|]. split; [intros _; split; reflexivity|].
      intros f m I N W _. destruct (found_both name f I N) as [_ E']. congruence. }
  destruct (f_writer g) as [k|] eqn:W.
  2:{ inversion H; subst. split; [reflexivity|]. split; [intros _; split; reflexivity|].
      intros f m I N W' _. destruct (found_both name f I N) as [_ E']. congruence. }
  unfold write_embroidery in H.
  assert (K : forall f m, In f supported_formats -> names_format name f -> f_writer f = Some m -> m = k)
    by (intros f m I N W'; destruct (found_both name f I N) as [_ E']; congruence).
  destruct (encodes k set) eqn:En.
  - destruct (normalize (complete k set) p) as [q|e] eqn:No.
    + destruct (openable name); cbn [negb] in H.
      * destruct (writer k (complete k set) q) as [[q' b] e] eqn:Wr. inversion H; subst.
        split; [intros n Hn; apply G; exact Hn|]. split; [destruct e; discriminate|].
        intros f m I N W' _. rewrite (K f m I N W'). split; [reflexivity|]. intros e'. congruence.
      * inversion H; subst. split; [reflexivity|]. split; [intros _; split; reflexivity|].
        intros f m I N W' _. rewrite (K f m I N W'). split; [reflexivity|]. intros e'. congruence.
    + inversion H; subst. split; [reflexivity|]. split; [discriminate|].
      intros f m I N W' _. rewrite (K f m I N W'). split; [reflexivity|]. intros e'. intros Q. split; [reflexivity|]. congruence.
  - destruct (openable name); cbn [negb] in H.
    + destruct (writer k set p) as [[q' b] e] eqn:Wr. inversion H; subst.
      split; [intros n Hn; apply G; exact Hn|]. split; [destruct e; discriminate|].
      intros f m I N W' En'. rewrite (K f m I N W') in En'. congruence.
    + inversion H; subst. split; [reflexivity|]. split; [intros _; split; reflexivity|].
      intros f m I N W' En'. rewrite (K f m I N W') in En'. congruence.
Qed.

(** ** C140: conversion *)
(** Where it succeeds, the target is what the target's writer makes, encoded or not, of what the source's
    reader makes of the source -- also when both names are the same --, and no other file changes. *)
Theorem C140_convert : forall fs from to f g set fs', In f supported_formats -> names_format from f ->
  In g supported_formats -> names_format to g -> f_reader f <> None ->
  change fs from to set = (fs', None) ->
  exists mr mw content p q q' b, f_reader f = Some mr /\ f_writer g = Some mw /\ fs from = Some content /\
    reader mr set content empty = (p, None) /\
    (if encodes mw set then normalize (complete mw set) p = Ok q /\ writer mw (complete mw set) q = (q', b, None)
     else q = p /\ writer mw set q = (q', b, None)) /\
    only_changes fs fs' to b.
Proof.
  intros fs from to f g set fs' If Hf Ig Hg Hr H. unfold convert in H.
  destruct (C136_read_by_name fs from f set None If Hf) as (_ & R1 & R2).
  destruct (f_reader f) as [mr|]; [|congruence]. clear Hr.
  destruct (fs from) as [content|] eqn:Ef; [|rewrite (R1 mr eq_refl eq_refl) in H; discriminate].
  rewrite (R2 mr content eq_refl eq_refl) in H. unfold loaded_by, given in H.
  destruct (reader mr set content empty) as [p [e|]] eqn:Er; [discriminate|].
  destruct (write fs p to set) as [[fs1 p1] e1] eqn:Ew. inversion H; subst fs1 e1.
  destruct (found_both to g Ig Hg) as [_ E]. unfold static_write in Ew. rewrite E in Ew.
  destruct (f_writer g) as [mw|]; [|discriminate]. unfold write_embroidery in Ew.
  assert (O : forall b, only_changes fs (with_file to b fs) to b).
  { intros b. split; unfold with_file; [rewrite text_eqb_same; reflexivity|]. intros n Hn. rewrite (text_eqb_other n to Hn). reflexivity. }
  destruct (encodes mw set) eqn:En.
  - destruct (normalize (complete mw set) p) as [q|e] eqn:No; [|discriminate].
    destruct (openable to); cbn [negb] in Ew; [|discriminate].
    destruct (writer mw (complete mw set) q) as [[q' b] [e|]] eqn:Wr; [discriminate|]. injection Ew as <- _.
    exists mr, mw, content, p, q, q', b. rewrite En. repeat (split; [reflexivity || assumption || (split; assumption)|]). apply O.
  - destruct (openable to); cbn [negb] in Ew; [|discriminate].
    destruct (writer mw set p) as [[q' b] [e|]] eqn:Wr; [discriminate|]. injection Ew as <- _.
    exists mr, mw, content, p, p, q', b. rewrite En. repeat (split; [reflexivity || assumption || (split; [reflexivity|assumption])|]). apply O.
Qed.
(** A conversion that raises leaves every file but the target alone, and the target too unless it was the
    target's writer that raised. *)
Theorem C140_convert_fails : forall fs from to set fs' e, change fs from to set = (fs', Some e) ->
  (forall n, n <> to -> fs' n = fs n) /\ (e = IOError -> fs' = fs).
Proof.
  intros fs from to set fs' e H. unfold convert in H. destruct (read fs from set None) as [|p|p e'].
  - discriminate.
  - destruct (write fs p to set) as [[fs1 p1] e1] eqn:Ew. inversion H; subst.
    destruct (C138_save_touches_one_file fs p to set _ _ _ Ew) as (H1 & H2 & _). split; [exact H1|].
    intros ->. destruct (H2 eq_refl) as [-> _]. reflexivity.
  - inversion H; subst. split; reflexivity.
Qed.

(** ** C145 for source formats with a reader: the target is written, or an exception raised. *)
Theorem C145_silent_partial : forall fs from to f g set fs' e, In f supported_formats -> names_format from f ->
  In g supported_formats -> names_format to g -> f_reader f <> None ->
  change fs from to set = (fs', e) -> e <> None \/ exists b, only_changes fs fs' to b.
Proof.
  intros fs from to f g set fs' [e|] If Hf Ig Hg Hr H; [left; discriminate|right].
  destruct (C140_convert fs from to f g set fs' If Hf Ig Hg Hr H) as (_ & _ & _ & _ & _ & _ & b & _ & _ & _ & _ & _ & O). exists b. exact O.
Qed.

(** ** C141: what was saved under a name is what is read under that name *)
Theorem C141_saved_and_read : forall fs p name f mr set set' fs' p' pattern, In f supported_formats -> names_format name f ->
  f_reader f = Some mr -> write fs p name set = (fs', p', None) ->
  exists mw q q' b, f_writer f = Some mw /\
    (if encodes mw set then normalize (complete mw set) p = Ok q /\ writer mw (complete mw set) q = (q', b, None)
     else q = p /\ writer mw set q = (q', b, None)) /\
    read fs' name set' pattern = loaded_by mr set' b (given pattern).
Proof.
  intros fs p name f mr set set' fs' p' pattern I H Hr Ew.
  destruct (C136_read_by_name fs' name f set' pattern I H) as (_ & _ & R).
  destruct (found_both name f I H) as [_ E]. unfold static_write in Ew. rewrite E in Ew.
  destruct (f_writer f) as [mw|]; [|discriminate]. unfold write_embroidery in Ew.
  destruct (encodes mw set) eqn:En.
  - destruct (normalize (complete mw set) p) as [q|e] eqn:No; [|discriminate].
    destruct (openable name); cbn [negb] in Ew; [|discriminate].
    destruct (writer mw (complete mw set) q) as [[q' b] [e|]] eqn:Wr; [discriminate|]. injection Ew as <- _.
    exists mw, q, q', b. rewrite En. repeat (split; [reflexivity || (split; assumption)|]).
    apply (R mr b Hr). unfold with_file. rewrite text_eqb_same. reflexivity.
  - destruct (openable name); cbn [negb] in Ew; [|discriminate].
    destruct (writer mw set p) as [[q' b] [e|]] eqn:Wr; [discriminate|]. injection Ew as <- _.
    exists mw, p, q', b. rewrite En. repeat (split; [reflexivity || (split; [reflexivity|assumption])|]).
    apply (R mr b Hr). unfold with_file. rewrite text_eqb_same. reflexivity.
Qed.
(** ** C139: what a failed save leaves behind *)
(** Every file as it was, or, if the writer raised, the bytes it had written until then under the name. *)
Theorem C139_failed_save_partial : forall fs p name set fs' p' err, write fs p name set = (fs', p', Some err) ->
  fs' = fs \/ exists m settings q q' b e, err = Raised e /\ writer m settings q = (q', b, Some e) /\ only_changes fs fs' name b.
Proof.
  intros fs p name set fs' p' err H. unfold static_write in H.
  destruct (last_format (lower (get_extension_by_filename name)) supported_formats) as [g|]; [|left; congruence].
  destruct (f_writer g) as [k|]; [|left; congruence]. unfold write_embroidery in H.
  destruct (if encodes k set then _ else _) as [[q settings]|e]; [|left; congruence].
  destruct (openable name); cbn [negb] in H; [|left; congruence].
  destruct (writer k settings q) as [[q' b] [e|]] eqn:Wr; [|discriminate]. right.
  exists k, settings, q, q', b, e. split; [congruence|]. split; [exact Wr|].
  assert (E : fs' = with_file name b fs) by congruence. subst fs'.
  split; unfold with_file; [rewrite text_eqb_same; reflexivity|]. intros n Hn. rewrite (text_eqb_other n name Hn). reflexivity.
Qed.
End Generic.
Print Assumptions C139_failed_save_partial.
Print Assumptions C136_read_by_name.
Print Assumptions C136_write_by_name.
Print Assumptions C136_other_names.
Print Assumptions C136_one_format.
Print Assumptions C136_own_modules.
Print Assumptions C138_save_touches_one_file.
Print Assumptions C140_convert.
Print Assumptions C140_convert_fails.
Print Assumptions C141_saved_and_read.

(** Names. *)
Definition dst_format : format := mkFormat "dst" ["dst"%string] (Some "DstReader"%string) (Some "DstWriter"%string).
Example C136_case : names_format (text_of "/home/a.b/Rose.final.DsT") dst_format /\ In dst_format supported_formats /\
  (forall f, In f supported_formats -> ~ names_format (text_of "designs.dst/rose") f) /\
  (forall f, In f supported_formats -> ~ names_format (text_of "designs/..dst") f).
Proof.
  split; [|split; [right; right; right; left; reflexivity|]].
  - exists (text_of "DsT"). split.
    + exists (text_of "/home/a.b/"), (text_of "Rose.final"). split; [reflexivity|]. split; [right; exists (text_of "/home/a.b"); reflexivity|].
      repeat split; try (intros K; cbn in K; repeat (destruct K as [K|K]; [discriminate K|]); exact K).
      exists 82. split; [left; reflexivity|discriminate].
    + unfold spells. vm_compute text_of. repeat (constructor; [unfold same_letter; lia|]). constructor.
  - split; intros f I (e & H1 & H2); apply extension_found in H1; vm_compute in H1; subst e;
      apply (table_nonempty f I); apply (spells_lower _ f I) in H2; exact H2.
Qed.

(** ** C137: the extensions that the formats list *)
Definition u01_format : format := mkFormat "u01" ["u00"; "u01"; "u02"]%string (Some "U01Reader"%string) (Some "U01Writer"%string).
Theorem C137_listed_extensions_refuted : forall P S (empty : P) reader (writer : string -> S -> P -> P * list Z * option exn)
    encodes complete normalize openable fs set p,
  In u01_format supported_formats /\ lists_extension (text_of "rose.u02") u01_format /\
  static_read empty reader fs (text_of "rose.u02") set None = NoPattern /\
  static_write writer encodes complete normalize openable fs p (text_of "rose.u02") set = (fs, p, Some IOError).
Proof.
  intros. split; [cbn; tauto|]. split; [|split; reflexivity].
  exists (text_of "u02"), "u02"%string. split; [|split; [cbn; tauto|apply lower_spells; reflexivity]].
  exists [], (text_of "rose"). split; [reflexivity|]. split; [left; reflexivity|].
  repeat split; try (intros K; cbn in K; repeat (destruct K as [K|K]; [discriminate K|]); exact K).
  exists 114. split; [left; reflexivity|discriminate].
Qed.
Print Assumptions C137_listed_extensions_refuted.
(** Six formats list extensions that are not recognised; for the others what they list is their extension. *)
Definition six : list string := ["svg"; "u01"; "exy"; "fxy"; "zxy"; "gcode"]%string.
Theorem C137_listed_extensions_partial : forall name f, In f supported_formats -> ~ In (f_extension f) six ->
  lists_extension name f -> names_format name f.
Proof.
  intros name f I N (e & s & H1 & H2 & H3).
  assert (K : forallb (fun f => existsb (String.eqb (f_extension f)) six
      || match f_extensions f with [s] => String.eqb s (f_extension f) | _ => false end) supported_formats = true) by (vm_compute; reflexivity).
  pose proof (proj1 (forallb_forall _ _) K f I) as Q. cbv beta in Q. apply orb_true_iff in Q. destruct Q as [Q|Q].
  - exfalso. apply N. apply existsb_exists in Q. destruct Q as (x & Q1 & Q2). apply String.eqb_eq in Q2. congruence.
  - destruct (f_extensions f) as [|x [|y r]]; try discriminate. apply String.eqb_eq in Q. destruct H2 as [<-|[]].
    exists e. split; [exact H1|]. rewrite <- Q. exact H3.
Qed.
Print Assumptions C137_listed_extensions_partial.

(** ** DST files by name *)
(** A pattern as far as DST files go: the texts of the header and the stitches; the settings of the encoder, or
    None for the setting encode=False. *)
Section Dst.
Variables (qcos qsin : Q -> Q) (qorient : Q -> Q -> Q -> Q -> Q -> Q * Q).
Notation N := (QNum qcos qsin qorient).
Record design := mkDesign { g_info : dst_info; g_stitches : list (stitch Q) }.
Definition dst_settings := option (settings N).
(** Any system whose DST writer and reader are those of DstFileModel.v, with the default settings of the file, and
    whose encoder is the one of EncoderModel.v. *)
Record dst_system := mkSystem {
  y_reader : string -> dst_settings -> list Z -> design -> design * option exn;
  y_writer : string -> dst_settings -> design -> design * list Z * option exn;
  y_openable : text -> bool;
  y_dst_reader : forall set b p, y_reader "DstReader" set b p
    = match dst_read 3 None true (S (List.length b)) b with
      | Ok (l, _) => (mkDesign (g_info p) (g_stitches p ++ l), None)
      | Err e => (p, Some e)
      end;
  y_dst_writer : forall set p, y_writer "DstWriter" set p
    = let '(b, e) := dst_stream false 3 (g_info p) (g_stitches p) in (p, b, e) }.
Definition y_encodes (m : string) (set : dst_settings) : bool := match set with Some _ => true | None => false end.
Definition y_normalize (set : dst_settings) (p : design) : res design :=
  match set with
  | Some set => do ' (out, _) <- transcode N set (EncoderModel.mkP N (g_stitches p) []); Ok (mkDesign (g_info p) out)
  | None => Ok p
  end.
Definition empty_design : design := mkDesign (mkInfo None None None []) [].
Notation read_dst y := (static_read empty_design (y_reader y)).
Notation write_dst y := (static_write (y_writer y) y_encodes (fun _ set => set) y_normalize (y_openable y)).

(** *** C141 for DST: saved and read by name *)
Hypothesis (Hturn : forall t, ~ (qcos t * qcos t + qsin t * qsin t == 0)%Q) (Hdir : direction_bounded qorient).
Theorem C141_dst_by_name : forall y fs (p : design) name (set : settings N) set',
  names_format name dst_format -> y_openable y name = true ->
  savable qcos qsin qorient 121 set (g_stitches p) -> info_ok false (g_info p) -> header_room false (g_info p) ->
  exists out threads, transcode N set (EncoderModel.mkP N (g_stitches p) []) = Ok (out, threads) /\
  (small out -> exists fs' b q points, write_dst y fs p name (Some set) = (fs', p, None) /\
     only_changes fs fs' name b /\
     read_dst y fs' name set' None = Loaded q /\
     needle_points (g_stitches q) = map exact_point points /\
     stitches_kept (g_stitches p) points /\
     (nothing_added qcos qsin qorient set (g_stitches p) -> stitches_exact (g_stitches p) points)).
Proof.
  intros y fs p name set set' Hn Ho Hv Hi Hr.
  destruct (C116_dst qcos qsin qorient Hturn Hdir false 3 (g_info p) set (EncoderModel.mkP N (g_stitches p) []) Hv Hi Hr) as (out & ths & E & K).
  exists out, ths. split; [exact E|]. intros Sm. destruct (K Sm) as (file & loaded & W & R).
  destruct (R 3 None true (S (List.length file)) ltac:(lia)) as (l & points & R1 & R2 & R3 & R4).
  assert (I : In dst_format supported_formats) by (right; right; right; left; reflexivity).
  pose proof (stream_write false 3 (g_info p) out) as Sw. rewrite W in Sw.
  destruct (C136_write_by_name (y_writer y) y_encodes (fun _ set => set) y_normalize (y_openable y) fs p name dst_format (Some set) I Hn)
    as (_ & Wr & _).
  destruct (Wr "DstWriter"%string (mkDesign (g_info p) out) (mkDesign (g_info p) out) file) as (fs' & Ew & Oc).
  - reflexivity.
  - reflexivity.
  - cbn [y_normalize]. rewrite E. reflexivity.
  - exact Ho.
  - rewrite y_dst_writer. cbn [g_info g_stitches]. change (F N) with Q in *. rewrite Sw. reflexivity.
  - exists fs', file, (mkDesign (g_info empty_design) l), points. split; [exact Ew|]. split; [exact Oc|]. split; [|split; [exact R2|split; assumption]].
    destruct (C136_read_by_name empty_design (y_reader y) fs' name dst_format set' None I Hn) as (_ & _ & Rd).
    rewrite (Rd "DstReader"%string file eq_refl (proj1 Oc)). unfold loaded_by, given. rewrite y_dst_reader, R1. reflexivity.
Qed.
End Dst.
Print Assumptions C141_dst_by_name.

(** *** C139: a save that fails *)
Definition wide : design := mkDesign (mkInfo None None None []) [mkS 10%Q 0%Q STITCH; mkS 500%Q 0%Q STITCH; mkS 0%Q 0%Q END].
Definition narrow : design := mkDesign (mkInfo None None None []) [mkS 10%Q 0%Q STITCH; mkS 20%Q 30%Q STITCH; mkS 25%Q 5%Q STITCH; mkS 0%Q 0%Q END].
Definition odd_name : design := mkDesign (mkInfo (Some [0xD800]) None None []) [mkS 10%Q 0%Q STITCH].
Definition rose : text := text_of "rose.dst".
Definition no_files : files := fun _ => None.
Definition plain_encoder : settings ExNum :=
  mkSettings ExNum None None None None None None None None None None None None None None None None.
Notation ExSystem := (dst_system ex_cos ex_sin ex_orient).
Notation write_ex y := (static_write (y_writer _ _ _ y) (y_encodes _ _ _) (fun _ set => set) (y_normalize _ _ _) (y_openable _ _ _ y)).
Notation read_ex y := (static_read empty_design (y_reader _ _ _ y)).

Definition the_system : ExSystem.
Proof.
  refine (mkSystem ex_cos ex_sin ex_orient
    (fun m set b p => match dst_read 3 None true (S (List.length b)) b with
                      | Ok (l, _) => (mkDesign (g_info p) (g_stitches p ++ l), None)
                      | Err e => (p, Some e)
                      end)
    (fun m set p => let '(b, e) := dst_stream false 3 (g_info p) (g_stitches p) in (p, b, e)) (fun _ => true) _ _); reflexivity.
Defined.

Lemma save_plain (y : ExSystem) fs p : y_openable _ _ _ y rose = true ->
  write_ex y fs p rose None = (with_file rose (fst (dst_stream false 3 (g_info p) (g_stitches p))) fs, p,
    match snd (dst_stream false 3 (g_info p) (g_stitches p)) with Some e => Some (Raised e) | None => None end).
Proof.
  intros H. unfold static_write. change (last_format _ _) with (Some dst_format). cbn [dst_format f_writer]. unfold write_embroidery.
  cbn [y_encodes]. rewrite H. cbn [negb]. rewrite y_dst_writer. destruct (dst_stream false 3 (g_info p) (g_stitches p)) as [b e]. reflexivity.
Qed.
Lemma save_encoded (y : ExSystem) fs p set out ths : y_openable _ _ _ y rose = true ->
  transcode ExNum set (EncoderModel.mkP ExNum (g_stitches p) []) = Ok (out, ths) ->
  write_ex y fs p rose (Some set) = (with_file rose (fst (dst_stream false 3 (g_info p) out)) fs, p,
    match snd (dst_stream false 3 (g_info p) out) with Some e => Some (Raised e) | None => None end).
Proof.
  intros H E. unfold static_write. change (last_format _ _) with (Some dst_format). cbn [dst_format f_writer]. unfold write_embroidery.
  cbn [y_encodes y_normalize]. change ExNum with (QNum ex_cos ex_sin ex_orient) in E. rewrite E. cbn [bindr]. rewrite H. cbn [negb]. rewrite y_dst_writer. cbn [g_info g_stitches].
  change (F _) with Q in *. destruct (dst_stream false 3 (g_info p) out) as [b e]. reflexivity.
Qed.
Lemma load_rose (y : ExSystem) fs b l h : fs rose = Some b -> dst_read 3 None true (S (List.length b)) b = Ok (l, h) ->
  read_ex y fs rose None None = Loaded (mkDesign (g_info empty_design) l).
Proof.
  intros H E. unfold static_read. change (find_format _ _) with (Some dst_format). cbn [dst_format f_reader]. unfold read_embroidery.
  rewrite H, y_dst_reader, E. reflexivity.
Qed.
(** A design of three stitches is saved and can be read.  A second save under the same name raises ValueError, and what
    is read under that name then is neither design: one stitch.  With encoding, a name that cannot be
    encoded leaves an empty file. *)
Definition narrow_file : list Z := fst (dst_stream false 3 (g_info narrow) (g_stitches narrow)).
Definition wide_file : list Z := fst (dst_stream false 3 (g_info wide) (g_stitches wide)).
Definition loaded_stitches (b : list Z) : list (stitch Q) :=
  match dst_read 3 None true (S (List.length b)) b with Ok (l, _) => l | Err _ => [] end.
Definition loaded_header (b : list Z) : dst_loaded :=
  match dst_read 3 None true (S (List.length b)) b with Ok (_, h) => h | Err _ => mkDL [] [] end.
Lemma ok_pair {A B} (r : res (A * B)) d e : is_ok r = true ->
  r = Ok (match r with Ok (a, _) => a | Err _ => d end, match r with Ok (_, b) => b | Err _ => e end).
Proof. destruct r as [[a b]|]; [reflexivity|discriminate]. Qed.
Lemma saved_here name b fs : with_file name b fs name = Some b.
Proof. unfold with_file. rewrite text_eqb_same. reflexivity. Qed.
Theorem C139_failed_save_refuted : forall y : ExSystem, y_openable _ _ _ y rose = true ->
  exists fs old fs' lost fs'',
    write_ex y no_files narrow rose None = (fs, narrow, None) /\
    read_ex y fs rose None None = Loaded old /\ needle_points (g_stitches old) = [(10%Q, 0%Q); (20%Q, 30%Q); (25%Q, 5%Q)] /\
    write_ex y fs wide rose None = (fs', wide, Some (Raised ValueError)) /\
    read_ex y fs' rose None None = Loaded lost /\ needle_points (g_stitches lost) = [(10%Q, 0%Q)] /\
    write_ex y fs odd_name rose (Some plain_encoder) = (fs'', odd_name, Some (Raised ValueError)) /\ fs'' rose = Some [].
Proof.
  intros y H.
  exists (with_file rose narrow_file no_files), (mkDesign (g_info empty_design) (loaded_stitches narrow_file)),
    (with_file rose wide_file (with_file rose narrow_file no_files)), (mkDesign (g_info empty_design) (loaded_stitches wide_file)),
    (with_file rose [] (with_file rose narrow_file no_files)).
  split; [|split; [|split; [|split; [|split; [|split; [|split]]]]]].
  - rewrite (save_plain y _ _ H). replace (snd (dst_stream false 3 (g_info narrow) (g_stitches narrow))) with (@None exn) by (vm_compute; reflexivity). reflexivity.
  - apply (load_rose y _ narrow_file _ (loaded_header narrow_file) (saved_here _ _ _)). apply ok_pair. vm_compute. reflexivity.
  - vm_compute. reflexivity.
  - rewrite (save_plain y _ _ H). replace (snd (dst_stream false 3 (g_info wide) (g_stitches wide))) with (Some ValueError) by (vm_compute; reflexivity). reflexivity.
  - apply (load_rose y _ wide_file _ (loaded_header wide_file) (saved_here _ _ _)). apply ok_pair. vm_compute. reflexivity.
  - vm_compute. reflexivity.
  - destruct (transcode ExNum plain_encoder (EncoderModel.mkP ExNum (g_stitches odd_name) [])) as [[out ths]|e] eqn:E; [|vm_compute in E; discriminate].
    rewrite (save_encoded y _ odd_name plain_encoder out ths H E). vm_compute in E. injection E as <- <-.
    replace (dst_stream false 3 (g_info odd_name) _) with (@nil Z, Some ValueError) by (vm_compute; reflexivity). reflexivity.
  - apply saved_here.
Qed.
Print Assumptions C139_failed_save_refuted.
(** Where encoding and header are in order, as in C141_dst_by_name, the save does not fail. *)

(** ** C145: a conversion that does nothing *)
Definition svg_format : format := mkFormat "svg" ["svg"; "svgz"]%string None (Some "SvgWriter"%string).
Theorem C145_silent_refuted : forall P S (empty : P) reader (writer : string -> S -> P -> P * list Z * option exn)
    encodes complete normalize openable fs set,
  In svg_format supported_formats /\ names_format (text_of "rose.svg") svg_format /\
  convert empty reader writer encodes complete normalize openable fs (text_of "rose.svg") rose set = (fs, None).
Proof.
  intros. split; [cbn; tauto|]. split; [|reflexivity].
  exists (text_of "svg"). split; [|apply lower_spells; reflexivity].
  exists [], (text_of "rose"). split; [reflexivity|]. split; [left; reflexivity|].
  repeat split; try (intros K; cbn in K; repeat (destruct K as [K|K]; [discriminate K|]); exact K).
  exists 114. split; [left; reflexivity|discriminate].
Qed.
Print Assumptions C145_silent_refuted.

(** ** C143: opening a design raises or gives its content *)
Theorem C143_open_refuted : forall P S (empty : P) (reader : string -> S -> list Z -> P -> P * option exn) set,
  (forall fs p, read_into empty reader fs p (text_of "rose.svg") set = (p, None)) /\
  (forall fs p, read_into empty reader fs p (text_of "rose.u02") set = (p, None)) /\
  open_pattern empty reader no_files (text_of "there-is-no-such-file") set = (empty, None).
Proof. intros. split; [|split]; reflexivity. Qed.
Print Assumptions C143_open_refuted.
(** Of a format that can be read it holds what the reader makes of the file, added to what was there, or raises. *)
Theorem C143_open_partial : forall P S (empty : P) (reader : string -> S -> list Z -> P -> P * option exn) fs p name f m set,
  In f supported_formats -> names_format name f -> f_reader f = Some m ->
  (fs name = None -> read_into empty reader fs p name set = (p, Some IOError)) /\
  (forall b q, fs name = Some b -> reader m set b p = (q, None) -> read_into empty reader fs p name set = (q, None)) /\
  (forall b q e, fs name = Some b -> reader m set b p = (q, Some e) -> read_into empty reader fs p name set = (q, Some (Raised e))).
Proof.
  intros P S empty reader fs p name f m set I H Hr.
  destruct (C136_read_by_name empty reader fs name f set (Some p) I H) as (_ & R1 & R2). unfold read_into.
  split; [|split].
  - intros E. rewrite (R1 m Hr E). reflexivity.
  - intros b q E K. rewrite (R2 m b Hr E). unfold loaded_by, given. rewrite K. reflexivity.
  - intros b q e E K. rewrite (R2 m b Hr E). unfold loaded_by, given. rewrite K. reflexivity.
Qed.
Print Assumptions C143_open_partial.

(** ** C142: the version of a PES file *)
(** The ways to ask for a version: a number or its text, alone or with t for a truncated file; under "version",
    or under "pes version" where there is no "version"; nothing for version 1. *)
Inductive asks : option version_value -> option version_value -> option bool -> Z -> bool -> Prop :=
| asks_nothing : forall truncated, asks None None truncated 10 (match truncated with Some b => b | None => false end)
| asks_old : forall v truncated n t, asks None (Some v) truncated n t -> asks (Some v) None truncated n t
| asks_number : forall old q truncated n, (q * 10 == inject_Z n)%Q -> n = 10 \/ n = 60 ->
    asks old (Some (VersionNumber q)) truncated n (match truncated with Some b => b | None => false end)
| asks_text : forall old s truncated n, In (s, n) [("1"%string, 10); ("6"%string, 60); ("1.0"%string, 10); ("6.0"%string, 60)] ->
    asks old (Some (VersionText (text_of s))) truncated n (match truncated with Some b => b | None => false end)
| asks_truncated : forall old s truncated n, In (s, n) [("1t"%string, 10); ("6t"%string, 60); ("1.0t"%string, 10); ("6.0t"%string, 60)] ->
    asks old (Some (VersionText (text_of s))) truncated n true.
Definition signature (n : Z) : text := if n =? 10 then text_of "#PES0001" else text_of "#PES0060".
Lemma tenths_asked q n : (q * 10 == inject_Z n)%Q -> n = 10 \/ n = 60 -> tenths q = n.
Proof.
  intros E H. unfold tenths. destruct H as [-> | ->].
  - replace (Qeq_bool q 1) with true; [reflexivity|]. symmetry. apply Qeq_bool_iff. change (inject_Z 10) with 10%Q in E. Lqa.lra.
  - replace (Qeq_bool q 1) with false.
    + replace (Qeq_bool q 6) with true; [reflexivity|]. symmetry. apply Qeq_bool_iff. change (inject_Z 60) with 60%Q in E. Lqa.lra.
    + symmetry. destruct (Qeq_bool q 1) eqn:K; [|reflexivity]. apply Qeq_bool_iff in K. change (inject_Z 60) with 60%Q in E. Lqa.lra.
Qed.
Lemma asked old new truncated n t : asks old new truncated n t ->
  exists q, pes_choice old new truncated = Ok (q, t) /\ tenths q = n.
Proof.
  induction 1 as [truncated|v truncated n t H IH|old q truncated n E H|old s truncated n H|old s truncated n H].
  - exists 1%Q. split; reflexivity.
  - destruct IH as (q & E & T). exists q. split; [|exact T]. rewrite <- E. reflexivity.
  - exists q. split; [reflexivity|]. apply tenths_asked; assumption.
  - cbn [In] in H. destruct H as [H|[H|[H|[H|[]]]]]; injection H as <- <-; eexists; (split; [vm_compute; reflexivity|reflexivity]).
  - cbn [In] in H. destruct H as [H|[H|[H|[H|[]]]]]; injection H as <- <-; eexists; (split; [vm_compute; reflexivity|reflexivity]).
Qed.
Theorem C142_version : forall f32 filler order old new truncated n t md l threads, asks old new truncated n t ->
  pes_write_settings f32 filler order old new truncated md l threads = pes_write f32 filler order n t md l threads /\
  forall file, pes_write_settings f32 filler order old new truncated md l threads = Ok file -> firstn 8 file = signature n.
Proof.
  intros f32 filler order old new truncated n t md l threads H. destruct (asked _ _ _ _ _ H) as (q & E & T).
  assert (K : pes_write_settings f32 filler order old new truncated md l threads = pes_write f32 filler order n t md l threads)
    by (unfold pes_write_settings; rewrite E; cbn [bindr]; rewrite T; reflexivity).
  split; [exact K|]. rewrite K. assert (N : n = 10 \/ n = 60).
  { clear - H. induction H as [| | | old s truncated n H | old s truncated n H]; auto; cbn [In] in H;
      destruct H as [H|[H|[H|[H|[]]]]]; injection H as <- <-; auto. }
  intros file W. unfold pes_write in W. destruct (pec_prepare filler l threads) as [l' th'].
  destruct N as [-> | ->]; cbn [Z.eqb Pos.eqb] in W; destruct t.
  - unfold write_truncated_version_1 in W. destruct (write_pec _ _ _ _ _) as [[[pec a] b]|]; cbn [bindr] in W; [|discriminate]. injection W as <-. reflexivity.
  - unfold write_version_1 in W. destruct (match box_of l' with None => _ | Some e => _ end) as [m|]; cbn [bindr] in W; [|discriminate].
    destruct (write_pec _ _ _ _ _) as [[[pec a] b]|]; cbn [bindr] in W; [|discriminate]. injection W as <-. reflexivity.
  - unfold write_truncated_version_6 in W. destruct (write_pes_header_v6 _ _ _ _) as [m|]; cbn [bindr] in W; [|discriminate].
    destruct (write_pec _ _ _ _ _) as [[[pec a] b]|]; cbn [bindr] in W; [|discriminate]. injection W as <-. reflexivity.
  - unfold write_version_6 in W. cbv zeta in W. destruct (match box_of l' with None => _ | Some e => _ end) as [m|]; cbn [bindr] in W; [|discriminate].
    destruct (write_pec _ _ _ _ _) as [[[pec a] b]|]; cbn [bindr] in W; [|discriminate]. injection W as <-. reflexivity.
Qed.
Print Assumptions C142_version.
(** ** C144: any other version is accepted, and an empty file is written that cannot be read. *)
Theorem C144_pes_readable_refuted : forall f32 filler order md l threads,
  pes_write_settings f32 filler order None (Some (VersionNumber 5)) None md l threads = Ok [] /\
  pes_read [] = Err TypeError.
Proof.
  intros. split; [|vm_compute; reflexivity]. unfold pes_write_settings, pes_choice. cbn [bindr]. change (tenths 5) with 0.
  unfold pes_write. destruct (pec_prepare filler l threads). reflexivity.
Qed.
Print Assumptions C144_pes_readable_refuted.
(** For the versions that exist it holds, asked for in any way, for designs as in C72 and C73. *)
Theorem C144_pes_readable_partial : forall f32 filler order old new truncated n t md l threads,
  asks old new truncated n t -> (forall v, zlen (f32 v) = 4) -> set_order order ->
  Forall (fun c => 0 <= c < 128) (label_of (md (text_of "name"))) ->
  Forall (fun key => ascii_text (md (text_of key))) ["name"; "category"; "author"; "keywords"; "comments"]%string ->
  Forall ascii_thread threads -> pec_pattern l -> pec_room l threads -> neighbours colours_differ threads ->
  exists file, pes_write_settings f32 filler order old new truncated md l threads = Ok file /\
    (zlen file < 2 ^ 32 -> exists ths meta, pes_read file = Ok (pec_kept l, ths, meta) /\ List.length ths = List.length threads).
Proof.
  intros f32 filler order old new truncated n t md l threads A H1 H2 H3 H4 H5 H6 H7 H8.
  rewrite (proj1 (C142_version f32 filler order old new truncated n t md l threads A)).
  assert (Nn : n = 10 \/ n = 60).
  { clear - A. induction A as [| | | old s truncated n H | old s truncated n H]; auto; cbn [In] in H;
      destruct H as [H|[H|[H|[H|[]]]]]; injection H as <- <-; auto. }
  destruct Nn as [-> | ->].
  - destruct (C72_pes_version_1 f32 filler order t md l threads H2 H3 H6 H7 H8) as (file & pal & W & _ & R). exists file. split; [exact W|].
    intros L. destruct (R L) as (pictures & E). do 2 eexists. split; [exact E|]. apply map_length.
  - destruct (C73_pes_version_6 f32 filler order t md l threads H1 H2 H3 H4 H5 H6 H7) as (file & W & R).
    + intros a x y b E. specialize (H8 a x y b E). left. intros K. apply H8. unfold rgb. clear - K.
      assert (X : t_color x / 65536 mod 256 = t_color y / 65536 mod 256 /\ t_color x / 256 mod 256 = t_color y / 256 mod 256 /\
        t_color x mod 256 = t_color y mod 256) by (change (2 ^ 24) with 16777216 in *; Z.div_mod_to_equations; lia).
      destruct X as (-> & -> & ->). reflexivity.
    + exists file. split; [exact W|]. intros L. destruct (R L) as (meta & E & _). do 2 eexists. split; [exact E|]. apply map_length.
Qed.
Print Assumptions C144_pes_readable_partial.
Example C142_case : asks (Some VersionOther) (Some (VersionText (text_of "6t"))) (Some false) 60 true /\
  asks (Some (VersionNumber 6)) None (Some true) 60 true.
Proof.
  split; [apply (asks_truncated _ "6t"); right; left; reflexivity|].
  apply asks_old. apply (asks_number None 6 (Some true)); [reflexivity|right; reflexivity].
Qed.

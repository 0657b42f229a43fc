(** C227: several files read into one pattern. *)
From Coq Require Import ZArith QArith List Bool Lia.
From Verif Require Import PyBase EmbConst ThreadModel StreamModel StreamSpec StreamProofs NumModel NumQ MatrixModel EncoderModel EncoderSpec PropertiesEncoder ExpModel U01Model ConvertProofs ReadIntoModel.
Import ListNotations.
Open Scope Z_scope.

(** * Specification *)
Definition shifted (x y : Z) (l : list (stitch Z)) : list (stitch Z) := map (fun s => mkS (x + sx s) (y + sy s) (scmd s)) l.
(** The designs one after the other, each from where the one before ended. *)
Fixpoint chained (x y : Z) (designs : list (list (stitch Z))) : list (stitch Z) :=
  match designs with
  | [] => []
  | d :: r => let e := last d (mkS 0 0 END) in shifted x y d ++ chained (x + sx e) (y + sy e) r
  end.
Definition on_q (s : stitch Z) : stitch Q := mkS (inject_Z (sx s)) (inject_Z (sy s)) (scmd s).

(** * Proofs *)
Lemma into_apply l : forall p, r_stitches (calls_into p l) = r_stitches p ++ apply_rel (r_x p) (r_y p) l.
Proof.
  induction l as [|e l IH]; intros p; cbn [calls_into apply_rel]; [rewrite app_nil_r; reflexivity|].
  rewrite IH. cbn [r_stitches r_x r_y]. rewrite <- app_assoc. reflexivity.
Qed.
Lemma apply_shift l : forall x y, apply_rel x y l = shifted x y (apply_rel 0 0 l).
Proof.
  assert (G : forall m u v x y, apply_rel (x + u) (y + v) m = shifted x y (apply_rel u v m)).
  { induction m as [|e r IH]; intros u v x y; cbn [apply_rel shifted map sx sy scmd]; [reflexivity|].
    fold (shifted x y (apply_rel (u + sx e) (v + sy e) r)). rewrite <- IH. rewrite !Z.add_assoc. reflexivity. }
  intros x y. rewrite <- (G l 0 0 x y), !Z.add_0_r. reflexivity.
Qed.
Lemma into_position l : forall p, l <> [] ->
  let e := last (apply_rel 0 0 l) (mkS 0 0 END) in
  r_x (calls_into p l) = r_x p + sx e /\ r_y (calls_into p l) = r_y p + sy e.
Proof.
  assert (G : forall m p d, m <> [] -> let e := last (apply_rel (r_x p) (r_y p) m) d in r_x (calls_into p m) = sx e /\ r_y (calls_into p m) = sy e).
  { induction m as [|a r IH]; intros p d H; [congruence|]. destruct r as [|b r]; [split; reflexivity|].
    change (calls_into p (a :: b :: r)) with (calls_into (mkRP (r_stitches p ++ [mkS (r_x p + sx a) (r_y p + sy a) (scmd a)]) (r_x p + sx a) (r_y p + sy a)) (b :: r)).
    change (apply_rel (r_x p) (r_y p) (a :: b :: r)) with (mkS (r_x p + sx a) (r_y p + sy a) (scmd a) :: apply_rel (r_x p + sx a) (r_y p + sy a) (b :: r)).
    specialize (IH (mkRP (r_stitches p ++ [mkS (r_x p + sx a) (r_y p + sy a) (scmd a)]) (r_x p + sx a) (r_y p + sy a)) d ltac:(discriminate)).
    cbn [r_x r_y] in IH. exact IH. }
  intros p H. cbv zeta.
  assert (L : forall m d, m <> [] -> last (shifted (r_x p) (r_y p) m) d = mkS (r_x p + sx (last m (mkS 0 0 END))) (r_y p + sy (last m (mkS 0 0 END))) (scmd (last m (mkS 0 0 END)))).
  { induction m as [|a m IH]; intros d Hm; [congruence|]. destruct m as [|b m]; [reflexivity|]. exact (IH d ltac:(discriminate)). }
  destruct (G l p (mkS 0 0 END) H) as [A B]. rewrite apply_shift, L in A, B by (destruct l; [congruence|discriminate]). cbn [sx sy] in A, B. split; assumption.
Qed.
Lemma alone f : read_alone f = apply_rel 0 0 (file_calls f).
Proof. unfold read_alone, read_into. rewrite into_apply. reflexivity. Qed.
Lemma calls_nonempty f : file_calls f <> [].
Proof. destruct f; cbn [file_calls]; intros H; apply app_eq_nil in H as [_ H]; discriminate. Qed.

(** Whatever is in the pattern stays, and the designs of the files follow in order: each is the design the
    file holds, moved to begin where the one before ended. *)
Theorem C227_appended_partial : forall p fs,
  r_stitches (read_all_into p fs) = r_stitches p ++ chained (r_x p) (r_y p) (map read_alone fs).
Proof.
  intros p fs. revert p. induction fs as [|f fs IH]; intros p; cbn [read_all_into fold_left map chained]; [rewrite app_nil_r; reflexivity|].
  unfold read_all_into in IH. rewrite IH. destruct (into_position (file_calls f) p (calls_nonempty f)) as [A B].
  unfold read_into. rewrite into_apply, A, B, apply_shift, alone. rewrite <- app_assoc. reflexivity.
Qed.

(** ** What is sewn of them *)
Lemma until_first l e r : Forall (fun a => is_cmd END a = false) l -> is_cmd END e = true -> @until_end Q (l ++ e :: r) = l.
Proof.
  intros F E. induction F as [|a l Ha F IH]; cbn [app until_end]; [rewrite E; reflexivity|]. rewrite Ha, IH. reflexivity.
Qed.
Lemma exp_design bytes rest : exists body e, exp_read bytes = body ++ [e] /\ is_cmd END (on_q e) = true /\
  Forall (fun a => In (scmd a) [STITCH; JUMP; TRIM; COLOR_CHANGE]) body /\ until_end (map on_q (exp_read bytes) ++ rest) = map on_q body.
Proof.
  destruct (applied (exp_read_loop bytes) 0 0 (exp_records _ bytes (le_n _))) as (body & e & E & He & Hb). exists body, e.
  unfold exp_read. rewrite E. split; [reflexivity|]. assert (En : is_cmd END (on_q e) = true) by (unfold is_cmd; cbn [on_q scmd]; rewrite He; reflexivity).
  split; [exact En|]. split; [exact Hb|]. rewrite map_app, <- app_assoc. cbn [map app]. apply until_first; [|exact En].
  apply Forall_map. eapply Forall_impl; [|exact Hb]. intros a Ha. unfold is_cmd. cbn [on_q scmd].
  unfold plain_record in Ha. cbn [In] in Ha. destruct Ha as [<- | [<- | [<- | [<- | []]]]]; reflexivity.
Qed.
(** A pattern that starts with an EXP file and had more files read into it: however many follow, the encoded
    pattern has the stitches of the first only. *)
Theorem C227_only_first_sewn : forall bytes fs set ths o oths, plain_settings set ->
  transcode ExNum set (mkP ExNum (map on_q (r_stitches (read_all_into empty_pattern (ExpFile bytes :: fs)))) ths) = Ok (o, oths) ->
  Forall2 (fun a q => sewn_at set a = Ok q) (filter sews_src (map on_q (exp_read bytes))) (needle_points o).
Proof.
  intros bytes fs set ths o oths Hs E.
  assert (A : exists rest, r_stitches (read_all_into empty_pattern (ExpFile bytes :: fs)) = exp_read bytes ++ rest).
  { rewrite C227_appended_partial. cbn [map chained empty_pattern r_stitches r_x r_y app]. eexists. f_equal.
    rewrite alone. cbn [file_calls]. unfold exp_read. symmetry. apply apply_shift. }
  destruct A as [rest A]. rewrite A, map_app in E.
  destruct (exp_design bytes (map on_q rest)) as (body & e & D & En & Hb & U).
  pose proof (C24_no_other_penetrations ExNum set _ o oths E Hs) as P. cbn [EncoderModel.p_stitches] in P.
  change (F ExNum) with Q in P. rewrite U in P.
  assert (X : filter sews_src (map on_q (exp_read bytes)) = filter sews_src (map on_q body)).
  { rewrite D, map_app, filter_app. cbn [map filter]. replace (sews_src (on_q e)) with false; [apply app_nil_r|].
    unfold is_cmd in En. apply Z.eqb_eq in En. unfold sews_src, is_cmd. rewrite En. reflexivity. }
  rewrite X. apply P. apply Forall_map. eapply Forall_impl; [|exact Hb]. intros a Ha. cbn [In] in Ha. unfold has_command, is_cmd. cbn [on_q scmd].
  destruct Ha as [<- | [<- | [<- | [<- | []]]]]; vm_compute; reflexivity.
Qed.

(** So the second file is neither at its own position nor sewn. *)
Definition first_file : machine_file := ExpFile [10; 0; 10; 0].
Definition second_file : machine_file := ExpFile [3; 0; 0; 3].
Theorem C227_refuted : exists o oths,
  read_alone second_file = [mkS 3 0 STITCH; mkS 3 (-3) STITCH; mkS 3 (-3) END] /\
  r_stitches (read_all_into empty_pattern [first_file; second_file])
  = [mkS 10 0 STITCH; mkS 20 0 STITCH; mkS 20 0 END; mkS 23 0 STITCH; mkS 23 (-3) STITCH; mkS 23 (-3) END] /\
  transcode ExNum no_settings (mkP ExNum (map on_q (r_stitches (read_all_into empty_pattern [first_file; second_file]))) []) = Ok (o, oths) /\
  length (needle_points o) = 2%nat.
Proof. do 2 eexists. split; [vm_compute; reflexivity|]. split; [vm_compute; reflexivity|]. split; [vm_compute; reflexivity|]. vm_compute. reflexivity. Qed.
Example C227_case : plain_settings no_settings /\
  r_stitches (read_all_into (mkRP [mkS 5 5 STITCH] 5 5) [U01File (repeat 0 0x100 ++ [0x80; 2; 1; 0x80; 3; 4]); ExpFile [1; 1]])
  = [mkS 5 5 STITCH; mkS 6 3 STITCH; mkS 10 0 STITCH; mkS 10 0 END; mkS 11 (-1) STITCH; mkS 11 (-1) END].
Proof. split; [repeat split; left; reflexivity|vm_compute; reflexivity]. Qed.
Print Assumptions C227_appended_partial.
Print Assumptions C227_only_first_sewn.
Print Assumptions C227_refuted.

(** What readers make of files: designs of stitches, jumps, trims and colour changes. *)
From Coq Require Import ZArith QArith List Bool Lia.
From Verif Require Import PyBase EmbConst StreamModel PatternModel PatternSpec TrimProofs TrimKeepProofs DstModel DstFileModel DstAnyProofs ExpModel JefModel
  JefFileModel PecModel EncoderColorSpec EncoderSpec BlockFileProofs ConvertSpec.
Import ListNotations.
Open Scope Z_scope.

Definition plain_record (a : rel) : Prop := In (scmd a) [STITCH; JUMP; TRIM; COLOR_CHANGE].

Lemma applied : forall l x y, Forall plain_record l ->
  exists body e, apply_rel x y (l ++ [mkS 0 0 END]) = body ++ [e] /\ scmd e = END /\ Forall plain_record body.
Proof.
  induction l as [|a l IH]; intros x y H; cbn [app apply_rel sx sy scmd].
  - exists [], (mkS (x + 0) (y + 0) END). split; [reflexivity|]. split; [reflexivity|constructor].
  - apply Forall_cons_iff in H. destruct H as [Ha H]. destruct (IH (x + sx a) (y + sy a) H) as (body & e & E & He & Hb).
    rewrite E. eexists (_ :: body), e. split; [reflexivity|]. split; [exact He|]. constructor; [exact Ha|exact Hb].
Qed.
Lemma whole_int : forall z, whole (inject_Z z).
Proof. intros z. exists z. reflexivity. Qed.
Lemma raw_design : forall l, Forall plain_record l -> file_design (map of_int (apply_rel 0 0 (l ++ [mkS 0 0 END]))).
Proof.
  intros l H. destruct (applied l 0 0 H) as (body & e & -> & He & Hb). exists (map of_int body), (of_int e). rewrite map_app.
  split; [reflexivity|]. split; [exact He|]. apply Forall_map. eapply Forall_impl; [|exact Hb]. intros a Ha. split; [exact Ha|].
  split; apply whole_int.
Qed.

(** EXP: any bytes. *)
Lemma exp_records : forall n s, (List.length s <= n)%nat -> Forall plain_record (exp_read_loop s).
Proof.
  assert (P : forall x y c, In c [STITCH; JUMP; TRIM; COLOR_CHANGE] -> plain_record (mkS x y c)) by (intros; assumption).
  induction n as [|n IH]; intros s L; [destruct s; [constructor|cbn in L; lia]|].
  destruct s as [|b0 [|b1 r]]; [constructor|constructor|]. cbn [exp_read_loop]. cbn [List.length] in L.
  destruct (negb (b0 =? 128)); [constructor; [apply P; cbn; auto|apply IH; lia]|].
  destruct r as [|c0 [|c1 r]]; [constructor|constructor|]. cbn [List.length] in L.
  repeat match goal with |- context [if ?b then _ else _] => destruct b end;
    repeat (apply Forall_cons; [apply P; cbn; auto|]); first [apply IH; lia|constructor].
Qed.
Lemma pec_records : forall n s, (List.length s <= n)%nat -> Forall plain_record (pec_read_loop s).
Proof.
  assert (P : forall j t x y, Forall plain_record (pec_calls j t x y)).
  { intros [|] [|] x y; unfold pec_calls; repeat (apply Forall_cons; [unfold plain_record; cbn; auto|]); apply Forall_nil. }
  induction n as [|n IH]; intros s L; [destruct s; [constructor|cbn in L; lia]|].
  destruct s as [|b0 [|b1 r]]; [constructor|constructor|]. cbn [pec_read_loop]. cbn [List.length] in L.
  destruct (_ && _); [constructor|]. destruct (_ && _).
  { constructor; [unfold plain_record; cbn; auto|]. destruct r; [constructor|]. apply IH. cbn [List.length] in L. lia. }
  destruct (flagged b0 FLAG_LONG).
  - destruct r as [|v r]; [constructor|]. cbn [List.length] in L. destruct (flagged v FLAG_LONG).
    + destruct r as [|w r]; [constructor|]. cbn [List.length] in L. apply Forall_app. split; [apply P|apply IH; lia].
    + apply Forall_app. split; [apply P|apply IH; lia].
  - destruct (flagged b1 FLAG_LONG).
    + destruct r as [|w r]; [constructor|]. cbn [List.length] in L. apply Forall_app. split; [apply P|apply IH; lia].
    + apply Forall_app. split; [apply P|apply IH; lia].
Qed.

(** DST, without sequin records. *)
Lemma dst_records : forall n s, (List.length s <= n)%nat -> Forall (fun a => scmd a <> SEQUIN_MODE) (dst_read_loop false s) ->
  Forall plain_record (dst_read_loop false s).
Proof.
  induction n as [|n IH]; intros s L H; [destruct s; [constructor|cbn in L; lia]|].
  destruct s as [|b0 [|b1 [|b2 r]]]; [constructor|constructor|constructor|]. cbn [dst_read_loop] in *. cbn [List.length] in L.
  destruct (dst_kind false b2) as [c|] eqn:Ek; [|constructor]. apply Forall_cons_iff in H. destruct H as [Hc H]. cbn [scmd] in Hc.
  apply Z.eqb_neq in Hc. rewrite Hc in *. constructor; [|apply IH; [lia|exact H]].
  unfold dst_kind in Ek. unfold plain_record. cbn [scmd].
  destruct (_ =? 243); [discriminate|]. destruct (_ =? 195); [injection Ek as <-; cbn; auto|].
  destruct (_ =? 67); [injection Ek as <-; discriminate Hc|]. destruct (_ =? 131); injection Ek as <-; cbn; auto.
Qed.

(** JEF, without stops. *)
Lemma jef_records : forall T n s (threads : list (option T)) i l th, (List.length s <= n)%nat ->
  jef_read_loop threads i s = Ok (l, th) -> (List.length l <= List.length s)%nat /\
  (Forall (fun a => scmd a <> STOP) l -> Forall plain_record l).
Proof.
  intros T. induction n as [|n IH]; intros s threads i l th L E.
  { destruct s; [|cbn in L; lia]. injection E as <- <-. split; [cbn; lia|constructor]. }
  destruct s as [|b0 [|b1 r]]; try (injection E as <- <-; split; [cbn; lia|constructor]).
  cbn [jef_read_loop] in E. cbn [List.length] in L |- *.
  assert (R : forall r' a threads' i', (List.length r' <= List.length r)%nat -> (plain_record a \/ scmd a = STOP) ->
     (do '(t, u) <- jef_read_loop threads' i' r'; Ok (a :: t, u)) = Ok (l, th) ->
     (List.length l <= S (S (List.length r)))%nat /\ (Forall (fun a => scmd a <> STOP) l -> Forall plain_record l)).
  { intros r' a threads' i' Lr Ha X. destruct (jef_read_loop threads' i' r') as [[t u]|] eqn:Et; [|discriminate]. cbn [bindr] in X.
    injection X as <- <-. destruct (IH r' threads' i' t u ltac:(lia) Et) as [I1 I2]. split; [cbn [List.length]; lia|].
    intros H. apply Forall_cons_iff in H. destruct H as [H1 H2]. constructor; [|apply I2; exact H2]. destruct Ha as [Ha|Ha]; [exact Ha|congruence]. }
  destruct (negb (b0 =? 128)); [eapply R; [|left|exact E]; [lia|cbn; auto]|].
  destruct r as [|c0 [|c1 r]]; try (injection E as <- <-; split; [cbn; lia|constructor]).
  cbn [List.length] in R.
  destruct (b1 =? 2); [eapply R; [|left|exact E]; [lia|cbn; auto]|].
  destruct (b1 =? 1); [|injection E as <- <-; split; [cbn; lia|constructor]].
  destruct (nth_error threads i) as [[t|]|]; [|eapply R; [|right|exact E]; [lia|reflexivity]|discriminate].
  eapply R; [|left|exact E]; [lia|cbn; auto].
Qed.

(** The trim interpolation. *)
Definition plain_stitch (a : stitch Q) : Prop := In (scmd a) [STITCH; JUMP; TRIM; COLOR_CHANGE] /\ whole (sx a) /\ whole (sy a).
Definition tidy (l : list (stitch Q)) : Prop := exists body e, l = body ++ [e] /\ scmd e = END /\ Forall plain_stitch body.
Lemma whole_plus : forall u, whole u -> whole (u + 0)%Q.
Proof. intros u [z Hz]. exists z. rewrite Qplus_0_r. exact Hz. Qed.
Lemma forall_firstn : forall A (P : A -> Prop) n l, Forall P l -> Forall P (firstn n l).
Proof. intros A P n l H. revert n. induction H; intros [|n]; cbn [firstn]; constructor; auto. Qed.
Lemma forall_skipn : forall A (P : A -> Prop) n l, Forall P l -> Forall P (skipn n l).
Proof. intros A P n l H. revert n. induction H; intros [|n]; cbn [skipn]; try constructor; auto. Qed.

Lemma trim_at_tidy : forall pos body e l', Forall plain_stitch body -> 0 <= pos <= zlen body ->
  trim_at pos (body ++ [e]) = Ok l' -> exists body', l' = body' ++ [e] /\ Forall plain_stitch body' /\ zlen body' = zlen body + 1.
Proof.
  intros pos body e l' H Hp E.
  assert (X : exists v, plain_stitch v /\ l' = py_insert pos v (body ++ [e])).
  { unfold trim_at, insert_stitch_relative in E. cbn [p_stitches p_x p_y] in E.
    destruct (Z.ltb_spec pos 0); [lia|]. destruct (Z.eqb_spec pos 0) as [E0|E0].
    - cbn [bindr p_stitches] in E. injection E as <-. rewrite E0. exists (mkS (0 + 0)%Q (0 + 0)%Q TRIM). split; [|reflexivity].
      split; [cbn; auto|]. split; exists 0; reflexivity.
    - rewrite zlen_app in E. change (zlen [e]) with 1 in E.
      destruct (Z.eqb_spec pos (zlen body + 1)); [lia|]. destruct (Z.ltb_spec 0 pos); [|lia]. destruct (Z.ltb_spec pos (zlen body + 1)); [|lia].
      cbn [andb] in E. destruct (py_index (pos - 1) (body ++ [e])) as [q|] eqn:Eq; [|discriminate]. cbn [bindr p_stitches] in E. injection E as <-.
      assert (Pq : plain_stitch q).
      { unfold py_index in Eq. destruct (Z.ltb_spec (pos - 1) 0); [lia|]. rewrite nth_error_app1 in Eq by (unfold zlen in Hp; lia).
        destruct (nth_error body (Z.to_nat (pos - 1))) as [q'|] eqn:En; [|discriminate]. injection Eq as <-.
        apply nth_error_In in En. rewrite Forall_forall in H. exact (H _ En). }
      destruct Pq as (_ & W1 & W2). eexists. split; [|reflexivity]. split; [cbn; auto|]. split; apply whole_plus; assumption. }
  destruct X as (v & Pv & ->). unfold py_insert, zlen in *.
  exists (firstn (Z.to_nat pos) body ++ v :: skipn (Z.to_nat pos) body).
  rewrite firstn_app, skipn_app. replace (Z.to_nat pos - List.length body)%nat with 0%nat by lia. cbn [firstn skipn]. rewrite app_nil_r, <- app_assoc.
  split; [reflexivity|]. split.
  - apply Forall_app. split; [apply forall_firstn; exact H|]. constructor; [exact Pv|apply forall_skipn; exact H].
  - rewrite app_length. cbn [List.length]. rewrite firstn_length, skipn_length. lia.
Qed.
Lemma trim_step_tidy jumps dist clip st st' : sound st -> r_i st < r_ie st -> tidy (r_ss st) ->
  trim_step jumps dist clip st = Ok st' -> tidy (r_ss st').
Proof.
  intros (H1 & H2 & H3) Hi (body & e & El & He & Hb). unfold trim_step.
  destruct (py_index (r_i st + 1) (r_ss st)) as [s|] eqn:Es; [|discriminate]. cbn [bindr].
  destruct (if _ || _ then (false, false) else _) as [trimmed jumping] eqn:Ej.
  assert (J : jumping = true -> r_jumping st = true).
  { destruct (_ || _) in Ej; [injection Ej as <- <-; discriminate|]. destruct (_ || _) in Ej; injection Ej as <- <-; [discriminate|tauto]. }
  destruct (Z.eqb_spec (cmd_of (scmd s)) JUMP) as [Hj|Hj].
  2:{ intros E. injection E as <-. exists body, e. auto. }
  assert (Li : r_i st + 1 < zlen body).
  { unfold py_index in Es. destruct (Z.ltb_spec (r_i st + 1) 0); [lia|]. rewrite El in Es, H1. rewrite zlen_app in H1. change (zlen [e]) with 1 in H1.
    destruct (Z.ltb_spec (r_i st + 1) (zlen body)) as [L|L]; [exact L|].
    rewrite nth_error_app2 in Es by (unfold zlen in L; lia). replace (Z.to_nat (r_i st + 1) - List.length body)%nat with 0%nat in Es by (unfold zlen in *; lia).
    cbn in Es. injection Es as <-. rewrite He in Hj. discriminate Hj. }
  destruct (if jumping then _ else _) as [[[dx dy] count] start] eqn:Ed.
  assert (Hs : 0 <= start <= r_i st + 1).
  { destruct jumping; injection Ed as <- <- <- <-; [apply H3, J; reflexivity|lia]. }
  cbv zeta.
  match goal with |- context [if negb trimmed && ?c then _ else _] => set (req := negb trimmed && c) end.
  assert (M : forall ss start' i' ie' tr, (if req then do ss <- trim_at start (r_ss st); Ok (ss, start + 1, r_i st + 1 + 1, r_ie st + 1, true)
       else Ok (r_ss st, start, r_i st + 1, r_ie st, trimmed)) = Ok (ss, start', i', ie', tr) ->
       exists body', ss = body' ++ [e] /\ Forall plain_stitch body' /\ 0 <= start' <= i' /\ i' + 1 <= zlen body').
  { intros ss start' i' ie' tr E. destruct req.
    - rewrite El in E. destruct (trim_at start (body ++ [e])) as [l'|] eqn:Et; [|discriminate]. cbn [bindr] in E. injection E as <- <- <- <- <-.
      destruct (trim_at_tidy start body e l' Hb ltac:(lia) Et) as (body' & -> & Hb' & Lb). exists body'. split; [reflexivity|]. split; [exact Hb'|]. lia.
    - injection E as <- <- <- <- <-. exists body. split; [exact El|]. split; [exact Hb|]. lia. }
  destruct (if req then _ else _) as [[[[[ss start'] i'] ie'] tr]|] eqn:Em; [|discriminate].
  destruct (M ss start' i' ie' tr eq_refl) as (body' & Ess & Hb' & M1 & M2). clear M. cbn [bindr].
  match goal with |- context [if ?c then Ok _ else _] => destruct c end; intros E; injection E as <-; cbn [r_ss].
  - rewrite Ess. unfold py_del. rewrite Z.max_r by lia. unfold zlen in M2. rewrite firstn_app, skipn_app.
    replace (Z.to_nat start' - List.length body')%nat with 0%nat by lia. replace (Z.to_nat (i' + 1) - List.length body')%nat with 0%nat by lia.
    cbn [firstn skipn]. rewrite app_nil_r, app_assoc. eexists _, e. split; [reflexivity|]. split; [exact He|].
    apply Forall_app. split; [apply forall_firstn|apply forall_skipn]; exact Hb'.
  - rewrite Ess. exists body', e. auto.
Qed.
Lemma trim_loop_tidy jumps dist clip : forall fuel st st', sound st -> tidy (r_ss st) ->
  trim_loop jumps dist clip fuel st = Ok st' -> tidy (r_ss st').
Proof.
  induction fuel as [|fuel IH]; intros st st' S T; cbn [trim_loop]; destruct (Z.ltb_spec (r_i st) (r_ie st)) as [H|H]; try discriminate;
    try (intros E; injection E as <-; exact T).
  destruct (trim_step_ok jumps dist clip st S H) as (st1 & E1 & S1 & _). rewrite E1. cbn [bindr]. apply IH; [exact S1|].
  exact (trim_step_tidy _ _ _ _ _ S H T E1).
Qed.
Lemma interpolated_design jumps dist clip fuel l l' : file_design l -> interpolate_trims jumps dist clip fuel l = Ok l' -> file_design l'.
Proof.
  intros D. unfold interpolate_trims. destruct (trim_loop _ _ _ _ _) as [st|] eqn:E; [|discriminate]. cbn [bindr]. intros E'. injection E' as <-.
  eapply trim_loop_tidy; [| |exact E].
  - unfold sound. cbn [r_ie r_ss r_i r_jumping r_start]. unfold zlen. split; [reflexivity|]. split; [lia|discriminate].
  - exact D.
Qed.

(** Where the stitches stand is not changed by the trim interpolation. *)
Lemma interpolated_coloured jumps dist clip fuel l l' : interpolate_trims jumps dist clip fuel l = Ok l' -> coloured 0 l' = coloured 0 l.
Proof.
  intros E. rewrite <- (coloured_keeper _ l'), <- (coloured_keeper _ l), (interpolate_trims_keeps _ _ _ _ _ _ E). reflexivity.
Qed.

(** Properties of G-code files: C97 to C101. *)
From Coq Require Import Ascii String ZArith QArith Qabs List Bool Lia.
From Verif Require Import PyBase EmbConst ThreadModel Utf8Model TextModel PatternModel CsvModel GcodeModel GcodeSpec GcodeProofs GcodeWriteProofs.
Import ListNotations.
Open Scope Z_scope.

(** ** C97 *)
(** Any value of [other], the colours of colour names; [travel]: the setting "stitch_z_travel". *)
Theorem C97_gcode_round_trip : forall other travel extras threads l, gcode_commands l ->
  Forall (fun e => harmless (fst e ++ text_of ": " ++ snd e)) extras ->
  Forall (fun t => comment_text (str_opt (t_description t)) /\ comment_text (str_opt (t_brand t)) /\ comment_text (str_opt (t_catalog t))) threads ->
  exists file k, gcode_write travel extras threads l = Ok file /\
    gcode_read other file = Ok (k, map (fun t => coloured (t_color t mod 2 ^ 24)) threads) /\ kept_commands 0 0 l k.
Proof. exact gcode_round_trip. Qed.
Definition sample_threads : list thread :=
  [mkT 0xFF3C50 (Some (text_of "Rose")) None None None None None; mkT 0x102030 None (Some (text_of "12")) None (Some (text_of "Acme")) None None].
Definition sample_design : list (stitch Q) :=
  [mkS 3%Q 10%Q JUMP; mkS (-501 # 7)%Q 100%Q STITCH; mkS 0%Q 0%Q COLOR_CHANGE; mkS 20%Q (81 # 2)%Q STITCH; mkS 0%Q 0%Q TRIM; mkS 0%Q 0%Q STOP; mkS 0%Q 0%Q END].
Definition sample_extras : list (text * text) := [(text_of "name", text_of "Th" ++ [233])].
Definition file_of (r : res (list Z)) : list Z := match r with Ok f => f | Err _ => [] end.
Definition reduced (r : res (list (stitch Q) * list loaded)) : res (list (stitch Q) * list loaded) :=
  match r with Ok (l, t) => Ok (map (fun s => mkS (Qred (sx s)) (Qred (sy s)) (scmd s)) l, t) | Err e => Err e end.
Example C97_case : gcode_commands sample_design /\
  Forall (fun e => harmless (fst e ++ text_of ": " ++ snd e)) sample_extras /\
  Forall (fun t => comment_text (str_opt (t_description t)) /\ comment_text (str_opt (t_brand t)) /\ comment_text (str_opt (t_catalog t))) sample_threads /\
  reduced (gcode_read (fun _ => 0) (file_of (gcode_write 10 sample_extras sample_threads sample_design)))
  = Ok ([mkS (7157 # 100)%Q (-100)%Q STITCH; mkS (7157 # 100)%Q (-100)%Q COLOR_CHANGE;
         mkS (-20)%Q (-81 # 2)%Q STITCH; mkS (-20)%Q (-81 # 2)%Q COLOR_CHANGE; mkS (-20)%Q (-81 # 2)%Q END],
        [coloured 0xFF3C50; coloured 0x102030]).
Proof.
  split; [|split; [|split]].
  - unfold gcode_commands, sample_design. repeat (apply Forall_cons; [cbn; tauto|]). constructor.
  - apply Forall_cons; [|constructor]. split; [cbn; repeat (apply Forall_cons; [lia|]); constructor|].
    intros (a & b & E). assert (L : List.length (ascii_of (text_of "name" ++ text_of ": " ++ text_of "Th" ++ [233])) = 8%nat) by reflexivity.
    cbn [fst snd sample_extras] in E. rewrite E, !app_length in L. cbn [text_of List.length] in L.
    destruct a as [|? [|? [|? a]]]; cbn in E, L; try discriminate E. lia.
  - repeat (apply Forall_cons; [cbn; repeat split; repeat (apply Forall_cons; [lia|]); constructor|]). constructor.
  - vm_compute. reflexivity.
Qed.

(** ** C98 *)
(** A program: lines with a comment and words, the meaning of the words of each line, and the colours each comment names. *)
Theorem C98_gcode_program : forall other program meanings colors,
  Forall gline_ok program -> Forall2 means (map gl_words program) meanings -> Forall2 notes (map gl_comment program) colors ->
  exists l, gcode_read other (flat_map gline_bytes program) = Ok (l, map coloured (concat colors)) /\
    Forall2 same_stitch l (sews true 10 0 0 meanings).
Proof. intros. apply program_read; [assumption..|]. repeat split; reflexivity. Qed.
(** "(Thread1 #00ff10)G20" / "G91" / "G1X+1 Y-.5F20" / "G0 X2.Y1" / "M1" / "G90" / "G01 X1 Y1" / "M02", the last line ended by a CR. *)
Definition w (letter : Z) (v : Q) (t : string) (b : text) : gword := {| gw_letter := letter; gw_value := v; gw_text := text_of t; gw_blanks := b |}.
Definition ln (c : option string) (ws : list gword) (e : Z) : gline :=
  {| gl_comment := match c with Some c => Some (text_of c) | None => None end; gl_words := ws; gl_end := e |}.
Definition sample_program : list gline :=
  [ln (Some "Thread1 #00ff10"%string) [w 71 20 "20" []] 10; ln None [w 71 91 "91" []] 10;
   ln None [w 71 1 "1" []; w 88 1 "+1" [32]; w 89 (-1 # 2) "-.5" []; w 70 20 "20" []] 10;
   ln None [w 71 0 "0" [32]; w 88 2 "2." []; w 89 1 "1" []] 10; ln None [w 77 1 "1" []] 10; ln None [w 71 90 "90" []] 10;
   ln None [w 71 1 "01" [32]; w 88 1 "1" [32]; w 89 1 "1" []] 10; ln None [w 77 2 "02" []] 13].
Lemma whole s a q t : digit_list a -> a <> [] -> (q == sign_value s (inject_Z (value_of a)))%Q -> t = sign_text s ++ chars_of a -> writes q t.
Proof. intros H1 H2 H3 ->. apply writes_whole; assumption. Qed.
Lemma point s a b q t : digit_list a -> digit_list b -> a ++ b <> [] ->
  (q == sign_value s (inject_Z (value_of a) + inject_Z (value_of b) / inject_Z (10 ^ zlen b)))%Q -> t = sign_text s ++ chars_of a ++ [46] ++ chars_of b -> writes q t.
Proof. intros H1 H2 H3 H4 ->. apply writes_point; assumption. Qed.
Example C98_case : Forall gline_ok sample_program /\
  Forall2 means (map gl_words sample_program) [Inches; Relative; Sew 1 (-1 # 2); Sew 2 1; Pause; Absolute; Sew 1 1; Finish] /\
  Forall2 notes (map gl_comment sample_program) [[0x00FF10]; []; []; []; []; []; []; []] /\
  sews true 10 0 0 [Inches; Relative; Sew 1 (-1 # 2); Sew 2 1; Pause; Absolute; Sew 1 1; Finish]
  = sews true 254 0 0 [Relative; Sew 1 (-1 # 2); Sew 2 1; Pause; Absolute; Sew 1 1; Finish] /\
  reduced (gcode_read (fun _ => 0) (flat_map gline_bytes sample_program))
  = Ok ([mkS (-254)%Q 127%Q STITCH; mkS (-762)%Q (-127)%Q STITCH; mkS (-762)%Q (-127)%Q COLOR_CHANGE; mkS (-254)%Q (-254)%Q STITCH; mkS (-254)%Q (-254)%Q END],
        [coloured 0x00FF10]).
Proof.
  assert (D : forall l, forallb (fun d => (0 <=? d) && (d <=? 9)) l = true -> digit_list l).
  { intros l H. apply Forall_forall. intros d Hd. rewrite forallb_forall in H. specialize (H d Hd). rewrite andb_true_iff, !Z.leb_le in H. exact H. }
  split; [|split; [|split; [|split]]].
  - assert (W : forall c v t b, 65 <= c <= 90 -> writes v (text_of t) -> Forall (fun c => c = 32 \/ c = 9) b -> gword_ok (w c v t b)) by (intros; repeat split; assumption || (cbn; tauto)).
    assert (B : Forall (fun c => c = 32 \/ c = 9) [32]) by (repeat constructor).
    assert (N : Forall (fun c => c = 32 \/ c = 9) []) by constructor.
    unfold sample_program. repeat (match goal with |- Forall gline_ok _ => idtac end; apply Forall_cons; [unfold gline_ok; cbn [gl_comment gl_words gl_end ln]; split; [|split; [|cbn; tauto]]|]); try apply Forall_nil;
      try discriminate; try solve [cbn; repeat (apply Forall_cons; [lia|]); apply Forall_nil];
      repeat (apply Forall_cons; [apply W; [lia| |assumption]|]); try apply Forall_nil.
    + apply (whole No_sign [2; 0]); [apply D; reflexivity|discriminate|reflexivity..].
    + apply (whole No_sign [9; 1]); [apply D; reflexivity|discriminate|reflexivity..].
    + apply (whole No_sign [1]); [apply D; reflexivity|discriminate|reflexivity..].
    + apply (whole Plus [1]); [apply D; reflexivity|discriminate|reflexivity..].
    + apply (point Minus [] [5]); [apply D; reflexivity|apply D; reflexivity|discriminate|reflexivity..].
    + apply (whole No_sign [2; 0]); [apply D; reflexivity|discriminate|reflexivity..].
    + apply (whole No_sign [0]); [apply D; reflexivity|discriminate|reflexivity..].
    + apply (point No_sign [2] []); [apply D; reflexivity|apply D; reflexivity|discriminate|reflexivity..].
    + apply (whole No_sign [1]); [apply D; reflexivity|discriminate|reflexivity..].
    + apply (whole No_sign [1]); [apply D; reflexivity|discriminate|reflexivity..].
    + apply (whole No_sign [9; 0]); [apply D; reflexivity|discriminate|reflexivity..].
    + apply (whole No_sign [0; 1]); [apply D; reflexivity|discriminate|reflexivity..].
    + apply (whole No_sign [1]); [apply D; reflexivity|discriminate|reflexivity..].
    + apply (whole No_sign [1]); [apply D; reflexivity|discriminate|reflexivity..].
    + apply (whole No_sign [0; 2]); [apply D; reflexivity|discriminate|reflexivity..].
  - repeat apply Forall2_cons; try apply Forall2_nil.
    + eapply means_inch; [reflexivity|left; reflexivity|reflexivity].
    + eapply means_rel; [reflexivity|reflexivity|reflexivity].
    + eapply means_sew; [reflexivity|right; reflexivity|reflexivity|reflexivity].
    + eapply means_sew; [reflexivity|left; reflexivity|reflexivity|reflexivity].
    + eapply means_pause; [reflexivity|reflexivity|right; reflexivity].
    + eapply means_abs; [reflexivity|reflexivity|reflexivity].
    + eapply means_sew; [reflexivity|right; reflexivity|reflexivity|reflexivity].
    + eapply means_finish; [reflexivity|reflexivity|right; reflexivity].
  - repeat apply Forall2_cons; try apply Forall2_nil; try apply notes_nothing.
    apply (notes_thread (text_of "Thread1 #00ff10") (text_of "Thread1") 0x00FF10 []); [cbn; lia| |reflexivity|left; reflexivity].
    exists [], (text_of "1 #00ff10"). reflexivity.
  - reflexivity.
  - vm_compute. reflexivity.
Qed.

(** ** C99 *)
(** A bracket in the name of a thread or of the design ends the comment: what follows is taken for commands. *)
Theorem C99_refuted : exists extras threads l, gcode_commands l /\
  extras = [] /\ threads = [mkT 0xFF3C50 (Some (text_of "Rose (2) small")) None None None None None] /\
  gcode_read (fun _ => 0) (file_of (gcode_write 10 extras threads l)) = Err ValueError.
Proof.
  do 3 eexists. split; [|split; [reflexivity|split; [reflexivity|]]].
  - apply Forall_cons; [|constructor]. instantiate (1 := mkS 0%Q 0%Q END). cbn. tauto.
  - vm_compute. reflexivity.
Qed.
Theorem C99_injected_refuted : exists extras l k t, gcode_commands l /\ extras = [(text_of "name", text_of "Duck) G1 X50 Y50")] /\
  gcode_read (fun _ => 0) (file_of (gcode_write 10 extras [] l)) = Ok (k, t) /\
  count_stitch_commands STITCH l = 0 /\ count_stitch_commands STITCH k = 1.
Proof.
  exists [(text_of "name", text_of "Duck) G1 X50 Y50")], [mkS 0%Q 0%Q END]. do 2 eexists. split; [|split; [reflexivity|split; [vm_compute; reflexivity|]]].
  - apply Forall_cons; [cbn; tauto|constructor].
  - split; vm_compute; reflexivity.
Qed.
(** A command of any other kind, such as the SLOW and FAST the encoder lets through, ends the program. *)
Theorem C99_truncated : forall other travel extras threads a s b, gcode_commands a ->
  ~ In (cmd_of (scmd s)) [STITCH; JUMP; TRIM; COLOR_CHANGE; STOP; END] ->
  Forall (fun e => harmless (fst e ++ text_of ": " ++ snd e)) extras ->
  Forall (fun t => comment_text (str_opt (t_description t)) /\ comment_text (str_opt (t_brand t)) /\ comment_text (str_opt (t_catalog t))) threads ->
  exists file k, gcode_write travel extras threads (a ++ s :: b) = Ok file /\
    gcode_read other file = Ok (k, map (fun t => coloured (t_color t mod 2 ^ 24)) threads) /\ kept_commands 0 0 a k.
Proof. exact gcode_truncated. Qed.
Example C99_truncated_case :
  reduced (gcode_read (fun _ => 0) (file_of (gcode_write 10 [] [] [mkS 1%Q 2%Q STITCH; mkS 1%Q 2%Q SLOW; mkS 5%Q 5%Q STITCH; mkS 5%Q 5%Q END])))
  = Ok ([mkS (-1)%Q (-2)%Q STITCH], []).
Proof. vm_compute. reflexivity. Qed.

(** ** C100 *)
(** Small letters, a G1 line that sets a feed rate or lifts the needle, and a last line that is not ended. *)
Theorem C100_refuted :
  gcode_read (fun _ => 0) (text_of "g1 x10 y10" ++ [10]) = Ok ([], []) /\
  reduced (gcode_read (fun _ => 0) (text_of "G1 X10 Y10" ++ [10])) = Ok ([mkS (-100)%Q (-100)%Q STITCH], []) /\
  gcode_read (fun _ => 0) (text_of "G1 F1500" ++ [10]) = Err KeyError /\
  gcode_read (fun _ => 0) (text_of "G01 Z5" ++ [10]) = Err KeyError /\
  gcode_read (fun _ => 0) (text_of "G1 X10 Y10") = Ok ([], []).
Proof. repeat split; vm_compute; reflexivity. Qed.

(** ** C101 *)
Theorem C101_gcode_any : forall other f, match gcode_read other f with Ok _ => True | Err e => e = ValueError \/ e = IndexError \/ e = KeyError end.
Proof. exact gcode_any. Qed.
Theorem C101_gcode_cut : forall other a b l t, gcode_read other (a ++ b) = Ok (l, t) ->
  exists l1 t1 l2 t2, gcode_read other a = Ok (l1, t1) /\ l = l1 ++ l2 /\ t = t1 ++ t2.
Proof. exact gcode_cut. Qed.
Example C101_cases : gcode_read (fun _ => 0) (text_of "GG" ++ [10]) = Err ValueError /\
  gcode_read (fun _ => 0) (text_of "(Threads)" ++ [10]) = Err IndexError /\
  gcode_read (fun _ => 0) (text_of "G1 Y0" ++ [10]) = Err KeyError /\
  (exists r, gcode_read (fun _ => 0) (firstn 300 (file_of (gcode_write 10 sample_extras sample_threads sample_design))) = Ok r).
Proof. split; [|split; [|split]]; [vm_compute; reflexivity..|]. eexists. vm_compute. reflexivity. Qed.

Print Assumptions C97_gcode_round_trip.
Print Assumptions C98_gcode_program.
Print Assumptions C99_refuted.
Print Assumptions C99_injected_refuted.
Print Assumptions C99_truncated.
Print Assumptions C100_refuted.
Print Assumptions C101_gcode_any.
Print Assumptions C101_gcode_cut.

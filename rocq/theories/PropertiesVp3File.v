(** C178, C179: what a VP3 file says, to a reader that follows all the lengths in it. *)
From Coq Require Import ZArith List Bool Lia.
From Verif Require Import PyBase EmbConst ThreadModel PatternModel JefSpec Vp3Model Vp3Spec Vp3FileSpec Vp3Proofs Vp3AnyProofs Vp3FileProofs PropertiesVp3.
Import ListNotations.
Open Scope Z_scope.

(** Section k of the file, d, tells of section k of the pattern, sec.  (mx, my) is the middle of the pattern, doubled. *)
Definition tells (mx my : Z) (k : nat) (sec : list (stitch Z)) (d : section) : Prop :=
  let start := first_place k sec in
  about (fst (s_start d)) (2 * fst start - mx) /\ about (- snd (s_start d)) (2 * snd start - my) /\
  s_travel d = (100 * (fst (last_place sec) - fst start), -100 * (snd (last_place sec) - snd start)) /\
  (Forall known sec -> Forall fits (section_marks (fst start) (snd start) sec) ->
   marks (s_stitches d) = Some (section_marks (fst start) (snd start) sec)).
Definition tells_thread (t : thread) (d : section) : Prop :=
  s_colour d = t_color t mod 2 ^ 24 /\
  s_catalog d = match t_catalog t with Some s => s | None => [] end /\
  s_description d = match t_description t with Some s => s | None => hex_color (t_color t) end /\
  s_brand d = match t_brand t with Some s => s | None => [] end.

Lemma about_quot a : about (Z.quot a 2 * 100) a.
Proof. unfold about. rewrite quot2. destruct (a <? 0) eqn:E; [apply Z.ltb_lt in E|apply Z.ltb_ge in E]; lia. Qed.

(** Every length in the file leads where it should, up to the end of the file; the header has the box around the pattern
    and the number of commands other than END; the design block has the middle and the size; there is one section for
    every colour, and it has the thread, the place, the travel and the stitches of that colour. *)
Theorem C178_vp3_document : forall filler threads p x0 y0 x1 y1,
  box p sx x0 x1 -> box p sy y0 y1 -> small_coordinates p -> Z.of_nat (length p) < 2 ^ 31 ->
  Z.of_nat (color_changes p) < 65535 ->
  Forall plain_texts threads -> (forall i, plain_texts (filler i)) ->
  exists file, vp3_write filler p threads = Ok file /\
    (Z.of_nat (length file) < 2 ^ 32 ->
     exists d, vp3_document file = Some d /\
       (d_left d, d_right d, d_top d, d_bottom d) = (100 * x0, 100 * x1, -100 * y0, -100 * y1) /\
       d_count d = Z.of_nat (length (filter (fun s => negb (cmd_of (scmd s) =? END)) p)) /\
       d_colours d = Z.of_nat (S (color_changes p)) mod 256 /\
       about (fst (d_centre d)) (x0 + x1) /\ about (- snd (d_centre d)) (y0 + y1) /\
       d_width d = 100 * (x1 - x0) /\ d_height d = 100 * (y1 - y0) /\
       (exists w h, d_halves d = [- w; w; - h; h] /\ about w (x1 - x0) /\ about h (y1 - y0)) /\
       length (d_sections d) = S (color_changes p) /\
       (forall k sec, nth_error (colour_sections p) k = Some sec ->
          exists s, nth_error (d_sections d) k = Some s /\ tells (x0 + x1) (y0 + y1) k sec s /\
            (forall t, nth_error threads k = Some t -> tells_thread t s))).
Proof.
  intros filler threads p x0 y0 x1 y1 Bx By Hs Hz Hn Ht Hf.
  destruct (document_shown filler threads p x0 y0 x1 y1 (conj Bx By) Hs Hz Hn Ht Hf) as (file & bs & W & Sec & Thr & D).
  exists file. split; [exact W|]. intros L. specialize (D L). eexists. split; [exact D|].
  cbn [d_left d_right d_top d_bottom d_count d_colours d_centre d_halves d_width d_height d_sections fst snd].
  split; [repeat (f_equal; try lia)|]. split; [reflexivity|]. split; [reflexivity|]. split; [apply about_quot|].
  split; [replace (- (Z.quot (y0 + y1) 2 * -100)) with (Z.quot (y0 + y1) 2 * 100) by lia; apply about_quot|].
  split; [lia|]. split; [lia|].
  split. { exists (Z.quot (x1 - x0) 2 * 100), (Z.quot (y1 - y0) 2 * 100). split; [repeat (f_equal; try lia)|]. split; apply about_quot. }
  split. { rewrite all_shown_length, <- (map_length fst), Sec. apply sections_length. }
  intros k sec Hk. rewrite <- Sec, nth_error_map in Hk. destruct (nth_error bs k) as [[sec' t]|] eqn:Eb; [|discriminate].
  cbn [option_map fst] in Hk. injection Hk as ->.
  eexists. split; [apply (all_shown_nth _ _ bs true k sec t Eb)|]. split.
  - unfold tells, shown. cbn [s_start s_travel s_stitches fst snd]. rewrite first_start. cbv zeta.
    split; [apply about_quot|]. split.
    { rewrite Z.quot_opp_l by lia. match goal with |- about (- (- ?a * 100)) _ => replace (- (- a * 100)) with (a * 100) by lia end. apply about_quot. }
    split; [unfold end_of, last_place; f_equal; lia|]. apply marks_stitches.
  - intros u Hu. assert (E : nth_error (map snd bs) k = Some t) by (rewrite nth_error_map, Eb; reflexivity).
    rewrite Thr in E. unfold block_threads in E. rewrite nth_error_map in E.
    destruct (nth_error (seq 0 (S (color_changes p))) k) as [j|] eqn:Ej; [|discriminate].
    assert (j = k).
    { pose proof (nth_error_Some (seq 0 (S (color_changes p))) k) as B. rewrite Ej, seq_length in B.
      rewrite (nth_error_nth' _ 0%nat) in Ej by (rewrite seq_length; apply B; discriminate). rewrite seq_nth in Ej by (apply B; discriminate).
      injection Ej as <-. reflexivity. }
    subst j. cbn [option_map] in E. rewrite Hu in E. injection E as <-. repeat split.
Qed.
Print Assumptions C178_vp3_document.

(** A file with a jump before the first stitch, a long step and two colours, in full. *)
Definition c178_pattern : list (stitch Z) :=
  [mkS 10 (-20) JUMP; mkS 10 (-20) STITCH; mkS 201 (-20) STITCH; mkS 201 (-20) TRIM; mkS 201 (-20) COLOR_CHANGE; mkS 9 30 STITCH; mkS 9 31 END].
Example C178_case : box c178_pattern sx 9 201 /\ box c178_pattern sy (-20) 31 /\ Forall known c178_pattern /\
  match vp3_write plain_thread c178_pattern C18_threads with
  | Ok file =>
      match vp3_document file with
      | Some d =>
          (d_left d, d_right d, d_top d, d_bottom d, d_count d, d_colours d) = (900, 20100, 2000, -3100, 6, 2) /\
          d_centre d = (10500, -500) /\
          map s_start (d_sections d) = [(-10500, 500); (9600, 2500)] /\
          map s_travel (d_sections d) = [(20100, 2000); (-19200, -5100)] /\
          map (fun s => marks (s_stitches s)) (d_sections d) = [Some [Step 10 (-20); Step 191 0; Cut]; Some [Step (-192) 50; Cut]]
      | None => False
      end
  | Err _ => False
  end.
Proof.
  split; [|split; [|split]].
  - split; [intros s H; cbn in H; repeat (destruct H as [<-|H]; [cbn; lia|]); destruct H|].
    split; [exists (mkS 9 30 STITCH)|exists (mkS 201 (-20) TRIM)]; (split; [cbn; tauto|reflexivity]).
  - split; [intros s H; cbn in H; repeat (destruct H as [<-|H]; [cbn; lia|]); destruct H|].
    split; [exists (mkS 10 (-20) JUMP)|exists (mkS 9 31 END)]; (split; [cbn; tauto|reflexivity]).
  - repeat (apply Forall_cons; [unfold known; cbn; tauto|]). apply Forall_nil.
  - vm_compute. repeat split.
Qed.

(** ** C179: the header's number of colours *)
(** It is one byte: right for fewer than 256 colours ... *)
Theorem C179_vp3_colours_partial : forall filler threads p x0 y0 x1 y1,
  box p sx x0 x1 -> box p sy y0 y1 -> small_coordinates p -> Z.of_nat (length p) < 2 ^ 31 ->
  Z.of_nat (color_changes p) < 255 ->
  Forall plain_texts threads -> (forall i, plain_texts (filler i)) ->
  exists file, vp3_write filler p threads = Ok file /\
    (Z.of_nat (length file) < 2 ^ 32 ->
     exists d, vp3_document file = Some d /\ d_colours d = Z.of_nat (length (d_sections d))).
Proof.
  intros filler threads p x0 y0 x1 y1 Bx By Hs Hz Hn Ht Hf.
  destruct (C178_vp3_document filler threads p x0 y0 x1 y1 Bx By Hs Hz ltac:(lia) Ht Hf) as (file & W & D).
  exists file. split; [exact W|]. intros L. destruct (D L) as (d & E & _ & _ & C & _ & _ & _ & _ & _ & N & _).
  exists d. split; [exact E|]. rewrite C, N. apply Z.mod_small. lia.
Qed.
Print Assumptions C179_vp3_colours_partial.
(** ... and zero for 256: the file has 256 sections and its header says none. *)
Definition c179_pattern : list (stitch Z) :=
  mkS 1 1 STITCH :: flat_map (fun _ => [mkS 1 1 COLOR_CHANGE; mkS 1 1 STITCH]) (repeat tt (Z.to_nat 255)).
Theorem C179_vp3_colours_refuted : exists p filler threads file d,
  vp3_write filler p threads = Ok file /\ vp3_document file = Some d /\
  Z.of_nat (length (d_sections d)) = 256 /\ d_colours d = 0.
Proof.
  exists c179_pattern, plain_thread, C18_threads.
  assert (H : match vp3_write plain_thread c179_pattern C18_threads with
     | Ok file => match vp3_document file with Some d => (Z.of_nat (length (d_sections d)) =? 256) && (d_colours d =? 0) | None => false end
     | Err _ => false end = true) by (vm_compute; reflexivity).
  destruct (vp3_write plain_thread c179_pattern C18_threads) as [file|]; [|discriminate]. exists file.
  destruct (vp3_document file) as [d|] eqn:E; [|discriminate]. exists d. apply andb_true_iff in H. rewrite !Z.eqb_eq in H.
  split; [reflexivity|]. split; [reflexivity|]. exact H.
Qed.
Print Assumptions C179_vp3_colours_refuted.

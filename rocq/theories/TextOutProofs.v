From Coq Require Import Ascii String ZArith QArith Qround Qabs List Bool Lia Lqa.
From Verif Require Import PyBase EmbConst BitLemmas NumQ QuantModel QuantProofs ThreadModel TextModel TextProofs PatternModel PatternSpec PatternProofs NameModel
  GcodeModel GcodeSpec GcodeProofs GcodeWriteProofs TextOutModel TextOutSpec.
Import ListNotations.
Open Scope Z_scope.

Lemma fixed_tenth q : tenth q (fixed 1 q).
Proof.
  exists (rounded 1 q). split; [apply fixed_writes|]. unfold rounded. change (10 ^ Z.of_nat 1) with 10.
  pose proof (q_round_half (q * inject_Z 10)) as B. change (inject_Z 10) with 10%Q in *.
  set (n := q_round (q * 10)) in *. clearbody n. assert (E : (inject_Z n / 10 == (1 # 10) * inject_Z n)%Q) by field.
  rewrite E. apply Qabs_Qle_condition. lra.
Qed.
Lemma name_in c : forall names n, name_of c names = Some n -> In (c, n) names.
Proof.
  induction names as [|[k m] names IH]; intros n E; cbn [name_of] in E; [discriminate|].
  destruct (Z.eqb_spec k c) as [-> |]; [injection E as ->; left; reflexivity|right; apply IH, E].
Qed.
Theorem normal_shows get : forall l t, write_normal get (t_color (get 0)) l = Ok t ->
  exists lines, t = concat lines /\ Forall2 (shows (t_color (get 0))) l lines.
Proof.
  induction l as [|s l IH]; intros t E; cbn [write_normal] in E.
  - injection E as <-. exists []. split; [reflexivity|constructor].
  - assert (C : (if cmd_of (scmd s) =? COLOR_CHANGE then t_color (get 0) else t_color (get 0)) = t_color (get 0)) by (destruct (_ =? _); reflexivity).
    rewrite C in E. destruct (name_of (cmd_of (scmd s)) common_names) as [name|] eqn:En; [|discriminate].
    destruct (write_normal get (t_color (get 0)) l) as [rest|] eqn:El; cbn [bindr] in E; [|discriminate]. injection E as <-.
    destruct (IH rest eq_refl) as (lines & -> & F). eexists (_ :: lines). split.
    2: { constructor; [|exact F]. exists (fixed 1 (sx s)), (fixed 1 (sy s)), name. split; [apply fixed_tenth|]. split; [apply fixed_tenth|].
         split; [apply name_in, En|reflexivity]. }
    cbn [concat]. rewrite <- !app_assoc. reflexivity.
Qed.
Theorem normal_total get color l : (exists t, write_normal get color l = Ok t) <-> Forall (fun s => In (cmd_of (scmd s)) (map fst common_names)) l.
Proof.
  revert color. induction l as [|s l IH]; intros color; cbn [write_normal]; [split; [constructor|eexists; reflexivity]|].
  assert (N : forall names, (exists n, name_of (cmd_of (scmd s)) names = Some n) <-> In (cmd_of (scmd s)) (map fst names)).
  { induction names as [|[k m] names IHn]; cbn [name_of map fst In]; [split; [intros [n E]; discriminate|contradiction]|].
    destruct (Z.eqb_spec k (cmd_of (scmd s))) as [E|Ne]; [split; [tauto|eexists; reflexivity]|]. rewrite IHn. tauto. }
  specialize (N common_names). split.
  - intros [t E]. destruct (name_of (cmd_of (scmd s)) common_names) as [n|]; [|discriminate]. constructor; [apply N; exists n; reflexivity|].
    destruct (write_normal get (if cmd_of (scmd s) =? COLOR_CHANGE then t_color (get 0) else color) l) as [rest|] eqn:El; cbn [bindr] in E; [|discriminate].
    eapply IH. exists rest. exact El.
  - intros F. apply Forall_cons_iff in F as [Hs F]. apply N in Hs as [n ->].
    destruct (proj2 (IH (if cmd_of (scmd s) =? COLOR_CHANGE then t_color (get 0) else color)) F) as [rest ->]. cbn [bindr]. eexists. reflexivity.
Qed.
Lemma flag_in c f : emb_mod_convert c = Some f -> In (c, f) flag_of.
Proof.
  unfold emb_mod_convert, flag_of. intros E.
  repeat match type of E with (if ?a =? ?b then _ else _) = _ => destruct (Z.eqb_spec a b) as [-> |]; [injection E as <-; cbn; tauto|] end. discriminate.
Qed.
Theorem mimic_shows : forall l n t, write_mimic (Z.of_nat n) l = Ok t -> exists lines, t = concat lines /\ all_show_mm n l lines.
Proof.
  induction l as [|s l IH]; intros n t E; cbn [write_mimic] in E.
  - injection E as <-. exists []. split; [reflexivity|exact I].
  - destruct (emb_mod_convert (cmd_of (scmd s))) as [f|] eqn:Ef; [|discriminate].
    assert (C : (if cmd_of (scmd s) =? COLOR_CHANGE then Z.of_nat n + 1 else Z.of_nat n) = Z.of_nat (if change s then S n else n))
      by (unfold change; destruct (_ =? _); lia). rewrite C in E.
    destruct (write_mimic (Z.of_nat (if change s then S n else n)) l) as [rest|] eqn:El; cbn [bindr] in E; [|discriminate]. injection E as <-.
    destruct (IH _ rest El) as (lines & -> & F). eexists (_ :: lines). split.
    2: { cbn [all_show_mm]. split; [|exact F]. exists (fixed 1 (sx s / 10)), (fixed 1 (sy s / 10)), f. split; [apply fixed_tenth|]. split; [apply fixed_tenth|].
         split; [apply flag_in, Ef|reflexivity]. }
    cbn [concat]. rewrite <- !app_assoc. reflexivity.
Qed.
Theorem mimic_total : forall l n, (exists t, write_mimic n l = Ok t) <-> Forall (fun s => In (cmd_of (scmd s)) (map fst flag_of)) l.
Proof.
  induction l as [|s l IH]; intros n; cbn [write_mimic]; [split; [constructor|eexists; reflexivity]|].
  assert (N : (exists f, emb_mod_convert (cmd_of (scmd s)) = Some f) <-> In (cmd_of (scmd s)) (map fst flag_of)).
  { split.
    - intros [f E]. apply flag_in in E. apply (in_map fst) in E. exact E.
    - cbn [map fst flag_of In]. intuition (match goal with H : _ = cmd_of _ |- _ => rewrite <- H end; eexists; reflexivity). }
  split.
  - intros [t E]. destruct (emb_mod_convert (cmd_of (scmd s))) as [f|]; [|discriminate]. constructor; [apply N; exists f; reflexivity|].
    destruct (write_mimic (if cmd_of (scmd s) =? COLOR_CHANGE then n + 1 else n) l) as [rest|] eqn:El; cbn [bindr] in E; [|discriminate].
    eapply IH. exists rest. exact El.
  - intros F. apply Forall_cons_iff in F as [Hs F]. apply N in Hs as [f ->].
    destruct (proj2 (IH (if cmd_of (scmd s) =? COLOR_CHANGE then n + 1 else n)) F) as [rest ->]. cbn [bindr]. eexists. reflexivity.
Qed.

(** ** SVG *)
Definition point_text (s : stitch Z) : text := str_of_int (sx s) ++ [44] ++ str_of_int (sy s).
Lemma data_points block : forall d, fold_left (fun data s => data ++ [32] ++ str_of_int (sx s) ++ [44] ++ str_of_int (sy s)) block d
  = d ++ flat_map (fun s => 32 :: point_text s) block.
Proof.
  induction block as [|s r IH]; intros d; cbn [fold_left flat_map]; [rewrite app_nil_r; reflexivity|]. rewrite IH. rewrite <- app_assoc. reflexivity.
Qed.
Lemma point_no_space s : ~ In 32 (point_text s).
Proof.
  unfold point_text. rewrite !in_app_iff. intros [H | [H | H]]; [|cbn in H; lia|];
    (eapply not_in_number; [|exact H]); unfold number_char, digit; lia.
Qed.
Lemma read_one s : read_point (point_text s) = Some (sx s, sy s).
Proof.
  unfold read_point, point_text. cbn [app]. rewrite split_on_first by (apply not_in_number; unfold number_char, digit; lia).
  rewrite split_on_none by (apply not_in_number; unfold number_char, digit; lia). rewrite !int_of_str_0. reflexivity.
Qed.
Lemma split_points : forall block a, ~ In 32 a -> split_on 32 (a ++ flat_map (fun s => 32 :: point_text s) block) = a :: map point_text block.
Proof.
  induction block as [|s r IH]; intros a H; cbn [flat_map map].
  - rewrite app_nil_r. apply split_on_none, H.
  - cbn [app]. rewrite split_on_first by exact H. rewrite IH by apply point_no_space. reflexivity.
Qed.
Lemma read_data block : read_path (svg_data block) = Some (map (fun s => (sx s, sy s)) block).
Proof.
  unfold read_path, svg_data. rewrite data_points. rewrite split_points by (cbn; lia).
  induction block as [|s r IH]; [reflexivity|]. cbn [map read_points]. rewrite read_one. cbn iota in IH. rewrite IH. reflexivity.
Qed.
Theorem svg_drawn get (l : list (stitch Z)) : exists cut, stitch_cut 0 l cut /\
  map (fun p => (read_path (p_data p), p_stroke p)) (svg_paths get l)
  = map (fun '(run, n) => (Some (map (fun s => (sx s, sy s)) run), hex_color (t_color (get n)))) cut.
Proof.
  destruct (stitchblocks_spec get l [] 0) as (cut & H1 & H2); [constructor|]. exists cut. split; [exact H1|].
  unfold svg_paths, get_as_stitchblock. change 1 with (0 + 1). rewrite H2, !map_map. apply map_ext. intros [b k]. cbn [fst snd p_data p_stroke].
  rewrite read_data. reflexivity.
Qed.

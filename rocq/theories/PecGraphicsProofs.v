(** Preview pictures: every point is drawn inside the frame. *)
From Coq Require Import ZArith QArith Qround Qminmax List Bool Lia.
From Verif Require Import PyBase EmbConst StreamModel HelperModel NumQ BitLemmas ThreadModel PatternModel PatternProofs
  Vp3Model Vp3Proofs PecFileModel.
Import ListNotations.
Open Scope Z_scope.

(** ** Where points are drawn *)
Lemma qmin_scale (a b : Q) : (0 < a)%Q -> (0 < b)%Q -> (0 < Qmin a b)%Q.
Proof. intros Ha Hb. destruct (Q.min_spec a b) as [[_ E]|[_ E]]; rewrite E; assumption. Qed.

Definition span (a b : Q) : Q := if Qeq_bool (b - a) 0 then 1%Q else (b - a)%Q.
Lemma span_pos a b : (a <= b)%Q -> (0 < span a b)%Q.
Proof.
  intros H. unfold span. destruct (Qeq_bool (b - a) 0) eqn:E; [reflexivity|].
  apply Qeq_bool_neq in E. apply Qle_lteq in H. destruct H as [H|H]; [Lqa.lra|]. exfalso. apply E. rewrite H. ring.
Qed.
Lemma offset_bound (a b v k s : Q) : (a <= v <= b)%Q -> (0 <= k)%Q -> (0 < s)%Q -> (s <= k / span a b)%Q ->
  (- (k / 2) <= v * s - (b + a) / 2 * s <= k / 2)%Q.
Proof.
  intros [H1 H2] Hk Hs Hle. assert (Hab : (a <= b)%Q) by Lqa.lra.
  pose proof (span_pos a b Hab) as Hp. unfold span in *. destruct (Qeq_bool (b - a) 0) eqn:E.
  - apply Qeq_bool_iff in E. assert (Ev : (v == a)%Q) by Lqa.lra. assert (Eb : (b == a)%Q) by Lqa.lra.
    rewrite Ev, Eb. setoid_replace (a * s - (a + a) / 2 * s)%Q with 0%Q by field.
    assert (0 <= k / 2)%Q by (apply Qle_shift_div_l; Lqa.lra). Lqa.lra.
  - assert (Hsk : (s * (b - a) <= k)%Q).
    { apply Qle_trans with ((k / (b - a)) * (b - a))%Q.
      - apply Qmult_le_compat_r; [exact Hle|Lqa.lra].
      - apply Qle_lteq. right. field. intros Z0. Lqa.lra. }
    setoid_replace (k / 2)%Q with (k * (1 # 2))%Q by field.
    setoid_replace (v * s - (b + a) / 2 * s)%Q with ((v - (b + a) * (1 # 2)) * s)%Q by field.
    assert (Hd : (- ((b - a) * (1 # 2)) <= v - (b + a) * (1 # 2) <= (b - a) * (1 # 2))%Q) by (split; Lqa.lra).
    split; Lqa.nra.
Qed.

Lemma floor_between (a b : Z) (q : Q) : (inject_Z a <= q)%Q -> (q <= inject_Z b)%Q -> a <= Qfloor q <= b.
Proof.
  intros H1 H2. split.
  - rewrite <- (Qfloor_Z a). apply Qfloor_resp_le. exact H1.
  - rewrite <- (Qfloor_Z b). apply Qfloor_resp_le. exact H2.
Qed.

(** A box and the points inside it. *)
Definition inside (e : box) (s : stitch Q) : Prop :=
  let '(x0, y0, x1, y1) := e in (x0 <= sx s <= x1)%Q /\ (y0 <= sy s <= y1)%Q.

Lemma drawn_inside e s buffer : inside e s -> buffer = 4 \/ buffer = 5 ->
  2 <= drawn_x e 6 38 buffer (sx s) <= 46 /\ 2 <= drawn_y e 6 38 buffer (sy s) <= 36.
Proof.
  destruct e as [[[x0 y0] x1] y1]. intros [Hx Hy] Hb. unfold drawn_x, drawn_y, graphic_scale.
  fold (span x0 x1). fold (span y0 y1).
  assert (Px : (0 < span x0 x1)%Q) by (apply span_pos; Lqa.lra).
  assert (Py : (0 < span y0 y1)%Q) by (apply span_pos; Lqa.lra).
  set (kx := inject_Z (6 * 8 - buffer)). set (ky := inject_Z (38 - buffer)).
  assert (Kx : (43 <= kx <= 44)%Q) by (unfold kx; destruct Hb as [-> | ->]; split; discriminate).
  assert (Ky : (33 <= ky <= 34)%Q) by (unfold ky; destruct Hb as [-> | ->]; split; discriminate).
  set (s0 := Qmin (kx / span x0 x1) (ky / span y0 y1)).
  assert (S0 : (0 < s0)%Q).
  { apply qmin_scale; apply Qlt_shift_div_l; try assumption; Lqa.lra. }
  assert (Sx : (s0 <= kx / span x0 x1)%Q) by apply Q.le_min_l.
  assert (Sy : (s0 <= ky / span y0 y1)%Q) by apply Q.le_min_r.
  pose proof (offset_bound x0 x1 (sx s) kx s0 Hx ltac:(Lqa.lra) S0 Sx) as Bx.
  pose proof (offset_bound y0 y1 (sy s) ky s0 Hy ltac:(Lqa.lra) S0 Sy) as By.
  setoid_replace (kx / 2)%Q with (kx * (1 # 2))%Q in Bx by field.
  setoid_replace (ky / 2)%Q with (ky * (1 # 2))%Q in By by field.
  change (inject_Z (6 * 8) / 2)%Q with (48 / 2)%Q. change (inject_Z 38 / 2)%Q with (38 / 2)%Q.
  split; apply floor_between.
  - setoid_replace (inject_Z 2) with (2 # 1)%Q by reflexivity.
    setoid_replace (48 / 2)%Q with (24 # 1)%Q by reflexivity.
    setoid_replace (- ((x1 + x0) / 2) * s0)%Q with (- ((x1 + x0) / 2 * s0))%Q by ring. Lqa.lra.
  - setoid_replace (inject_Z 46) with (46 # 1)%Q by reflexivity.
    setoid_replace (48 / 2)%Q with (24 # 1)%Q by reflexivity.
    setoid_replace (- ((x1 + x0) / 2) * s0)%Q with (- ((x1 + x0) / 2 * s0))%Q by ring. Lqa.lra.
  - setoid_replace (inject_Z 2) with (2 # 1)%Q by reflexivity.
    setoid_replace (38 / 2)%Q with (19 # 1)%Q by reflexivity.
    setoid_replace (- ((y1 + y0) / 2) * s0)%Q with (- ((y1 + y0) / 2 * s0))%Q by ring. Lqa.lra.
  - setoid_replace (inject_Z 36) with (36 # 1)%Q by reflexivity.
    setoid_replace (38 / 2)%Q with (19 # 1)%Q by reflexivity.
    setoid_replace (- ((y1 + y0) / 2) * s0)%Q with (- ((y1 + y0) / 2 * s0))%Q by ring. Lqa.lra.
Qed.

(** ** Pixels *)
(** Row [y], column [x] of a picture of 48 columns: one bit, eight columns to a byte. *)
Definition pixel (g : list Z) (x y : Z) : bool := Z.testbit (nth (Z.to_nat (6 * y + x / 8)) g 0) (x mod 8).

Lemma or_at_some i m g : 0 <= i < zlen g -> exists b, nth_error g (Z.to_nat i) = Some b /\
  or_at i m g = Some (firstn (Z.to_nat i) g ++ Z.lor b m :: skipn (Z.to_nat i + 1) g).
Proof.
  intros H. unfold or_at, zlen in *. destruct (Z.ltb_spec i 0); [lia|]. destruct (Z.ltb_spec i 0); [lia|].
  destruct (nth_error g (Z.to_nat i)) as [b|] eqn:E; [eauto|]. apply nth_error_None in E. lia.
Qed.
Lemma update_length {A} (g : list A) n v : (n < length g)%nat ->
  length (firstn n g ++ v :: skipn (n + 1) g) = length g.
Proof. intros H. rewrite app_length, firstn_length. cbn [length]. rewrite skipn_length. lia. Qed.
Lemma update_nth (g : list Z) n v k : (n < length g)%nat ->
  nth k (firstn n g ++ v :: skipn (n + 1) g) 0 = if Nat.eqb k n then v else nth k g 0.
Proof.
  intros H. assert (L : length (firstn n g) = n) by (rewrite firstn_length; lia).
  destruct (Nat.eqb_spec k n) as [->|N].
  - rewrite app_nth2 by lia. rewrite L, Nat.sub_diag. reflexivity.
  - destruct (Nat.ltb_spec k n).
    + rewrite app_nth1 by lia. rewrite <- (firstn_skipn n g) at 2. rewrite app_nth1 by lia. reflexivity.
    + rewrite app_nth2 by lia. rewrite L. rewrite <- (firstn_skipn (n + 1) g) at 2.
      rewrite app_nth2 by (rewrite firstn_length; lia). rewrite firstn_length.
      replace (Nat.min (n + 1) (length g)) with (n + 1)%nat by lia.
      replace (k - n)%nat with (S (k - (n + 1)))%nat by lia. reflexivity.
Qed.

Lemma mark_pixel g px py : zlen g = 228 -> 0 <= px < 48 -> 0 <= py < 38 ->
  exists g', graphic_mark_bit g px py 6 = Some g' /\ zlen g' = 228 /\
  forall x y, 0 <= x < 48 -> 0 <= y < 38 -> pixel g' x y = pixel g x y || ((x =? px) && (y =? py)).
Proof.
  intros L Hx Hy. unfold graphic_mark_bit. rewrite Z.quot_div_nonneg by lia.
  destruct (or_at_some (py * 6 + px / 8) (Z.shiftl 1 (px mod 8)) g) as (b & Eb & ->); [lia|].
  eexists. split; [reflexivity|].
  assert (B : (Z.to_nat (py * 6 + px / 8) < length g)%nat) by (unfold zlen in L; lia).
  split; [unfold zlen in *; rewrite update_length by exact B; exact L|].
  intros x y Bx By. unfold pixel. rewrite update_nth by exact B.
  destruct (Nat.eqb_spec (Z.to_nat (6 * y + x / 8)) (Z.to_nat (py * 6 + px / 8))) as [E|E].
  - assert (Ey : y = py) by lia. assert (Ex : x / 8 = px / 8) by lia. rewrite E.
    rewrite (nth_error_nth _ _ 0 Eb). rewrite Z.lor_spec. f_equal.
    rewrite Ey, Z.eqb_refl, andb_true_r. rewrite Z.shiftl_mul_pow2, Z.mul_1_l by lia.
    rewrite Z.pow2_bits_eqb by lia. destruct (Z.eqb_spec (px mod 8) (x mod 8)), (Z.eqb_spec x px); try lia; reflexivity.
  - destruct (Z.eqb_spec x px), (Z.eqb_spec y py); rewrite ?orb_false_r; try reflexivity. subst. exfalso. apply E. f_equal. lia.
Qed.

(** A whole picture: a pixel is set if it was, or if a point is drawn there. *)
Definition drawn_at (e : box) (buffer : Z) (points : list (stitch Q)) (x y : Z) : bool :=
  existsb (fun p => (x =? drawn_x e 6 38 buffer (sx p)) && (y =? drawn_y e 6 38 buffer (sy p))) points.
Lemma draw_pixels e buffer : buffer = 4 \/ buffer = 5 -> forall points g, zlen g = 228 -> Forall (inside e) points ->
  zlen (draw_scaled e points 6 buffer g) = 228 /\
  forall x y, 0 <= x < 48 -> 0 <= y < 38 ->
    pixel (draw_scaled e points 6 buffer g) x y = pixel g x y || drawn_at e buffer points x y.
Proof.
  intros Hb points g L F. unfold draw_scaled. rewrite L. change (228 / 6) with 38.
  revert g L. induction F as [|p r Hp F IH]; intros g L; cbn [fold_left drawn_at existsb].
  - split; [exact L|]. intros. rewrite orb_false_r. reflexivity.
  - destruct (drawn_inside e p buffer Hp Hb) as [Dx Dy].
    destruct (mark_pixel g (drawn_x e 6 38 buffer (sx p)) (drawn_y e 6 38 buffer (sy p)) L ltac:(lia) ltac:(lia))
      as (g' & -> & L' & Hp').
    destruct (IH g' L') as [L2 H2]. split; [exact L2|]. intros x y Bx By.
    rewrite (H2 x y Bx By), (Hp' x y Bx By). fold (drawn_at e buffer r x y). rewrite orb_assoc. reflexivity.
Qed.

(** The two top rows are never drawn on. *)
Lemma draw_top e buffer : buffer = 4 \/ buffer = 5 -> forall points g, zlen g = 228 -> Forall (inside e) points ->
  firstn 12 (draw_scaled e points 6 buffer g) = firstn 12 g.
Proof.
  intros Hb points g L F. unfold draw_scaled. rewrite L. change (228 / 6) with 38.
  revert g L. induction F as [|p r Hp F IH]; intros g L; cbn [fold_left]; [reflexivity|].
  destruct (drawn_inside e p buffer Hp Hb) as [Dx Dy].
  set (px := drawn_x e 6 38 buffer (sx p)) in *. set (py := drawn_y e 6 38 buffer (sy p)) in *.
  destruct (mark_pixel g px py L ltac:(lia) ltac:(lia)) as (g' & E & L' & _). rewrite E, (IH g' L').
  unfold graphic_mark_bit in E. rewrite Z.quot_div_nonneg in E by lia.
  destruct (or_at_some (py * 6 + px / 8) (Z.shiftl 1 (px mod 8)) g) as (b & _ & Eo); [lia|].
  rewrite Eo in E. injection E as <-.
  assert (N : (12 <= Z.to_nat (py * 6 + px / 8) < length g)%nat) by (unfold zlen in L; lia).
  set (n := Z.to_nat (py * 6 + px / 8)) in *. rewrite firstn_app, firstn_firstn, firstn_length.
  replace (12 - Nat.min n (length g))%nat with 0%nat by lia. replace (Nat.min 12 n) with 12%nat by lia.
  rewrite firstn_O. apply app_nil_r.
Qed.

(** ** The points of the blocks are commands of the pattern *)
Lemma stitchblocks_in {T C} (P : stitch C -> Prop) (get : Z -> T) : forall l block thread i,
  Forall P block -> Forall P l -> Forall (fun b => Forall P (fst b)) (stitchblocks get block thread i l).
Proof.
  assert (One : forall (block : list (stitch C)) (t : T), Forall P block ->
    Forall (fun b => Forall P (fst b)) (if 0 <? zlen block then [(block, t)] else [])).
  { intros. destruct (0 <? zlen block); repeat constructor. assumption. }
  induction l as [|s r IH]; intros block thread i Hb Hl; cbn [stitchblocks]; [auto|].
  apply Forall_cons_iff in Hl as [Hs Hr]. destruct (cmd_of (scmd s) =? STITCH).
  - apply IH; [|exact Hr]. apply Forall_app. auto.
  - apply Forall_app. split; [auto|]. destruct (cmd_of (scmd s) =? COLOR_CHANGE); apply IH; auto.
Qed.
Lemma Forall_skipn {A} (P : A -> Prop) n : forall l, Forall P l -> Forall P (skipn n l).
Proof. induction n; intros l H; [exact H|]. destruct l; [exact H|]. apply IHn. inversion H; assumption. Qed.
Lemma Forall_firstn {A} (P : A -> Prop) n : forall l, Forall P l -> Forall P (firstn n l).
Proof. induction n; intros l H; [constructor|]. destruct l; [constructor|]. apply Forall_cons_iff in H as [H1 H2]. constructor; auto. Qed.
Lemma Forall_slice {A} (P : A -> Prop) a b l : Forall P l -> Forall P (py_slice a b l).
Proof. intros H. apply Forall_firstn, Forall_skipn, H. Qed.
Lemma colorblocks_in {T C} (P : stitch C -> Prop) (get : Z -> T) l : Forall P l -> forall r i start pos,
  Forall (fun b => Forall P (fst b)) (colorblocks get l i start pos r).
Proof.
  intros H. induction r as [|s r IH]; intros i start pos; cbn [colorblocks].
  - destruct (negb _); repeat constructor. apply Forall_skipn, H.
  - destruct (cmd_of (scmd s) =? COLOR_BREAK).
    { destruct (negb _); [constructor; [apply Forall_slice, H|]|]; apply IH. }
    destruct (cmd_of (scmd s) =? COLOR_CHANGE); [constructor; [apply Forall_slice, H|apply IH]|].
    destruct ((cmd_of (scmd s) =? NEEDLE_SET) && negb (start =? pos));
      [constructor; [apply Forall_slice, H|apply IH]|apply IH].
Qed.

Lemma box_inside l e : box_of l = Some e -> Forall (inside e) l.
Proof.
  unfold box_of. pose proof (bounds_covers l) as H. destruct (bounds l) as [[[x0 y0] x1] y1].
  destruct x0 as [x0|], y0 as [y0|], x1 as [x1|], y1 as [y1|]; try discriminate.
  intros E. injection E as <-. unfold covers in H. destruct H as [F _]. exact F.
Qed.
Lemma box_some l : l <> [] -> exists e, box_of l = Some e.
Proof.
  intros Hl. unfold box_of. pose proof (bounds_covers l) as H. destruct (bounds l) as [[[x0 y0] x1] y1].
  unfold covers in H. destruct x0 as [x0|], y0 as [y0|], x1 as [x1|], y1 as [y1|]; try contradiction; eauto.
Qed.

(** ** All pictures of a file *)
(** The first shows the stitch blocks of the whole pattern, the others one colour block each. *)
Definition main_picture (e : box) (l : list (stitch Q)) : list Z :=
  fold_left (fun g b => draw_scaled e (fst b) 6 4 g) (get_as_stitchblock (fun _ => tt) l) blank_graphic.
Definition color_picture (e : box) (b : list (stitch Q) * unit) : list Z :=
  draw_scaled e (filter (fun s => scmd s =? STITCH) (fst b)) 6 5 blank_graphic.

Lemma fold_pictures e bs : Forall (fun b => Forall (inside e) (fst b)) bs -> forall g, zlen g = 228 ->
  let g' := fold_left (fun g (b : list (stitch Q) * unit) => draw_scaled e (fst b) 6 4 g) bs g in
  zlen g' = 228 /\ firstn 12 g' = firstn 12 g /\
  forall x y, 0 <= x < 48 -> 0 <= y < 38 -> pixel g' x y = pixel g x y || drawn_at e 4 (flat_map fst bs) x y.
Proof.
  induction bs as [|b bs IH]; intros F g L; cbn [fold_left flat_map].
  - cbn zeta. split; [exact L|]. split; [reflexivity|]. intros. rewrite orb_false_r. reflexivity.
  - apply Forall_cons_iff in F as [Fb F].
    destruct (draw_pixels e 4 (or_introl eq_refl) (fst b) g L Fb) as [L1 P1].
    destruct (IH F _ L1) as (L2 & T2 & P2). cbn zeta. split; [exact L2|]. split.
    + rewrite T2. apply draw_top; auto.
    + intros x y Bx By. rewrite (P2 x y Bx By), (P1 x y Bx By). unfold drawn_at. rewrite existsb_app, orb_assoc. reflexivity.
Qed.

Lemma blank_len : zlen blank_graphic = 228.
Proof. reflexivity. Qed.

Lemma main_picture_ok l e : box_of l = Some e -> zlen (main_picture e l) = 228 /\
  firstn 12 (main_picture e l) = firstn 12 blank_graphic /\
  forall x y, 0 <= x < 48 -> 0 <= y < 38 ->
    pixel (main_picture e l) x y
    = pixel blank_graphic x y || drawn_at e 4 (flat_map fst (get_as_stitchblock (fun _ => tt) l)) x y.
Proof.
  intros E. apply fold_pictures; [|exact blank_len]. apply stitchblocks_in; [constructor|]. apply box_inside, E.
Qed.

Lemma Forall_filter {A} (P : A -> Prop) f l : Forall P l -> Forall P (filter f l).
Proof. rewrite !Forall_forall. intros H x Hx. apply filter_In in Hx as [Hx _]. auto. Qed.

Lemma color_picture_ok l e b : box_of l = Some e -> In b (get_as_colorblocks (fun _ => tt) l) ->
  zlen (color_picture e b) = 228 /\
  forall x y, 0 <= x < 48 -> 0 <= y < 38 ->
    pixel (color_picture e b) x y
    = pixel blank_graphic x y || drawn_at e 5 (filter (fun s => scmd s =? STITCH) (fst b)) x y.
Proof.
  intros E Hb. apply draw_pixels; [auto|exact blank_len|]. apply Forall_filter.
  pose proof (colorblocks_in (inside e) (fun _ => tt) l (box_inside l e E) l 0 0 0) as F.
  rewrite Forall_forall in F. exact (F b Hb).
Qed.

Lemma graphics_split e l : write_pec_graphics e l = main_picture e l ++ flat_map (color_picture e) (get_as_colorblocks (fun _ => tt) l).
Proof. reflexivity. Qed.

Lemma graphics_first l e : box_of l = Some e -> exists q, write_pec_graphics e l = 0 :: q.
Proof.
  intros E. rewrite graphics_split. destruct (main_picture_ok l e E) as (L & T & _).
  destruct (main_picture e l) as [|b r]; [discriminate L|]. cbn [firstn] in T.
  change (firstn 12 blank_graphic) with (0 :: firstn 11 (tl blank_graphic)) in T. injection T as -> _.
  eexists. reflexivity.
Qed.

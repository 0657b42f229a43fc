(** Pictures of designs. *)
From Coq Require Import ZArith QArith Qround List Bool Lia.
From Verif Require Import PyBase EmbConst NumQ ThreadModel ThreadProofs TextModel TextProofs PatternModel PatternSpec
  PatternProofs PropertiesPattern BitLemmas PngModel PngSpec PngProofs.
Import ListNotations.
Open Scope Z_scope.
Ltac Zify.zify_post_hook ::= idtac.

(** ** C108: the dots of a line *)
Definition adjacent (p q : Z * Z) : Prop := p <> q /\ Z.abs (fst q - fst p) <= 1 /\ Z.abs (snd q - snd p) <= 1.
Inductive connected : list (Z * Z) -> Prop :=
| connected_one p : connected [p]
| connected_more p q l : adjacent p q -> connected (q :: l) -> connected (p :: q :: l).

Lemma connected_nth l : l <> [] -> (forall k p q, nth_error l k = Some p -> nth_error l (S k) = Some q -> adjacent p q) -> connected l.
Proof.
  induction l as [|p l IH]; intros N H; [congruence|]. destruct l as [|q l]; [constructor|].
  constructor; [apply (H 0%nat); reflexivity|]. apply IH; [discriminate|]. intros k a b Ha Hb. apply (H (S k)); assumption.
Qed.

Lemma reflected A B s t k v : (s = 1 \/ s = -1) -> (t = 1 \/ t = -1) -> 0 <= A ->
  2 * Z.abs (s * A * v - t * B * (k * s)) <= A -> - A <= 2 * B * k - 2 * A * (t * v) <= A.
Proof. intros [-> | ->] [-> | ->] HA H; lia. Qed.

Lemma sign_of d s : (s = 1 \/ s = -1) -> d = s * Z.abs d -> 0 < Z.abs d -> Z.sgn d = s.
Proof. intros [-> | ->]; lia. Qed.
Lemma signed d : exists s, (s = 1 \/ s = -1) /\ d = s * Z.abs d.
Proof. destruct (Z.le_gt_cases 0 d); [exists 1 | exists (-1)]; lia. Qed.
(** Along the longer side, in either direction. *)
Lemma close_steps D E k u u' v v' : Z.abs E <= Z.abs D -> 0 < Z.abs D ->
  u = k * Z.sgn D -> u' = (k + 1) * Z.sgn D ->
  2 * Z.abs (D * v - E * u) <= Z.abs D -> 2 * Z.abs (D * v' - E * u') <= Z.abs D ->
  u <> u' /\ Z.abs (u' - u) <= 1 /\ Z.abs (v' - v) <= 1.
Proof.
  intros H1 H2 -> ->. destruct (signed D) as (s & Hs & Es). destruct (signed E) as (t & Ht & Et).
  rewrite (sign_of D s Hs Es H2). pose proof (Z.abs_nonneg D) as PA. pose proof (Z.abs_nonneg E) as PB.
  remember (Z.abs D) as A eqn:EA. remember (Z.abs E) as B eqn:EB. clear EA EB. subst D E. intros N N'.
  apply reflected in N; [|assumption|assumption|assumption]. apply reflected in N'; [|assumption|assumption|assumption].
  pose proof (steps_close A B _ _ _ (conj PB H1) H2 N N') as St. clear N N'.
  split; [|split]; destruct Hs as [-> | ->]; destruct Ht as [-> | ->]; lia.
Qed.
Lemma digital_connected x0 y0 x1 y1 l : digital x0 y0 x1 y1 l -> connected l.
Proof.
  unfold digital. cbv zeta. intros (_ & L & H). apply connected_nth; [intros ->; cbn in L; lia|].
  intros k [x y] [x' y'] Hk Hk'. specialize (H k x y Hk) as H1. specialize (H (S k) x' y' Hk') as H2.
  assert (Lk : (S k < length l)%nat) by (apply nth_error_Some; congruence). clear H Hk Hk'.
  set (dx := x1 - x0) in *. set (dy := y1 - y0) in *. unfold adjacent. cbn [fst snd].
  rewrite Nat2Z.inj_succ in H2. unfold Z.succ in H2.
  destruct (Z.lt_ge_cases (Z.abs dy) (Z.abs dx)) as [C|C].
  - destruct (proj1 H1 C) as [X N]. destruct (proj1 H2 C) as [X' N']. clear H1 H2.
    destruct (close_steps dx dy (Z.of_nat k) (x - x0) (x' - x0) (y - y0) (y' - y0)) as (S1 & S2 & S3); try assumption; try (clear N N'; lia).
    clear N N' X X'. split; [intros E; injection E; lia|]. lia.
  - destruct (proj2 H1 C) as [X N]. destruct (proj2 H2 C) as [X' N']. clear H1 H2.
    assert (0 < Z.abs dy) by (clear N N' X X'; lia).
    destruct (close_steps dy dx (Z.of_nat k) (y - y0) (y' - y0) (x - x0) (x' - x0)) as (S1 & S2 & S3); try assumption; try (clear N N'; lia);
      [clear - N; rewrite <- Z.abs_opp; replace (- (dy * (x - x0) - dx * (y - y0))) with (dx * (y - y0) - dy * (x - x0)) by ring; exact N
      |clear - N'; rewrite <- Z.abs_opp; replace (- (dy * (x' - x0) - dx * (y' - y0))) with (dx * (y' - y0) - dy * (x' - x0)) by ring; exact N'|].
    clear N N' X X'. split; [intros E; injection E; lia|]. lia.
Qed.

Lemma zero_of_small a v : 2 * Z.abs (a * v) <= Z.abs a -> a <> 0 -> v = 0.
Proof. intros H N. rewrite Z.abs_mul in H. nia. Qed.

Lemma digital_end x0 y0 x1 y1 l : digital x0 y0 x1 y1 l -> nth_error l (length l - 1) = Some (x1, y1).
Proof.
  unfold digital. cbv zeta. intros (H0 & L & H).
  destruct (nth_error l (length l - 1)) as [[x y]|] eqn:E; [|apply nth_error_None in E; lia]. destruct (H _ _ _ E) as [H1 H2].
  assert (K : Z.of_nat (length l - 1) = Z.max (Z.abs (x1 - x0)) (Z.abs (y1 - y0))) by lia. rewrite K in *.
  destruct (Z.lt_ge_cases (Z.abs (y1 - y0)) (Z.abs (x1 - x0))) as [C|C].
  - destruct (H1 C) as [X N]. rewrite Z.max_l in X by lia. rewrite Z.abs_sgn in X || (rewrite Z.mul_comm, Z.sgn_abs in X).
    assert (x = x1) by lia. clear X. subst x. replace ((x1 - x0) * (y - y0) - (y1 - y0) * (x1 - x0)) with ((x1 - x0) * (y - y1)) in N by ring.
    apply zero_of_small in N; [|lia]. f_equal. f_equal; lia.
  - destruct (H2 C) as [X N]. rewrite Z.max_r in X by lia. rewrite Z.abs_sgn in X || (rewrite Z.mul_comm, Z.sgn_abs in X).
    assert (y = y1) by lia. clear X. subst y. destruct (Z.eq_dec (y1 - y0) 0) as [Z0|NZ].
    + assert (length l = 1%nat) as E1 by lia. rewrite E1 in E. cbn [Nat.sub] in E. rewrite H0 in E. injection E as <-. f_equal. f_equal; lia.
    + replace ((x1 - x0) * (y1 - y0) - (y1 - y0) * (x - x0)) with ((y1 - y0) * - (x - x1)) in N by ring.
      apply zero_of_small in N; [|lia]. f_equal. f_equal; lia.
Qed.

(** The dots drawn for a thread between two needle points: a digital straight line, which starts
    at the one, ends at the other and has no gaps. *)
Theorem C108_line : forall x0 y0 x1 y1, exists l,
  line_of x0 y0 x1 y1 = Ok l /\ digital x0 y0 x1 y1 (dots_of l)
  /\ hd_error (dots_of l) = Some (x0, y0) /\ nth_error (dots_of l) (length (dots_of l) - 1) = Some (x1, y1)
  /\ connected (dots_of l).
Proof.
  intros x0 y0 x1 y1. destruct (line_of_ok x0 y0 x1 y1) as (l & E & G). exists l. split; [exact E|].
  pose proof (gl_digital _ _ _ _ _ G) as D. split; [exact D|]. split; [destruct D as (D & _); destruct (dots_of l); exact D|].
  split; [apply (digital_end _ _ _ _ _ D) | apply (digital_connected _ _ _ _ _ D)].
Qed.

Example C108_case :
  (exists l, line_of 0 0 5 2 = Ok l /\ dots_of l = [(0, 0); (1, 0); (2, 1); (3, 1); (4, 2); (5, 2)])
  /\ (exists l, line_of 3 0 1 (-3) = Ok l /\ dots_of l = [(3, 0); (2, -1); (2, -2); (1, -3)]).
Proof. split; eexists; split; vm_compute; reflexivity. Qed.

(** ** C109: the picture *)
Definition ground (st : png_settings) (p : Z * Z * Z * Z) : Prop :=
  match g_background st with
  | None => p = (0, 0, 0, 0)
  | Some b => p = (part b 16, part b 8, part b 0, 255)
  end.
Definition least (v : Q) (l : list Q) : Prop := In v l /\ forall u, In u l -> (v <= u)%Q.
Definition greatest (v : Q) (l : list Q) : Prop := In v l /\ forall u, In u l -> (u <= v)%Q.

Lemma start_canvas st l x0 y0 x1 y1 : bounds l = (Some x0, Some y0, Some x1, Some y1) ->
  (x0 <= x1)%Q -> (y0 <= y1)%Q ->
  exists c, ready c /\ c_width c = Qfloor (x1 - x0) + 3 /\ c_height c = Qfloor (y1 - y0) + 3
    /\ (forall X Y, inside c X Y -> exists g, at_ c X Y = Some g /\ ground st g)
    /\ forall get, png_picture st get l
       = bindr (draw_blocks (g_fancy st) (match g_linewidth st with Some w => w | None => 3 end)
           (get_as_stitchblock get (translate (- x0) (- y0) l)) c)
           (fun c => if g_guides st then draw_guides (g_fancy st) x0 y0 x1 y1 c else Ok c).
Proof.
  intros Eb Lx Ly. unfold png_picture. rewrite Eb.
  assert (Px : (0 <= x1 - x0)%Q) by Lqa.lra. assert (Py : (0 <= y1 - y0)%Q) by Lqa.lra.
  rewrite (trunc_floor _ Px), (trunc_floor _ Py).
  destruct (new_canvas_ok _ _ (floor_nonneg _ Px) (floor_nonneg _ Py)) as (c & En & S & W & H & P).
  rewrite En. cbn [bindr].
  assert (B0 : Forall byte_pixel (c_pixels c)) by (rewrite P; apply Forall_forall; intros p Hp; apply repeat_spec in Hp; subst; cbn; lia).
  set (c' := match g_background st with Some b => _ | None => c end).
  assert (Sm : c_width c' = c_width c /\ c_height c' = c_height c /\ zlen (c_pixels c') = zlen (c_pixels c)).
  { unfold c'. destruct (g_background st); [|auto]. unfold zlen. cbn. rewrite map_length. auto. }
  assert (S' : sound c') by (apply (same_sound c); auto).
  exists c'. destruct Sm as (Sm1 & Sm2 & Sm3). split; [split; [exact S'|]|split; [congruence|split; [congruence|split; [|reflexivity]]]].
  - unfold c'. destruct (g_background st) as [b|]; [|exact B0]. cbn [background c_pixels]. apply Forall_forall. intros p Hp.
    apply in_map_iff in Hp. destruct Hp as (q & <- & _). unfold get_red, get_green, get_blue. change 0xFF with (Z.ones 8). rewrite !Z.land_ones by lia.
    change (2 ^ 8) with 256. unfold byte_pixel.
    pose proof (Z.mod_pos_bound (Z.shiftr b 16) 256 ltac:(lia)). pose proof (Z.mod_pos_bound (Z.shiftr b 8) 256 ltac:(lia)).
    pose proof (Z.mod_pos_bound b 256 ltac:(lia)). change (Z.ones 8) with 255. lia.
  - intros X Y [HX HY]. unfold at_.
    assert (Lt : (Z.to_nat (c_width c' * Y + X) < length (c_pixels c'))%nat).
    { destruct S' as [Sw Sh Sn]. unfold zlen in Sn. assert (0 <= c_width c' * Y + X < c_width c' * c_height c') by nia. lia. }
    destruct (nth_error (c_pixels c') _) as [g|] eqn:Eg; [|apply nth_error_None in Eg; lia]. exists g. split; [reflexivity|].
    apply nth_error_In in Eg. unfold c' in Eg. unfold ground. destruct (g_background st) as [b|].
    + cbn [background c_pixels] in Eg. apply in_map_iff in Eg. destruct Eg as (q & <- & _).
      unfold get_red, get_green, get_blue, part. change 0xFF with (Z.ones 8). rewrite !Z.land_ones, !Z.shiftr_div_pow2, Z.div_1_r by lia. reflexivity.
    + rewrite P in Eg. apply repeat_spec in Eg. exact Eg.
Qed.

Lemma floor_add_le a b : (a <= b)%Q -> Qfloor a <= Qfloor b.
Proof. apply Qfloor_resp_le. Qed.

(** The picture of a design without guides or shading, with a pen at most three dots wide: as
    wide and high as the design and three dots more; the design is moved so that its least
    coordinates come to dot (1, 1); every dot shows the last thread drawn over it, or the ground. *)
Theorem C109_picture : forall st get l,
  g_guides st = false -> g_fancy st = false ->
  match g_linewidth st with Some w => 0 <= w <= 3 | None => True end ->
  l <> [] -> exists c x0 y0 x1 y1 runs drawn,
  png_picture st get l = Ok c
  /\ least x0 (map sx l) /\ least y0 (map sy l) /\ greatest x1 (map sx l) /\ greatest y1 (map sy l)
  /\ c_width c = Qfloor (x1 - x0) + 3 /\ c_height c = Qfloor (y1 - y0) + 3
  /\ Z.of_nat (length (c_pixels c)) = c_width c * c_height c
  /\ stitch_cut 0 (map (fun s => mkS (sx s - x0)%Q (sy s - y0)%Q (scmd s)) l) runs
  /\ map fst drawn = strokes get runs
  /\ Forall (fun s => line_of_stroke (fst s) (snd s)) drawn
  /\ forall x y, 0 <= x < c_width c -> 0 <= y < c_height c -> exists p g,
       nth_error (c_pixels c) (Z.to_nat (c_width c * y + x)) = Some p /\ ground st g
       /\ shows (match g_linewidth st with Some w => w | None => 3 end) g drawn (x - 1) (y - 1) p.
Proof.
  intros st get l Hg Hf Hw Hl. destruct (C37_bounds l Hl) as (x0 & y0 & x1 & y1 & Eb & Bd & I1 & I2 & I3 & I4).
  assert (Bx : forall u, In u (map sx l) -> (x0 <= u <= x1)%Q) by (intros u Hu; apply in_map_iff in Hu; destruct Hu as (s & <- & Hs); apply Bd, Hs).
  assert (By : forall u, In u (map sy l) -> (y0 <= u <= y1)%Q) by (intros u Hu; apply in_map_iff in Hu; destruct Hu as (s & <- & Hs); apply Bd, Hs).
  pose proof (Bx x1 I2) as [Lx _]. pose proof (By y1 I4) as [Ly _].
  destruct (start_canvas st l x0 y0 x1 y1 Eb Lx Ly) as (c & [S _] & W & H & Gr & Ep).
  destruct (C36_stitch_blocks Z Q get (translate (- x0) (- y0) l)) as (Ec & runs & Cut & Er). rewrite Ep, Er, Hf, Hg.
  set (w := match g_linewidth st with Some w => w | None => 3 end).
  assert (Hw' : 0 <= w <= 3) by (unfold w; destruct (g_linewidth st); lia).
  destruct (over_blocks w get runs c S Hw') as (c' & drawn & E & (S' & W' & H' & F & Sh) & M).
  { assert (Al : Forall (dotted c) (translate (- x0) (- y0) l)).
    { apply Forall_forall. intros s Hs. unfold translate in Hs. apply in_map_iff in Hs. destruct Hs as (u & <- & Hu).
      destruct (Bd u Hu) as [[X1 X2] [Y1 Y2]]. unfold dotted, framed. cbn [sx sy].
      assert (0 <= sx u + - x0)%Q by Lqa.lra. assert (0 <= sy u + - y0)%Q by Lqa.lra.
      split; [apply trunc_floor; assumption|]. split; [apply trunc_floor; assumption|].
      rewrite W, H. split; (split; [apply floor_nonneg; assumption|]).
      - assert (Qfloor (sx u + - x0) <= Qfloor (x1 - x0)) by (apply floor_add_le; Lqa.lra). lia.
      - assert (Qfloor (sy u + - y0) <= Qfloor (y1 - y0)) by (apply floor_add_le; Lqa.lra). lia. }
    apply Forall_forall. intros b Hb. apply Forall_forall. intros s Hs. rewrite Forall_forall in Al. apply Al.
    assert (In s (concat (map fst runs))) as Hi.
    { apply in_concat. exists (fst b). split; [apply in_map, Hb | exact Hs]. }
    rewrite Er, map_map in Ec. cbn [fst] in Ec. change (map (fun x : list (stitch Q) * Z => fst x) runs) with (map fst runs) in Ec.
    rewrite Ec in Hi. apply filter_In in Hi. apply Hi. }
  rewrite E. cbn [bindr]. exists c', x0, y0, x1, y1, runs, drawn. split; [reflexivity|].
  split; [split; [exact I1 | intros u Hu; apply (Bx u Hu)]|]. split; [split; [exact I3 | intros u Hu; apply (By u Hu)]|].
  split; [split; [exact I2 | intros u Hu; apply (Bx u Hu)]|]. split; [split; [exact I4 | intros u Hu; apply (By u Hu)]|].
  split; [congruence|]. split; [congruence|]. split; [apply S'|]. split; [exact Cut|]. split; [exact M|]. split; [exact F|].
  intros x y Hx Hy. destruct (Gr x y) as (g & Eg & Gg); [unfold inside; rewrite <- W', <- H'; auto|].
  destruct (Sh x y g) as (p & E2 & Sp); [unfold inside; rewrite <- W', <- H'; auto | exact Eg |].
  exists p, g. split; [exact E2|]. split; [exact Gg | exact Sp].
Qed.

(** A red thread over a blue one: the crossing dot is red. *)
Definition ex_settings : png_settings := mkPng false false None (Some 1).
Definition on (x y : Q) (c : Z) : stitch Q := mkS x y c.
Definition ex_design : list (stitch Q) :=
  [on 10 10 STITCH; on 12 10 STITCH; on 12 10 COLOR_CHANGE; on (23 # 2) 9 STITCH; on (23 # 2) 12 STITCH; on (23 # 2) 12 END].
Definition ex_color (n : Z) : Z := if n =? 0 then 0xFF else 0xFF0000.
Example C109_case : exists c, png_picture ex_settings ex_color ex_design = Ok c
  /\ c_width c = 5 /\ c_height c = 6
  /\ at_ c 1 2 = Some (0, 0, 255, 251) /\ at_ c 2 2 = Some (255, 0, 0, 251) /\ at_ c 3 2 = Some (0, 0, 255, 251)
  /\ at_ c 2 1 = Some (255, 0, 0, 251) /\ at_ c 2 4 = Some (255, 0, 0, 251) /\ at_ c 1 1 = Some (0, 0, 0, 0).
Proof. eexists. split; [vm_compute; reflexivity|]. vm_compute. repeat split. Qed.

(** ** C110: which designs can be drawn *)
Theorem C110_total : forall st get l, g_guides st = false -> l <> [] ->
  exists c, png_picture st get l = Ok c
    /\ Z.of_nat (length (c_pixels c)) = c_width c * c_height c /\ 3 <= c_width c /\ 3 <= c_height c
    /\ Forall (fun p => let '(r, g, b, a) := p in
         0 <= r < 256 /\ 0 <= g < 256 /\ 0 <= b < 256 /\ 0 <= a < 256) (c_pixels c).
Proof.
  intros st get l Hg Hl. destruct (C37_bounds l Hl) as (x0 & y0 & x1 & y1 & Eb & Bd & I1 & I2 & I3 & I4).
  assert (Lx : (x0 <= x1)%Q) by (apply in_map_iff in I2; destruct I2 as (s & <- & Hs); apply Bd, Hs).
  assert (Ly : (y0 <= y1)%Q) by (apply in_map_iff in I4; destruct I4 as (s & <- & Hs); apply Bd, Hs).
  destruct (start_canvas st l x0 y0 x1 y1 Eb Lx Ly) as (c & R & W & H & _ & Ep). rewrite Ep, Hg.
  destruct (draw_blocks_keeps (g_fancy st) (match g_linewidth st with Some w => w | None => 3 end)
    (get_as_stitchblock get (translate (- x0) (- y0) l)) c R) as (c' & E & [S F] & W' & H').
  rewrite E. cbn [bindr]. exists c'. split; [reflexivity|]. split; [apply S|].
  assert (0 <= Qfloor (x1 - x0)) by (apply floor_nonneg; Lqa.lra). assert (0 <= Qfloor (y1 - y0)) by (apply floor_nonneg; Lqa.lra).
  split; [lia|]. split; [lia | exact F].
Qed.
Theorem C110_empty : forall st get, png_picture st get [] = Err OverflowError.
Proof. reflexivity. Qed.

(** ** C114: guides *)
(** With guides a small design cannot be drawn: the captions are read outside the picture. *)
Theorem C114_guides_refuted : exists st get l, l <> [] /\ g_guides st = true
  /\ png_picture st get l = Err IndexError.
Proof.
  exists (mkPng true false None None), ex_color, [on 0 0 STITCH; on 9 7 STITCH].
  split; [discriminate|]. split; [reflexivity|]. vm_compute. reflexivity.
Qed.
(** Nor can a flat one of any length with a caption between its ends. *)
Theorem C114_flat_refuted : exists st get l x0 x1, bounds l = (Some x0, Some 0%Q, Some x1, Some 25%Q) /\ (110 <= x1 - x0)%Q /\ g_guides st = true
  /\ png_picture st get l = Err IndexError.
Proof.
  exists (mkPng true false None None), ex_color, [on (-1000) 25 JUMP; on (-890) 0 JUMP], (-1000)%Q, (-890)%Q.
  split; [vm_compute; reflexivity|]. split; [discriminate|]. split; [reflexivity|]. vm_compute. reflexivity.
Qed.
(** Designs on which the captions fit can. *)
Theorem C114_guides_partial : forall st get l x0 y0 x1 y1, l <> [] ->
  bounds l = (Some x0, Some y0, Some x1, Some y1) ->
  (22 <= x1 - x0)%Q -> (22 <= y1 - y0)%Q ->
  (forall v, 0 <= v <= Qfloor (x1 - x0) ->
     11 * Z.of_nat (length (str_of_int (Z.quot (v + q_trunc x0) 10))) <= Qfloor (y1 - y0)) ->
  (forall v, 0 <= v <= Qfloor (y1 - y0) ->
     11 * Z.of_nat (length (str_of_int (Z.quot (v + q_trunc y0) 10))) <= Qfloor (x1 - x0)) ->
  exists c, png_picture st get l = Ok c
    /\ c_width c = Qfloor (x1 - x0) + 3 /\ c_height c = Qfloor (y1 - y0) + 3
    /\ Z.of_nat (length (c_pixels c)) = c_width c * c_height c
    /\ Forall (fun p => let '(r, g, b, a) := p in
         0 <= r < 256 /\ 0 <= g < 256 /\ 0 <= b < 256 /\ 0 <= a < 256) (c_pixels c).
Proof.
  intros st get l x0 y0 x1 y1 Hl Eb Lx Ly Fx Fy.
  destruct (start_canvas st l x0 y0 x1 y1 Eb) as (c & R & W & H & _ & Ep); [Lqa.lra | Lqa.lra |]. rewrite Ep.
  destruct (draw_blocks_keeps (g_fancy st) (match g_linewidth st with Some w => w | None => 3 end)
    (get_as_stitchblock get (translate (- x0) (- y0) l)) c R) as (c' & E & R' & W' & H').
  rewrite E. cbn [bindr].
  assert (Tx : q_trunc (x1 - x0) = Qfloor (x1 - x0)) by (apply trunc_floor; Lqa.lra).
  assert (Ty : q_trunc (y1 - y0) = Qfloor (y1 - y0)) by (apply trunc_floor; Lqa.lra).
  pose proof (Qfloor_resp_le 22 (x1 - x0) Lx) as L1. pose proof (Qfloor_resp_le 22 (y1 - y0) Ly) as L2. change (Qfloor 22) with 22 in L1, L2.
  destruct (g_guides st).
  - destruct (draw_guides_keeps (g_fancy st) x0 y0 x1 y1 c' R') as (c2 & E2 & [S2 F2] & W2 & H2); rewrite ?Tx, ?Ty; try assumption; try lia.
    exists c2. split; [exact E2|]. split; [lia|]. split; [lia|]. split; [apply S2 | exact F2].
  - exists c'. split; [reflexivity|]. split; [lia|]. split; [lia|]. destruct R' as [S' F']. split; [apply S' | exact F'].
Qed.
(** The hypotheses hold of a small design away from the origin; it is drawn. *)
Example C114_case :
  bounds [on (-3) 2 STITCH; on 30 40 STITCH] = (Some (-3)%Q, Some 2%Q, Some 30%Q, Some 40%Q)
  /\ (forall v, 0 <= v <= 33 -> 11 * Z.of_nat (length (str_of_int (Z.quot (v + -3) 10))) <= 38)
  /\ (forall v, 0 <= v <= 38 -> 11 * Z.of_nat (length (str_of_int (Z.quot (v + 2) 10))) <= 33)
  /\ exists c, png_picture (mkPng true false None None) ex_color [on (-3) 2 STITCH; on 30 40 STITCH] = Ok c /\ c_width c = 36.
Proof.
  split; [vm_compute; reflexivity|].
  assert (D : forall n lo hi room, forallb (fun v => 11 * Z.of_nat (length (str_of_int (Z.quot (v + lo) 10))) <=? room) (py_range 0 n) = true ->
    hi = n - 1 -> forall v, 0 <= v <= hi -> 11 * Z.of_nat (length (str_of_int (Z.quot (v + lo) 10))) <= room).
  { intros n lo hi room F -> v Hv. rewrite forallb_forall in F. apply Z.leb_le, F, in_range. lia. }
  split; [apply (D 34); [vm_compute; reflexivity | reflexivity]|]. split; [apply (D 39); [vm_compute; reflexivity | reflexivity]|].
  eexists. split; [vm_compute; reflexivity|]. vm_compute. reflexivity.
Qed.

(** ** C111: the file *)
Theorem C111_file : forall crc compress inflate st get l,
  (forall b, inflate (compress b) = b) -> g_guides st = false ->
  forall file, png_write crc compress st get l = Ok file -> exists c img,
  png_picture st get l = Ok c
  /\ (c_width c < 2 ^ 32 -> c_height c < 2 ^ 32 -> (forall b, Z.of_nat (length (compress b)) < 2 ^ 32) ->
      png_file crc inflate file (c_width c) (c_height c) img)
  /\ concat img = c_pixels c.
Proof.
  intros crc compress inflate st get l HI Hg file HF. unfold png_write in HF.
  destruct (png_picture st get l) as [c|e] eqn:Ec; [|discriminate]. cbn [bindr] in HF. injection HF as <-.
  assert (Hl : l <> []) by (intros ->; discriminate).
  destruct (C110_total st get l Hg Hl) as (c' & Ec' & Ln & Lw & Lh & _). rewrite Ec in Ec'. injection Ec' as <-.
  destruct (png_rows_ok (Z.to_nat (c_width c)) (Z.to_nat (c_height c)) (c_pixels c)) as (img & R & Cc & Li); [nia|].
  exists c, img. split; [reflexivity|]. split; [|exact Cc]. intros Bw Bh Bc.
  assert (M : forall v, Z.land 0xFFFFFFFF v = v mod 2 ^ 32) by (intros v; rewrite Z.land_comm; change 0xFFFFFFFF with (Z.ones 32); apply Z.land_ones; lia).
  constructor; [|lia]. unfold write_png.
  set (idat := compress _). exists (png_pack crc [73; 72; 68; 82] (u32 (c_width c) ++ u32 (c_height c) ++ [8; 6; 0; 0; 0]) ++ png_pack crc [73; 68; 65; 84] idat ++ png_pack crc [73; 69; 78; 68] []),
    (u32 (c_width c)), (u32 (c_height c)), idat.
  split; [reflexivity|]. split; [reflexivity|]. split; [reflexivity|]. split; [apply u32_number; lia|]. split; [apply u32_number; lia|].
  assert (P : forall tag data rest cs, length tag = 4%nat -> zlen data < 2 ^ 32 -> chunks crc rest cs -> chunks crc (png_pack crc tag data ++ rest) ((tag, data) :: cs)).
  { intros tag data rest cs Lt Ld Hc. unfold png_pack. rewrite <- !app_assoc. constructor; auto.
    - apply u32_number. unfold zlen in *. lia.
    - rewrite M. apply u32_number. apply Z.mod_pos_bound. lia. }
  split; [|unfold idat; rewrite HI; exact R].
  apply P; [reflexivity | reflexivity |]. apply P; [reflexivity | apply Bc |].
  rewrite <- (app_nil_r (png_pack crc [73; 69; 78; 68] [])). apply P; [reflexivity | reflexivity | constructor].
Qed.
(** With the identity for the compression (which is its own inverse) and a constant checksum. *)
Example C111_case : exists file, png_write (fun _ => 0x01020304) (fun b => b) ex_settings ex_color [on 0 0 STITCH; on 1 0 STITCH] = Ok file
  /\ firstn 41 file = [137; 80; 78; 71; 13; 10; 26; 10; 0; 0; 0; 13; 73; 72; 68; 82; 0; 0; 0; 4; 0; 0; 0; 3; 8; 6; 0; 0; 0; 1; 2; 3; 4;
       0; 0; 0; 51; 73; 68; 65; 84].
Proof. eexists. split; [vm_compute; reflexivity|]. vm_compute. reflexivity. Qed.

(** ** C112: shading along a thread *)
(** Along a thread wider than high the shade is that of the position on the thread. *)
Theorem C112_shading_partial : forall x0 y0 x1 y1, Z.abs (y1 - y0) < Z.abs (x1 - x0) -> exists l,
  line_of x0 y0 x1 y1 = Ok l /\ l_max l = Z.abs (x1 - x0)
  /\ forall k p, nth_error (l_points l) k = Some p -> snd p = Z.of_nat k
       /\ forall w pn c, line_for_point true w pn c (fst (fst p)) (snd (fst p)) (l_vertical l) (l_max l) (snd p)
          = match gradient (inject_Z (Z.of_nat k) / inject_Z (Z.abs (x1 - x0))) with
            | Ok v => Ok (plots pn v (brush w false (fst p)) c)
            | Err e => Err e
            end.
Proof.
  intros x0 y0 x1 y1 H. destruct (line_of_ok x0 y0 x1 y1) as (l & E & G). exists l. split; [exact E|].
  assert (V : l_vertical l = false) by (rewrite (gl_vertical _ _ _ _ _ G); destruct (Z.ltb_spec (Z.abs (y1 - y0)) (Z.abs (x1 - x0))); [reflexivity | lia]).
  assert (Mx : l_max l = Z.abs (x1 - x0)) by (rewrite (gl_max _ _ _ _ _ G); lia). split; [exact Mx|].
  intros k p Hk. pose proof (gl_order _ _ _ _ _ G V k p Hk) as Ek. split; [exact Ek|]. intros w pn c. rewrite Ek, V, Mx.
  unfold line_for_point. destruct (Z.ltb_spec 0 (Z.abs (x1 - x0))); [|lia]. cbn [andb]. destruct (gradient _) as [v|e]; [|reflexivity]. cbn [bindr].
  f_equal. unfold plots, brush. generalize (py_range (- Z.shiftr w 1) (w - Z.shiftr w 1)). intros r. revert c.
  induction r as [|a r IH]; intros c; [reflexivity|]. cbn [map fold_left fst snd]. apply IH.
Qed.
(** Along a thread at least as high as wide it is not: the picture of a design turned by a right
    angle is not the turned picture.  The horizontal thread has its middle lighter than its
    ends; the vertical one stays dark. *)
Definition fancy_settings : png_settings := mkPng false true None (Some 1).
Theorem C112_shading_refuted : exists get a b c c',
  png_picture fancy_settings get [on 0 0 STITCH; on a b STITCH] = Ok c
  /\ png_picture fancy_settings get [on 0 0 STITCH; on b a STITCH] = Ok c'
  /\ c_width c' = c_height c /\ c_height c' = c_width c
  /\ exists x y, inside c x y /\ at_ c x y <> at_ c' y x.
Proof.
  exists ex_color, 10%Q, 0%Q. eexists. eexists. split; [vm_compute; reflexivity|]. split; [vm_compute; reflexivity|].
  split; [reflexivity|]. split; [reflexivity|]. exists 6, 1. split; [vm_compute; intuition discriminate|]. vm_compute. discriminate.
Qed.

(** ** C113: wide pens *)
(** With a wide pen ink appears at the far side of the picture: here 13 dots or more from the
    only thread, which is drawn nine dots wide. *)
Theorem C113_wide_pen_refuted : exists w l c x y p,
  png_picture (mkPng false false None (Some w)) ex_color l = Ok c /\ 0 < w
  /\ inside c x y /\ at_ c x y = Some p /\ p <> (0, 0, 0, 0)
  /\ forall s, In s l -> cmd_of (scmd s) = STITCH -> (sx s + inject_Z w < inject_Z (x - 1))%Q.
Proof.
  exists 9, [on 0 0 STITCH; on 0 3 STITCH; on 20 0 JUMP]. eexists. exists 21, 2. eexists.
  split; [vm_compute; reflexivity|]. split; [reflexivity|]. split; [vm_compute; intuition discriminate|]. split; [vm_compute; reflexivity|].
  split; [discriminate|]. intros s Hs. cbn [In] in Hs. repeat destruct Hs as [<-|Hs]; try contradiction; cbn [sx on scmd]; intros E; try reflexivity; vm_compute in E; discriminate.
Qed.

Print Assumptions C108_line.
Print Assumptions C109_picture.
Print Assumptions C110_total.
Print Assumptions C110_empty.
Print Assumptions C111_file.
Print Assumptions C112_shading_partial.
Print Assumptions C112_shading_refuted.
Print Assumptions C113_wide_pen_refuted.
Print Assumptions C114_guides_refuted.
Print Assumptions C114_flat_refuted.
Print Assumptions C114_guides_partial.

(** Encoding a design again: for Python's floats, what the encoder has made is left as it is. *)
From Coq Require Import ZArith Reals QArith List Bool Lia Lra.
From Flocq Require Import Core.
From Verif Require Import PyBase EmbConst FunctionsModel ThreadModel NumModel MatrixModel EncoderModel EncoderProofs EncoderSpec
  EncodeAgainSpec EncodeAgainProofs EncodeAgainPlan EncodeAgainLoop FloatModel FloatProofs NumQ.
Import ListNotations.
Open Scope Z_scope.

(** ** Doubles *)
Lemma f64_large x : f64 x -> (bpow radix2 53 <= Rabs x)%R -> exists n, x = IZR n.
Proof.
  intros Fx Hx. unfold f64, generic_format in Fx. set (e := cexp radix2 b64 x) in *. set (n := Ztrunc (scaled_mantissa radix2 b64 x)) in *.
  assert (He : 0 <= e).
  { unfold e, cexp, b64, FLT_exp. pose proof (mag_ge_bpow radix2 x 54) as Hm. change (54 - 1) with 53 in Hm. specialize (Hm Hx). lia. }
  exists (n * radix2 ^ e). rewrite Fx. unfold F2R. cbn [Fnum Fexp]. rewrite mult_IZR, IZR_Zpower by exact He. reflexivity.
Qed.
Lemma f64_near x : f64 x -> f64 (IZR (ZnearestE x)).
Proof.
  intros Fx. destruct (Rle_or_lt (bpow radix2 53) (Rabs x)) as [Hx|Hx].
  - destruct (f64_large x Fx Hx) as [n E]. assert (G : ZnearestE x = n) by (rewrite E; apply Zrnd_IZR; typeclasses eauto).
    rewrite G, <- E. exact Fx.
  - apply f64_Z. apply Rabs_lt_inv in Hx. change (bpow radix2 53) with (IZR (2 ^ 53)) in Hx.
    assert (L : ZnearestE x <= 2 ^ 53). { rewrite <- (Zrnd_IZR ZnearestE (2 ^ 53)). apply Zrnd_le; [typeclasses eauto|lra]. }
    assert (L2 : - 2 ^ 53 <= ZnearestE x).
    { rewrite <- (Zrnd_IZR ZnearestE (- 2 ^ 53)). apply Zrnd_le; [typeclasses eauto|]. rewrite opp_IZR. lra. }
    lia.
Qed.

Section Again.
Variables (fcos fsin : R -> R) (forient : R -> R -> R -> R -> R -> R * R).
Notation N := (FNum fcos fsin forient).

Lemma identity_exact x y : f64 x -> f64 y -> point_in_matrix_space N (get_identity N) x y = (x, y).
Proof.
  intros Fx Fy. unfold point_in_matrix_space, get_identity. cbn [m0 m1 m3 m4 m6 m7 fadd fmul f0 f1 FNum NumModel.F].
  repeat first [rewrite Rmult_0_r | rewrite Rmult_1_r | rewrite rnd_0 | rewrite (rnd_f64 x Fx) | rewrite (rnd_f64 y Fy) | rewrite Rplus_0_r | rewrite Rplus_0_l].
  reflexivity.
Qed.
Lemma towards_start a b : f64 a -> towards N a b (f0 N) = a.
Proof.
  intros Fa. unfold towards. cbn [fadd fmul fsub f0 FNum]. rewrite Rmult_0_l, rnd_0, Rplus_0_l. apply rnd_f64, Fa.
Qed.

(** No step of the design is longer on an axis than the settings allow, seen from the start (0, 0): a stitch may be as long as
    a stitch and a jump, a jump as long as a jump. *)
Definition step_fits (l : option (limit N)) (x y : R) (a : stitch R) : Prop :=
  match l with Some (Fin _ v) => f64 v /\ (Rabs (sx a - x) <= v)%R /\ (Rabs (sy a - y) <= v)%R | _ => True end.
Fixpoint steps_fit (set : settings N) (x y : R) (l : list (stitch R)) : Prop :=
  match l with
  | [] => True
  | a :: r => (is_cmd STITCH a = true -> step_fits (s_max_stitch N set) x y a) /\
              (is_cmd STITCH a = true \/ is_cmd JUMP a = true -> step_fits (s_max_jump N set) x y a) /\
              steps_fit set (sx a) (sy a) r
  end.
Lemma not_exceeds d v : f64 v -> (Rabs d <= v)%R -> Rlt_bool v (Rabs (rnd d)) = false.
Proof.
  intros Fv H. apply Rlt_bool_false. unfold rnd, f64, b64 in *. apply abs_round_le_generic; [apply FLT_exp_valid; exact (eq_refl : (0 < 53)%Z)|typeclasses eauto|exact Fv|exact H].
Qed.
Lemma fits_short l x y (a : stitch R) : step_fits l x y a -> short N x y a (get l (Inf N)).
Proof.
  destruct l as [[v|]|]; cbn [step_fits get]; intros H; [|split; reflexivity..]. destruct H as (Fv & Hx & Hy).
  split; apply not_exceeds; assumption.
Qed.
Lemma fit_short set l : forall x y, steps_fit set x y l ->
  short_steps N (get (s_max_stitch N set) (Inf N)) (get (s_max_jump N set) (Inf N)) x y l.
Proof.
  induction l as [|a l IH]; intros x y H; cbn [steps_fit short_steps] in *; [exact I|]. destruct H as (H1 & H2 & H3).
  split; [|split; [|apply IH, H3]].
  - intros E. apply fits_short, H1, Z.eqb_eq, E.
  - intros E. apply fits_short, H2. destruct E as [E|E]; [left|right]; apply Z.eqb_eq, E.
Qed.

(** What encoding with ordinary settings has made from a design that leaves the choice of threads to the encoder, encoded again
    with settings that ask for nothing: stitches and threads are the same. *)
Theorem C196_encoding_again_changes_nothing : forall (set : settings N) p o ths,
  transcode N set p = Ok (o, ths) -> ordinary set ->
  no_tie_commands (p_stitches N p) -> leaves_threads_open (p_stitches N p) ->
  opens_with_stitch o -> no_sequins o -> count_cmd COLOR_CHANGE o <= 254 ->
  forall set2 threads, asks_nothing set2 -> steps_fit set2 0 0 o -> length threads = length ths ->
  transcode N set2 (mkP N o threads) = Ok (o, map Own threads).
Proof.
  intros set p o ths E O Ht Ho Hop Hns Hc set2 threads A Sf L.
  apply (encode_again N f64) with (set := set) (p := p) (ths := ths); try assumption.
  - apply (f64_Z 0). cbn. lia.
  - intros a b. apply f64_rnd.
  - intros a b Fa Eb. cbn [fround FNum] in Eb. injection Eb as <-. apply f64_near, Fa.
  - intros a b. apply towards_start.
  - intros x y. apply identity_exact.
  - apply fit_short, Sf.
Qed.
End Again.

(** ** A case *)
Section Case.
Variables (fcos fsin : R -> R) (forient : R -> R -> R -> R -> R -> R * R).
Notation N := (FNum fcos fsin forient).
Definition c196_set : settings N := mkSettings N None None None None None None None None None None None None None None None None.
Definition c196_thread (n : Z) : thread := mkT n None None None None None None.
Definition c196_p : pattern N :=
  mkP N [mkS 3%R 4%R STITCH; mkS 10%R 4%R STITCH; mkS 0%R 0%R TRIM; mkS 20%R 4%R JUMP; mkS 25%R 4%R NEEDLE_AT;
         mkS 0%R 0%R COLOR_BREAK; mkS 25%R 9%R SEW_TO; mkS 0%R 0%R STOP; mkS 25%R 12%R STITCH] [c196_thread 1; c196_thread 2].
Definition c196_o : list (stitch R) :=
  [mkS 3%R 4%R STITCH; mkS 10%R 4%R STITCH; mkS 10%R 4%R TRIM; mkS 20%R 4%R JUMP; mkS 25%R 4%R STITCH;
   mkS 25%R 4%R (encode_thread_change COLOR_CHANGE (Some 1) (Some 2) None); mkS 25%R 9%R STITCH; mkS 25%R 9%R STOP; mkS 25%R 12%R STITCH;
   mkS 25%R 12%R END].
Lemma c196_first : transcode N c196_set c196_p = Ok (c196_o, map Own [c196_thread 1; c196_thread 2]).
Proof.
  assert (P : forall a b, Z.abs a <= 2 ^ 53 -> Z.abs b <= 2 ^ 53 -> point_in_matrix_space N (get_identity N) (IZR a) (IZR b) = (IZR a, IZR b)).
  { intros a b Ha Hb. apply identity_exact; apply f64_Z; assumption. }
  cbv -[rnd IZR point_in_matrix_space FNum get_identity NumModel.F f0 f1 c196_o].
  repeat rewrite P by (vm_compute; discriminate). reflexivity.
Qed.
Example C196_case : exists p o ths, transcode N c196_set p = Ok (o, ths) /\ ordinary c196_set /\
  no_tie_commands (p_stitches N p) /\ leaves_threads_open (p_stitches N p) /\
  opens_with_stitch o /\ no_sequins o /\ count_cmd COLOR_CHANGE o <= 254 /\
  asks_nothing c196_set /\ steps_fit _ _ _ c196_set 0 0 o /\ length o = 10%nat /\ length ths = 2%nat.
Proof.
  exists c196_p, c196_o, (map Own [c196_thread 1; c196_thread 2]). split; [apply c196_first|].
  split; [split; left; reflexivity|].
  split; [unfold no_tie_commands; cbn [p_stitches c196_p]; repeat (constructor; [split; reflexivity|]); constructor|].
  split; [unfold leaves_threads_open; cbn [p_stitches c196_p]; repeat (constructor; [split; [reflexivity|vm_compute; reflexivity]|]); constructor|].
  split; [exists [], (mkS 3%R 4%R STITCH); eexists; split; [reflexivity|]; split; [reflexivity|constructor]|].
  split; [unfold no_sequins, c196_o; repeat (constructor; [split; reflexivity|]); constructor|].
  split; [vm_compute; discriminate|].
  split; [split; try (left; reflexivity); reflexivity|].
  split; [|split; reflexivity].
  unfold c196_o. cbn [steps_fit step_fits s_max_stitch s_max_jump c196_set]. repeat split; intros _; exact I.
Qed.
End Case.

(** ** C197: without the conditions *)
Definition c197_set : settings ExNum := mkSettings ExNum None None None None None None None None None None None None None None None None.
Definition c197_threads (n : nat) : list thread := map (fun k => mkT (Z.of_nat k) None None None None None None) (seq 0 n).
(** A design with six threads, of which the sixth is asked for: the second encoding makes a thread up. *)
Definition c197_asks : pattern ExNum :=
  mkP ExNum [mkS 0%Q 0%Q STITCH; mkS 0%Q 0%Q (encode_thread_change COLOR_CHANGE (Some 5) None None); mkS 5%Q 0%Q STITCH] (c197_threads 6).
(** A design that changes colours twice before it sews: the second encoding drops a colour change and a thread. *)
Definition c197_leads : pattern ExNum :=
  mkP ExNum [mkS 0%Q 0%Q COLOR_CHANGE; mkS 0%Q 0%Q COLOR_CHANGE; mkS 5%Q 0%Q STITCH] (c197_threads 2).

Theorem C197_encoding_again_refuted :
  (exists o1 o2 t1 t2, transcode ExNum c197_set c197_asks = Ok (o1, map Own t1) /\
     transcode ExNum c197_set (mkP ExNum o1 t1) = Ok (o2, t2) /\ map scmd o2 = map scmd o1 /\
     length t1 = 2%nat /\ t2 = [Own (nth 0 t1 (mkT 0 None None None None None None)); Filler]) /\
  (exists o1 o2 t1 t2, transcode ExNum c197_set c197_leads = Ok (o1, map Own t1) /\
     transcode ExNum c197_set (mkP ExNum o1 t1) = Ok (o2, map Own t2) /\
     count_cmd COLOR_CHANGE o1 = 1 /\ length t1 = 2%nat /\ count_cmd COLOR_CHANGE o2 = 0 /\ length t2 = 1%nat) /\
  ~ (forall p o1 t1, transcode ExNum c197_set p = Ok (o1, map Own t1) ->
       exists o2, transcode ExNum c197_set (mkP ExNum o1 t1) = Ok (o2, map Own t1) /\ map scmd o2 = map scmd o1).
Proof.
  assert (A : exists o1 o2 t1 t2, transcode ExNum c197_set c197_asks = Ok (o1, map Own t1) /\
     transcode ExNum c197_set (mkP ExNum o1 t1) = Ok (o2, t2) /\ map scmd o2 = map scmd o1 /\
     length t1 = 2%nat /\ t2 = [Own (nth 0 t1 (mkT 0 None None None None None None)); Filler]).
  { eexists _, _, (map (fun k => mkT k None None None None None None) [0; 5]), _.
    split; [vm_compute; reflexivity|]. split; [vm_compute; reflexivity|]. repeat split; vm_compute; reflexivity. }
  split; [exact A|]. split.
  - eexists _, _, (map (fun k => mkT k None None None None None None) [0; 1]), (map (fun k => mkT k None None None None None None) [1]).
    split; [vm_compute; reflexivity|]. split; [vm_compute; reflexivity|]. repeat split; vm_compute; reflexivity.
  - intros H. destruct A as (o1 & o2 & t1 & t2 & E1 & E2 & _ & L & E3). destruct (H _ _ _ E1) as (o3 & E4 & _).
    rewrite E2 in E4. injection E4 as _ E5. rewrite E3 in E5. destruct t1 as [|a [|b [|]]]; try discriminate L. discriminate E5.
Qed.

Print Assumptions C196_encoding_again_changes_nothing.
Print Assumptions C196_case.
Print Assumptions C197_encoding_again_refuted.

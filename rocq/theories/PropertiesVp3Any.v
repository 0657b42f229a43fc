(** C159: VP3 files of patterns of any size and place. *)
From Coq Require Import ZArith List Bool Lia.
From Verif Require Import PyBase EmbConst ThreadModel JefSpec Vp3Model Vp3Spec Vp3Proofs EncoderSpec EncoderColorSpec Vp3AnyProofs PropertiesVp3.
Import ListNotations.
Open Scope Z_scope.

(** Read back, every colour section has its stitches, moved all by the same amount; the first section is not moved; and if
    colour changes are made at the last penetration or away from the axes, no section is moved by more than one unit. *)
Theorem C159_vp3_sections : forall filler threads p,
  p <> [] -> vp3_steps 0 0 p -> small_coordinates p -> Z.of_nat (color_changes p) < 65535 ->
  Forall plain_texts threads -> (forall i, plain_texts (filler i)) ->
  exists file, vp3_write filler p threads = Ok file /\
    (Z.of_nat (length file) < 2 ^ 32 ->
     exists l read_threads shift, vp3_read file = Ok (in_hundredths l, read_threads) /\ shift 0%nat = (0, 0) /\
       coloured 0 l = map (fun s => (fst s, (fst (snd s) + fst (shift (fst s)), snd (snd s) + snd (shift (fst s))))) (coloured 0 p) /\
       length read_threads = S (color_changes p) /\
       (forall k t, (k <= color_changes p)%nat -> nth_error threads k = Some t ->
          exists r, nth_error read_threads k = Some r /\ vt_color r = Some (t_color t mod 2 ^ 24) /\
            vt_catalog r = Some (match t_catalog t with Some s => s | None => [] end) /\
            vt_description r = Some (match t_description t with Some s => s | None => hex_color (t_color t) end) /\
            vt_brand r = Some (match t_brand t with Some s => s | None => [] end)) /\
       (near_changes 0 0 p -> forall k, Z.abs (fst (shift k)) <= 1 /\ Z.abs (snd (shift k)) <= 1)).
Proof.
  intros filler threads p H1 H2 H3 H4 H5 H6.
  destruct (vp3_roundtrip_any filler threads p H1 H2 H3 H4 H5 H6) as (file & sumx & sumy & W & R). exists file. split; [exact W|]. intros L.
  destruct (any_sections sumx sumy p 0%nat 0 0 0 0 H2) as (shift & S1 & S2 & S3).
  exists (any_view sumx sumy 0 0 0 0 p). eexists. exists shift. split; [apply R; exact L|]. split; [exact S1|]. split; [exact S2|].
  split; [unfold block_threads; rewrite !map_length, seq_length; reflexivity|]. split.
  { intros k t Hk Ht. exists (thread_kept t). split; [|repeat split].
    unfold block_threads. rewrite map_map. rewrite nth_error_map, (nth_error_nth' _ 0%nat) by (rewrite seq_length; lia).
    rewrite seq_nth by lia. cbn [option_map Nat.add]. rewrite Ht. reflexivity. }
  intros N. apply S3; [exact N|lia|lia].
Qed.
Print Assumptions C159_vp3_sections.

(** The pattern of C18_odd_extents_refuted, 3 wide and 3 high: its second section comes back moved by one unit. *)
Definition c159_pattern : list (stitch Z) := [mkS 0 0 STITCH; mkS 3 3 STITCH; mkS 3 3 COLOR_CHANGE; mkS 1 1 STITCH].
Example C159_case : c159_pattern <> [] /\ vp3_steps 0 0 c159_pattern /\ small_coordinates c159_pattern /\ near_changes 0 0 c159_pattern /\
  match vp3_write plain_thread c159_pattern [] with
  | Ok f => match vp3_read f with Ok (l, _) => coloured 0 l = [(0%nat, (0, 0)); (0%nat, (300, 300)); (1%nat, (0, 0))] | Err _ => False end
  | Err _ => False end.
Proof.
  split; [discriminate|]. split; [|split; [|split]].
  - cbn [c159_pattern vp3_steps scmd sx sy]. left. split; [reflexivity|]. split; [unfold step_16; lia|].
    left. split; [reflexivity|]. split; [unfold step_16; lia|]. right; right; left. split; [reflexivity|].
    left. split; [reflexivity|]. split; [unfold step_16; lia|exact I].
  - intros s H. cbn in H. repeat (destruct H as [<-|H]; [cbn; lia|]). destruct H.
  - cbn. auto.
  - vm_compute. reflexivity.
Qed.

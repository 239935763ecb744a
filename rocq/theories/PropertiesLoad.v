(** * PropertiesLoad: C137, sessions light enough for the stream buffers. *)
From Coq Require Import String List Sorted Lia.
From Verif Require Import Base CollectionsSpec NaluModel NaluSpec NaluProofs SpsModel RecordModel AacModel UtilModel BlockModel BlockSpec PacketModel PacketProofs DemuxModel DemuxProofs DeliverySpec DeliveryProofs TrackSpec TrackProofs
  HandlerModel HandlerSpec HandlerProofs PropertiesNalu PropertiesPacket PropertiesDemux PropertiesTracks PropertiesSps SystemSpec SystemGrowSpec PropertiesSystemGrow
  RecordingModel RecordingProofs PropertiesRecording IntakeSpec IntakeProofs RecordedSpec RecordedProofs PropertiesIntake OpenedSpec OpenedProofs PropertiesOpened FlvRecordSpec FlvRecordProofs PropertiesFlvRecord RecordSafeSpec RecordSafeProofs
  PropertiesRecordSafe PropertiesUnitsOut ArrivalSpec PropertiesArrival FlvSafeSpec FlvSafeProofs PropertiesFlvSafe LoadSpec LoadProofs.
Import ListNotations.
Local Open Scope list_scope.

(* ---------------------------------------------------------------------------------------- *)
(** ** C137 Which sessions the stream buffers can take, read off the calls *)
(** What waits in the demuxer for a buffer, and so lies in its memory: before the probe completes every accepted packet of that buffer,
    afterwards the last one. [refused] are the packets handed over before the buffer had a track. *)
Theorem C137_waiting : forall name h d evs, Forall sorting h -> Forall no_hook h -> run (dm_new name) h = Ok (d, evs) -> aligned evs -> NoDup (map snd (dm_map d)) ->
  forall b, exists refused kept, for_buffer b (payloads h) = refused ++ kept /\ kept = for_buffer b (map payload_of (accepted evs)) /\
    map pk_data (DeliverySpec.waiting b d) = map payload_data (if dm_completed d then last_only kept else kept).
Proof. exact waits. Qed.
(** So a session fits if, up to the call that completes the probe, all packets of a buffer together, and from then on any packet with the one
    before it, fill at most half of its memory. *)
Theorem C137_fits : forall name o1 c1 la lb d evs, let first := ((o1, OpSetAutoFree true), c1) in let h := map fst (first :: la ++ lb) in
  Forall sorting h -> Forall no_hook h -> Forall delivery_op h -> run (dm_new name) h = Ok (d, evs) -> aligned evs -> NoDup (map snd (dm_map d)) ->
  (forall d1 e1, run (dm_new name) (map fst (first :: la)) = Ok (d1, e1) -> lb = [] \/ dm_completed d1 = true) -> light (first :: la) lb -> sys_fits (sys_new name) (first :: la ++ lb).
Proof. exact light_fits. Qed.
(** It is enough that no packet is larger than a quarter of the memory of its buffer, however many packets follow the probe. *)
Theorem C137_quarter : forall la lb, light la [] ->
  (forall before c after b data, la ++ lb = before ++ c :: after -> call_block (snd (fst c)) = Some (b, data) ->
     concat (snd c) = data /\ snd c <> [] /\ 0 <= b <= zlen (streams_of before) /\ 2 * zlen data <= stream_half (nth (Z.to_nat b) (streams_of (before ++ [c])) false)) ->
  light la lb.
Proof. exact quarter_light. Qed.

Lemma probed (la : list call) : (exists o, In (o, OpProbeComplete) (map fst la)) -> forall name d1 e1, run (dm_new name) (map fst la) = Ok (d1, e1) -> dm_completed d1 = true.
Proof. intros (o & I) name d1 e1 R. eapply probe_completes; [apply wf_new|exact I|exact R]. Qed.

(** *** Sessions without announced tracks: the calls alone decide that they fit *)
Theorem C137_safe : forall name t o1 c1 o2 c2 la lb, let first := [((o1, OpSetAutoFree true), c1); ((o2, OpSetHandler), c2)] in let h := map fst (first ++ la ++ lb) in In (name, t) clock ->
  Forall sorting h -> Forall no_hook h -> Forall delivery_op h -> Forall safe_call h -> (exists o, In (o, OpProbeComplete) (map fst la)) -> light (first ++ la) lb -> sys_fits (sys_new name) (first ++ la ++ lb).
Proof.
  intros name t o1 c1 o2 c2 la lb first h Cl So Nh D S (o & I) Li. subst h first. cbn [app] in *. set (l := la ++ lb) in *.
  assert (W := hooked _ So Nh). cbn [map fst] in So, W, S. pose proof (Forall_inv So) as O1. pose proof (Forall_inv (Forall_inv_tail So)) as O2.
  destruct (C128_demuxes name t o1 o2 (map fst l) Cl O1 O2 (Forall_inv_tail (Forall_inv_tail W)) (Forall_inv_tail (Forall_inv_tail S))) as (d & evs & R & _).
  destruct (reach_driven name ((o1, OpSetAutoFree true) :: (o2, OpSetHandler) :: map fst l) d evs) as ((Al & _ & N) & _); [|exact R|].
  { apply Forall_forall. intros x Ix. rewrite Forall_forall in W, S. split; [now apply W|now apply safe_driven, S]. }
  apply (light_fits name o1 c1 (((o2, OpSetHandler), c2) :: la) lb d evs); auto. intros d1 e1 R1. right. refine (probed _ (ex_intro _ o _) _ _ _ R1). cbn [map]. do 2 right. exact I.
Qed.
(** C129 with the calls alone: the recording runs to its end, and the file holds the units that were handed over. *)
Theorem C137_h264 : forall path name o1 c1 o2 c2 o3 b data dts pts c3 la lb, let x0 := (AVMediaTypeVideo, b, AVCodecIdH264, data, true, dts, pts) in
  let head := [((o1, OpSetAutoFree true), c1); ((o2, OpSetHandler), c2); ((o3, OpVideo b AVCodecIdH264 data true dts pts), c3)] in let session := head ++ la ++ lb in let h := map fst session in In (name, 1) packing ->
  Forall sorting h -> Forall no_hook h -> Forall delivery_op h -> Forall safe_call h -> (exists o, In (o, OpProbeComplete) (map fst la)) -> light (head ++ la) lb ->
  StronglySorted Z.lt (map payload_dts (for_buffer b (payloads h))) ->
  forall units, (forall x, In x (for_buffer b (payloads h)) -> payload_data x = annexb (units x) /\ units x <> [] /\ Forall unit_ok (units x)) ->
  forall sps pps info rest, avc_sets (units x0) sps pps -> avc_parse_sps (start4 ++ sps) = Ok info -> for_buffer b (payloads h) = x0 :: rest ->
  exists y f, rec_run path (sys_new name) (fh_start (fun _ => [])) session = Ok (y, f) /\
    let file := fh_disk f (path ++ ".video.0.H264")%string in
    let written := concat (map (fun x => recorded_units [(true, sps); (true, pps)] (payload_key x) (units x)) (removelast (x0 :: rest))) in
    file = annexb written /\ (rest <> [] -> split_nalu file = Ok (map sc_unit written)).
Proof.
  intros path name o1 c1 o2 c2 o3 b data dts pts c3 la lb x0 head session h Pk So Nh D Sc (o & I) Li As units U sps pps info rest.
  assert (Cl : exists t, In (name, t) clock).
  { unfold packing in Pk. unfold clock. repeat (destruct Pk as [Pk|Pk]; [injection Pk as <-; eexists; cbn; eauto 6; fail|]). destruct Pk. }
  destruct Cl as (t & Cl). pose proof (C137_safe name t o1 c1 o2 c2 (((o3, OpVideo b AVCodecIdH264 data true dts pts), c3) :: la) lb Cl So Nh D Sc (ex_intro _ o (or_intror I)) Li) as Su.
  apply (C129_h264 path name o1 c1 o2 c2 o3 b data dts pts c3 (la ++ lb)); auto. exists o. subst h session head. cbn [app map]. do 3 right. rewrite map_app. apply in_or_app. now left.
Qed.
Theorem C137_h265 : forall path name o1 c1 o2 c2 o3 b data dts pts c3 la lb, let x0 := (AVMediaTypeVideo, b, AVCodecIdH265, data, true, dts, pts) in
  let head := [((o1, OpSetAutoFree true), c1); ((o2, OpSetHandler), c2); ((o3, OpVideo b AVCodecIdH265 data true dts pts), c3)] in let session := head ++ la ++ lb in let h := map fst session in In (name, 1) packing ->
  Forall sorting h -> Forall no_hook h -> Forall delivery_op h -> Forall safe_call h -> (exists o, In (o, OpProbeComplete) (map fst la)) -> light (head ++ la) lb ->
  StronglySorted Z.lt (map payload_dts (for_buffer b (payloads h))) ->
  forall units, (forall x, In x (for_buffer b (payloads h)) -> payload_data x = annexb (units x) /\ units x <> [] /\ Forall unit_ok (units x)) ->
  forall vps sps pps info rest, hevc_sets (units x0) vps sps pps -> hevc_parse_sps (start4 ++ sps) = Ok info -> for_buffer b (payloads h) = x0 :: rest ->
  exists y f, rec_run path (sys_new name) (fh_start (fun _ => [])) session = Ok (y, f) /\
    let file := fh_disk f (path ++ ".video.0.H265")%string in
    let written := concat (map (fun x => recorded_units [(true, vps); (true, sps); (true, pps)] (payload_key x) (units x)) (removelast (x0 :: rest))) in
    file = annexb written /\ (rest <> [] -> split_nalu file = Ok (map sc_unit written)).
Proof.
  intros path name o1 c1 o2 c2 o3 b data dts pts c3 la lb x0 head session h Pk So Nh D Sc (o & I) Li As units U vps sps pps info rest.
  assert (Cl : exists t, In (name, t) clock).
  { unfold packing in Pk. unfold clock. repeat (destruct Pk as [Pk|Pk]; [injection Pk as <-; eexists; cbn; eauto 6; fail|]). destruct Pk. }
  destruct Cl as (t & Cl). pose proof (C137_safe name t o1 c1 o2 c2 (((o3, OpVideo b AVCodecIdH265 data true dts pts), c3) :: la) lb Cl So Nh D Sc (ex_intro _ o (or_intror I)) Li) as Su.
  apply (C129_h265 path name o1 c1 o2 c2 o3 b data dts pts c3 (la ++ lb)); auto. exists o. subst h session head. cbn [app map]. do 3 right. rewrite map_app. apply in_or_app. now left.
Qed.

(** *** flv sessions with announced tracks *)
Theorem C137_announced : forall o1 c1 o2 c2 la l lb d1 e1, let first := [((o1, OpSetAutoFree true), c1); ((o2, OpSetHandler), c2)] in let h1 := map fst (first ++ la) in let h := map fst (first ++ la ++ l ++ lb) in let bs := map snd (dm_map d1) in
  Forall sorting h -> Forall no_hook h -> Forall delivery_op h -> Forall flv_source h -> (exists o, In (o, OpProbeComplete) (map fst l)) ->
  run (dm_new "flv") h1 = Ok (d1, e1) -> payloads h1 = [] -> NoDup bs -> Forall packet_driven (map fst (l ++ lb)) -> (forall x, In x (payloads (map fst (l ++ lb))) -> In (payload_buffer x) bs) -> buffers_in_turn bs (payloads (map fst (l ++ lb))) ->
  light (first ++ la ++ l) lb -> sys_fits (sys_new "flv") (first ++ la ++ l ++ lb).
Proof.
  intros o1 c1 o2 c2 la l lb d1 e1 first h1 h bs So Nh D Sc (o & I) R1 P1 Nd Pd K T Li.
  assert (W := hooked _ So Nh). assert (Eh : h = (o1, OpSetAutoFree true) :: (o2, OpSetHandler) :: map fst (la ++ l ++ lb)) by reflexivity. assert (Eh' : h = h1 ++ map fst (l ++ lb)) by (subst h h1 first; cbn [app map]; now rewrite !map_app).
  pose proof So as So0. pose proof Sc as Sc0. rewrite Eh in So0, Sc0, W. pose proof (Forall_inv So0) as O1. pose proof (Forall_inv (Forall_inv_tail So0)) as O2.
  destruct (source_run o1 o2 (map fst (la ++ l ++ lb)) O1 O2 (Forall_inv_tail (Forall_inv_tail W)) (Forall_inv_tail (Forall_inv_tail Sc0))) as (d & evs & R & _). rewrite <- Eh in R.
  pose proof Nh as Nh0. rewrite Eh' in Nh0. apply Forall_app in Nh0 as [N1 N2].
  pose proof R as R'. rewrite Eh', run_app, R1 in R'. cbn [bind] in R'. destruct (run d1 (map fst (l ++ lb))) as [[d2 e2]| | |] eqn:R2; cbn [bind] in R'; try discriminate. injection R' as -> Ee.
  destruct (C130_announced "flv" h1 (map fst (l ++ lb)) d1 e1 d e2 N1 N2 R1 P1 Nd Pd K R2) as (_ & M & _ & Al). rewrite Ee in Al. apply Al in T. clear Al.
  subst h first. cbn [app] in *. change (la ++ l ++ lb) with (la ++ (l ++ lb)) in *. rewrite app_assoc in *.
  apply (light_fits "flv" o1 c1 (((o2, OpSetHandler), c2) :: la ++ l) lb d evs); auto; [now rewrite M|].
  intros d3 e3 R3. right. refine (probed _ (ex_intro _ o _) _ _ _ R3). cbn [map]. do 2 right. rewrite map_app. apply in_or_app. now right.
Qed.

(** A packet of sound, the end of the probe, then any number of packets of 144000 bytes, a quarter of the memory of the buffer each. *)
Definition C137_head : list call :=
  [((o0, OpSetAutoFree true), []); ((o0, OpSetHandler), []); ((o0, OpAudio 0 G711A [1; 2] 0), [[1]; [2]]); ((o0, OpProbeComplete), [])].
Definition C137_sound (t : nat) : call := let data := repeat 7 (Z.to_nat 144000) in ((o0, OpAudio 0 G711A data (Z.of_nat t)), [data]).
Lemma sound_size : zlen (repeat 7 (Z.to_nat 144000)) = 144000.
Proof. unfold zlen. rewrite repeat_length. lia. Qed.
Lemma C137_streams l : Forall (fun c => exists t, c = C137_sound t) l -> streams_of (C137_head ++ l) = [false].
Proof.
  induction l as [|c l IH] using rev_ind; intros F; [reflexivity|]. apply Forall_app in F as [F Fc]. apply Forall_inv in Fc as (t & ->). rewrite app_assoc, streams_snoc, IH by exact F. reflexivity.
Qed.
Lemma C137_sizes l : Forall (fun c => exists t, c = C137_sound t) l -> sizes 0 (map fst (C137_head ++ l)) = 2 :: repeat 144000 (length l).
Proof.
  intros F. rewrite map_app. unfold sizes, payloads. rewrite flat_map_app. unfold for_buffer. rewrite filter_app, map_app. change (2 :: repeat 144000 (length l)) with ([2] ++ repeat 144000 (length l)). f_equal.
  induction F as [|c l (t & ->) F IH]; [reflexivity|]. cbn [map flat_map fst snd C137_sound call_payload app filter payload_buffer length repeat]. change (0 =? 0) with true. cbv iota. cbn [map payload_data]. rewrite sound_size. f_equal. exact IH.
Qed.
Example C137_example : forall n, let lb := map C137_sound (seq 1 n) in light C137_head lb /\ total (sizes 0 (map fst (C137_head ++ lb))) = 2 + 144000 * Z.of_nat n /\ sys_fits (sys_new "ts") (C137_head ++ lb).
Proof.
  intros n lb. assert (F : Forall (fun c => exists t, c = C137_sound t) lb) by (apply Forall_forall; intros c I; apply in_map_iff in I as (t & <- & _); eauto).
  assert (Li : light C137_head lb).
  { split.
    - intros before c after E. destruct before as [|x [|x2 [|x3 [|x4 before]]]]; cbn [app] in E; try (destruct before; discriminate E).
      all: unfold C137_head in E; injection E as E1 E2; repeat match goal with H : ?a :: _ = ?x :: _ |- _ => injection H as ? ? end; subst; try exact Logic.I.
      cbn. repeat split; try discriminate; lia.
    - intros before c after E. rewrite E in F. apply Forall_app in F as [Fb Fc]. apply Forall_inv in Fc as (t & ->). unfold takes. cbn [C137_sound fst snd call_block].
      assert (Fs : Forall (fun c => exists t, c = C137_sound t) (before ++ [C137_sound t])) by (apply Forall_app; split; [exact Fb|constructor; [eauto|constructor]]).
      rewrite C137_streams by exact Fb. rewrite <- app_assoc. change ((o0, OpAudio 0 G711A (repeat 7 (Z.to_nat 144000)) (Z.of_nat t)), [repeat 7 (Z.to_nat 144000)]) with (C137_sound t). rewrite C137_streams by exact Fs. rewrite C137_sizes by exact Fb. rewrite sound_size.
      split; [cbn [concat]; apply app_nil_r|]. split; [discriminate|]. split; [change (zlen [false]) with 1; lia|]. change (stream_half _) with 288000.
      assert (L : last (2 :: repeat 144000 (length before)) 0 <= 144000); [|lia]. destruct (length before) as [|k]; [cbn; lia|]. cbn [repeat]. rewrite repeat_cons, app_comm_cons, last_last. lia. }
  split; [exact Li|]. split.
  - rewrite C137_sizes by exact F. subst lb. rewrite map_length, seq_length. clear. unfold total. cbn [fold_right]. f_equal. induction n as [|n IH]; [reflexivity|]. cbn [repeat fold_right]. lia.
  - refine (C137_safe "ts" _ o0 [] o0 [] (skipn 2 C137_head) lb _ _ _ _ _ _ Li); [do 3 right; left; reflexivity|..].
    5: exists o0; right; now left.
    all: rewrite app_assoc, map_app; apply Forall_app; split; [repeat (constructor; [first [exact o0_ok|exact Logic.I|reflexivity]|]); constructor|apply Forall_map; eapply Forall_impl; [|exact F]; intros c (t & ->); first [exact o0_ok|exact Logic.I]].
Qed.
Print Assumptions C137_waiting.
Print Assumptions C137_fits.
Print Assumptions C137_quarter.
Print Assumptions C137_safe.
Print Assumptions C137_h264.
Print Assumptions C137_h265.
Print Assumptions C137_announced.

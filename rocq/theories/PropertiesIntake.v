(** * PropertiesIntake: C124 (which packets of a buffer are accepted) and C125 (from the calls to the recorded file). *)
From Coq Require Import String List Sorted.
From Verif Require Import Base CollectionsSpec NaluModel NaluSpec AacModel BlockModel BlockSpec PacketModel PacketProofs DemuxModel DemuxProofs DeliverySpec DeliveryProofs TrackSpec TrackProofs
  HandlerModel HandlerSpec HandlerProofs PropertiesPacket PropertiesDemux PropertiesTracks PropertiesDelivery PropertiesHandler SystemSpec SystemProofs PropertiesSystem SystemGrowSpec SystemGrowProofs PropertiesSystemGrow
  RecordingModel RecordingProofs PropertiesRecording IntakeSpec IntakeProofs RecordedSpec RecordedProofs SmallProofs.
Import ListNotations.
Local Open Scope list_scope.

(* ---------------------------------------------------------------------------------------- *)
(** ** C124 Packets are refused only before their buffer has a track *)
(** The packets accepted for a buffer are the last ones handed over for it. *)
Theorem C124_suffix : forall name h d evs, Forall no_hook h -> run (dm_new name) h = Ok (d, evs) ->
  forall b, exists refused, for_buffer b (payloads h) = refused ++ for_buffer b (map payload_of (accepted evs)).
Proof. intros name h d evs N R b. apply (reach_intake _ _ _ _ N R b). Qed.
(** If the first one can open a track, all are accepted, or the probe was complete before it and the buffer never gets a track. *)
Theorem C124_all : forall name h d evs, Forall no_hook h -> run (dm_new name) h = Ok (d, evs) ->
  forall b x t, for_buffer b (payloads h) = x :: t -> opens name x ->
  for_buffer b (map payload_of (accepted evs)) = for_buffer b (payloads h) \/
  (dm_completed d = true /\ no_buffer d b /\ for_buffer b (map payload_of (accepted evs)) = []).
Proof.
  intros name h d evs N R b x t E O. destruct (reach_intake _ _ _ _ N R b) as [_ H]. rewrite E in *. destruct (H O) as [K|[C K]]; [now left|right]. split; [exact C|]. split; [exact K|].
  destruct (reach_packets _ _ _ _ N R) as [_ F]. unfold for_buffer. clear -F K. induction F as [|p l (_ & s & _ & _ & J) F IH]; [reflexivity|]. cbn [map filter]. rewrite payload_of_buffer.
  destruct (Z.eqb_spec (pk_buffer p) b) as [<-|]; [exfalso; now apply (K (pk_index p))|exact IH].
Qed.
(** One call: with a track for its buffer it is accepted; after the probe, without one, it is refused. *)
Theorem C124_step : forall name h d evs o a d' e x, Forall no_hook h -> run (dm_new name) h = Ok (d, evs) -> no_hook (o, a) -> step o d a = Ok (d', e) -> call_payload a = Some x ->
  ((exists i, In (i, payload_buffer x) (dm_map d)) -> map payload_of (accepted e) = [x]) /\
  (no_buffer d (payload_buffer x) -> dm_completed d = true -> d' = d /\ e = [EvDiscardBack (payload_buffer x)]).
Proof.
  intros name h d evs o a d' e x N R Na S Cp. pose proof (run_wf _ _ _ _ (wf_new name) R) as W. split.
  - intros H. pose proof (not_refused _ _ _ _ _ _ W Cp (or_introl H) S) as Ne. destruct (step_made _ _ _ _ _ W S) as (d1 & _ & _ & _ & [A|(s & p & buf & A & Md & _)]); [contradiction|]. rewrite A. cbn [map].
    assert (P : dm_pre d = None).
    { refine (proj2 (run_hist no_hook (fun _ d _ => wf d /\ dm_pre d = None) (dm_new name) _ _ h d evs N R)).
      - split; [apply wf_new|reflexivity].
      - clear. intros h o a d evs d' e N _ (W & P) S. split; [eapply step_wf; eauto|eapply step_pre; eauto]. }
    destruct (made_payload _ _ _ _ _ P Md) as (Q & _). congruence.
  - intros Nb C. destruct (step_cases _ _ _ _ _ W S) as [(_ & _ & O)|[(buf & s & O & _)|[(buf & id & data & dts & O & P)|(O & _)]]].
    + destruct a; discriminate.
    + destruct a; discriminate.
    + assert (buf = payload_buffer x) as -> by (destruct a; try discriminate; cbn [op_input call_payload] in *; injection Cp as <-; injection O; cbn [payload_buffer]; congruence).
      destruct P as [P|(d1 & i & s & p & [->|(C' & _)] & I & _)]; [exact P| |congruence]. exfalso. now apply (Nb i).
    + destruct O as [-> | ->]; discriminate.
Qed.
Print Assumptions C124_suffix.
Print Assumptions C124_all.
Print Assumptions C124_step.
(** Two video packets before the key frame are refused; the audio buffer loses nothing. *)
Example C124_example : exists d evs, run (dm_new "ps") (calls [OpSetHandler; OpVideo 1 AVCodecIdH264 [0; 0; 1; 97] false 0 0; OpAudio 0 G711A [1] 0; OpVideo 1 AVCodecIdH264 [0; 0; 1; 97] false 10 10;
    OpVideo 1 AVCodecIdH264 key_frame true 6000 9000; OpAudio 0 G711A [2] 18000; OpVideo 1 AVCodecIdH264 [0; 0; 1; 97] false 30000 33000; OpAudio 7 G711A [5] 31000]) = Ok (d, evs) /\
  map payload_data (for_buffer 1 (map payload_of (accepted evs))) = [key_frame; [0; 0; 1; 97]] /\ map payload_data (for_buffer 0 (map payload_of (accepted evs))) = [[1]; [2]] /\
  for_buffer 7 (map payload_of (accepted evs)) = [] /\ opens "ps" (AVMediaTypeVideo, 1, AVCodecIdH264, key_frame, true, 6000, 9000) /\ opens "ps" (AVMediaTypeAudio, 0, G711A, [1], false, 0, 0).
Proof.
  do 2 eexists. split; [vm_compute; reflexivity|]. split; [vm_compute; reflexivity|]. split; [vm_compute; reflexivity|]. split; [vm_compute; reflexivity|]. split.
  - right. split; [reflexivity|]. split; [right; right; left; reflexivity|]. split; [reflexivity|]. exists (match extract_video_extra_data AVCodecIdH264 key_frame with Ok (Some e) => e | _ => [] end).
    assert (K : match generate_video_codec_data (fun n => n) PacketTypeAnnexB AVCodecIdH264 (match extract_video_extra_data AVCodecIdH264 key_frame with Ok (Some e) => e | _ => [] end) with Ok _ => true | _ => false end = true) by (vm_compute; reflexivity).
    destruct (generate_video_codec_data _ _ _ _) as [cd| | |]; try discriminate. exists cd. split; [vm_compute; reflexivity|reflexivity].
  - left. split; [reflexivity|]. left. discriminate.
Qed.

(* ---------------------------------------------------------------------------------------- *)
(** ** C125 The recorded file of a track is the stream of its buffer *)
Theorem C125_file : forall path k name o0 c0 l d evs y f, let h := map fst l in In (name, 1) packing ->
  oracle_ok o0 -> Forall sorting h -> Forall no_hook h -> Forall delivery_op h -> Forall packet_driven h -> run (dm_new name) ((o0, OpSetAutoFree true) :: h) = Ok (d, evs) ->
  sys_fits (sys_new name) (((o0, OpSetAutoFree true), c0) :: l) ->
  rec_run path (sys_new name) (fh_start k) (((o0, OpSetAutoFree true), c0) :: l) = Ok (y, f) -> dm_completed d = true ->
  forall j s n b, nth_error (dm_tracks d) j = Some s -> In (Z.of_nat j, b) (dm_map d) -> file_name path s = Ok n ->
  StronglySorted Z.lt (map payload_dts (for_buffer b (payloads h))) ->
  exists refused kept, for_buffer b (payloads h) = refused ++ kept /\
    (forall x t, for_buffer b (payloads h) = x :: t -> opens name x -> refused = []) /\
    let c := concat (map (recorded s) (removelast kept)) in fh_disk f n = c ++ skipn (length c) (k n).
Proof.
  intros path k name o c0 l d evs y f h Pk Oo So Nh D P R Su E Cd j s n b J Jb Fn As.
  assert (Nh' : Forall no_hook ((o, OpSetAutoFree true) :: h)) by (constructor; [exact Logic.I|exact Nh]).
  assert (So' : Forall sorting ((o, OpSetAutoFree true) :: h)) by (constructor; [exact Oo|exact So]).
  assert (W : Forall well_behaved ((o, OpSetAutoFree true) :: h)).
  { apply Forall_forall. intros [o1 a1] I1. rewrite Forall_forall in So', Nh'. split; [now apply So'|]. specialize (Nh' _ I1). unfold op_hook_ok, no_hook in *. cbn [snd] in *. destruct a1; auto. destruct f0; [contradiction|exact Logic.I]. }
  assert (P' : Forall packet_driven ((o, OpSetAutoFree true) :: h)) by (constructor; [reflexivity|exact P]).
  destruct (reach_driven name ((o, OpSetAutoFree true) :: h) d evs) as ((Al & _ & N) & _); auto.
  { apply Forall_forall. intros x Ix. rewrite Forall_forall in W, P'. split; [apply W|apply P']; exact Ix. }
  pose proof (run_wf _ _ _ _ (wf_new name) R) as Wf. destruct (reach_packets _ _ _ _ Nh' R) as [_ Pok]. pose proof (reach_fresh _ _ _ _ Nh' R) as Fr.
  destruct (reach_intake _ _ _ _ Nh' R b) as [(refused & Ei) Fst]. change (payloads ((o, OpSetAutoFree true) :: h)) with (payloads h) in *.
  exists refused, (for_buffer b (map payload_of (accepted evs))). split; [exact Ei|]. split.
  { intros x t Ex O. rewrite Ex in Fst. destruct (Fst O) as [K|[_ K]]; [|exfalso; now apply (K (Z.of_nat j))]. rewrite K, <- Ex in Ei. pose proof (f_equal (@length _) Ei) as L. rewrite app_length in L. destruct refused; [reflexivity|cbn in L; lia]. }
  destruct (C122_recorded path k name o c0 l d evs W D R Al N Su) as (y' & _ & E'). rewrite E in E'. destruct (fh_session path (fh_start k) evs) as [f'| | |] eqn:S; cbn [bind] in E'; try discriminate.
  injection E' as -> ->. destruct (C88_session_partial _ _ _ _ _ _ _ R S) as (ws & Fw & A & _). cbv zeta. rewrite (A Cd j s n J Fn).
  assert (Ob : map payload_of (of_index (Z.of_nat j) (accepted evs)) = for_buffer b (map payload_of (accepted evs))).
  { apply (of_index_buffer d); auto. eapply Forall_impl; [|exact Pok]. intros p (_ & s' & _ & _ & H). exact H. }
  assert (As' : ascending (of_index (Z.of_nat j) (accepted evs))).
  { unfold ascending, dts_lt. apply (sorted_map pk_dts). rewrite Ei, map_app in As. apply sorted_app_r in As. rewrite <- Ob, map_map in As. exact As. }
  pose proof (C67_order_partial name _ d evs (Forall_impl sorting (fun x => @proj1 _ _) W) R Al j As') as O. rewrite Cd in O.
  assert (Ew : written (delivered evs) ws j = concat (map (recorded s) (removelast (for_buffer b (map payload_of (accepted evs)))))).
  { rewrite (written_recorded _ _ _ J _ _ Fw).
    - rewrite O, map_removelast, durs_payload, Ob. reflexivity.
    - apply Forall_forall. intros p Ip. apply filter_In in Ip as [Ip _]. destruct (delivered_accepted _ _ _ _ _ So' R Ip) as (q & Iq & Eq). rewrite Forall_forall in Pok, Fr.
      specialize (Pok _ Iq). specialize (Fr _ Iq). unfold fresh in *. injection Eq. intros. split; [split; destruct Fr; congruence|]. intros M. destruct Pok as [T _].
      replace (pk_type p) with (get_pack_type name) by (symmetry; rewrite <- T; congruence). rewrite (packing_ok _ _ Pk). discriminate. }
  now rewrite Ew.
Qed.
(** In units: for an H.264 track the file is a start code stream: every key frame preceded by the parameter sets of the track, unless it starts with a unit of the same kind. *)
Theorem C125_h264 : forall path k name o0 c0 l d evs y f, let h := map fst l in In (name, 1) packing ->
  oracle_ok o0 -> Forall sorting h -> Forall no_hook h -> Forall delivery_op h -> Forall packet_driven h -> run (dm_new name) ((o0, OpSetAutoFree true) :: h) = Ok (d, evs) ->
  sys_fits (sys_new name) (((o0, OpSetAutoFree true), c0) :: l) ->
  rec_run path (sys_new name) (fh_start k) (((o0, OpSetAutoFree true), c0) :: l) = Ok (y, f) -> dm_completed d = true ->
  forall j s n b, nth_error (dm_tracks d) j = Some s -> In (Z.of_nat j, b) (dm_map d) -> file_name path s = Ok n ->
  StronglySorted Z.lt (map payload_dts (for_buffer b (payloads h))) ->
  key_units AVCodecIdH264 h -> st_media s = AVMediaTypeVideo -> st_codec s = AVCodecIdH264 ->
  forall units, (forall x, In x (for_buffer b (payloads h)) -> payload_data x = annexb (units x) /\ units x <> [] /\ Forall (fun u => nalu_ok (snd u)) (units x)) ->
  exists refused kept sps pps, for_buffer b (payloads h) = refused ++ kept /\
    (forall x t, for_buffer b (payloads h) = x :: t -> opens name x -> refused = []) /\ avc_nal_type sps = 7 /\ avc_nal_type pps = 8 /\
    let c := annexb (concat (map (fun x => recorded_units [(true, sps); (true, pps)] (payload_key x) (units x)) (removelast kept))) in fh_disk f n = c ++ skipn (length c) (k n).
Proof.
  intros path k name o c0 l d evs y f h Pk Oo So Nh D P R Su E Cd j s n b J Jb Fn As KU Md Co units U.
  destruct (C125_file path k name o c0 l d evs y f Pk Oo So Nh D P R Su E Cd j s n b J Jb Fn As) as (refused & kept & Ek & Fst & C).
  assert (P' : Forall packet_driven ((o, OpSetAutoFree true) :: h)) by (constructor; [reflexivity|exact P]).
  assert (KU' : key_units AVCodecIdH264 ((o, OpSetAutoFree true) :: h)).
  { intros o1 buf data dts pts [Q|I]; [discriminate|]. eapply KU; exact I. }
  destruct (C94_avc_track name _ d evs P' KU' R (Z.of_nat j) s) as (o1 & buf & us & dts & pts & sps & pps & info & In1 & Ls & Lp & _ & _ & cd & Sp & _ & _ & An); auto.
  { now rewrite idx_nat. }
  exists refused, kept, sps, pps. split; [exact Ek|]. split; [exact Fst|]. split; [now apply last_of_type_in in Ls|]. split; [now apply last_of_type_in in Lp|].
  assert (Hs : nal_header (annexb [(true, sps); (true, pps)]) = Some (unit_head [(true, sps); (true, pps)])).
  { apply last_of_type_in in Ls as [_ Q]. destruct sps as [|a t]; [discriminate|]. cbn [annexb unit_head app]. apply C58_header. }
  assert (Rc : concat (map (recorded s) (removelast kept)) = annexb (concat (map (fun x => recorded_units [(true, sps); (true, pps)] (payload_key x) (units x)) (removelast kept)))).
  { apply (recorded_stream h b s cd _ _ _ refused); auto; [now rewrite Co|rewrite An; cbn [annexb app]; now rewrite app_nil_r]. }
  cbv zeta in *. rewrite <- Rc. exact C.
Qed.
Print Assumptions C125_file.
Print Assumptions C125_h264.
(** A picture before the first key frame is refused, the key frame opens the track, the next one gets its parameter sets, the last picture is held. *)
Definition C125_calls : list call :=
  [((o0, OpSetAutoFree true), []); ((o0, OpSetHandler), []); ((o0, OpVideo 0 AVCodecIdH264 [0; 0; 1; 97; 4] false 0 0), [[0; 0; 1]; [97; 4]]); ((o0, OpVideo 0 AVCodecIdH264 key_frame true 3000 6000), [key_frame]);
   ((o0, OpVideo 0 AVCodecIdH264 [0; 0; 1; 97; 5] false 6000 9000), [[0; 0; 1; 97]; [5]]); ((o0, OpProbeComplete), []); ((o0, OpVideo 0 AVCodecIdH264 [0; 0; 1; 101; 9] true 9000 9000), [[0; 0; 1; 101; 9]]);
   ((o0, OpVideo 0 AVCodecIdH264 [0; 0; 1; 97; 6] false 12000 15000), [[0; 0; 1; 97; 6]])].
Example C125_example : sys_fits (sys_new "ps") C125_calls /\
  ('(_, f) <- rec_run "t" (sys_new "ps") (fh_start (fun _ => [])) C125_calls;; Ok (map fst (fh_files f), map (fun x => fh_disk f (fst x)) (fh_files f))) =
  Ok (["t.video.0.H264"%string], [key_frame ++ [0; 0; 1; 97; 5] ++ annexb [(true, sps_y); (true, pps_x)] ++ [0; 0; 1; 101; 9]]).
Proof. small_run E F "t"%string (fh_start (fun _ => [])) "ps"%string C125_calls o0_ok. split; [exact F|]. rewrite E. vm_compute. reflexivity. Qed.

(** * PropertiesOpened: C126 (a track is what the first packet of its buffer describes), and C125 once more for sessions that start with a key frame. *)
From Coq Require Import String List Sorted.
From Verif Require Import Base CollectionsSpec NaluModel NaluSpec NaluProofs SpsModel RecordModel AacModel BlockModel BlockSpec PacketModel PacketProofs DemuxModel DemuxProofs DeliverySpec DeliveryProofs TrackSpec TrackProofs
  HandlerModel HandlerSpec HandlerProofs PropertiesNalu PropertiesPacket PropertiesDemux PropertiesTracks SystemSpec SystemGrowSpec PropertiesSystemGrow
  RecordingModel RecordingProofs PropertiesRecording IntakeSpec IntakeProofs RecordedSpec RecordedProofs PropertiesIntake OpenedSpec OpenedProofs.
Import ListNotations.
Local Open Scope list_scope.

(* ---------------------------------------------------------------------------------------- *)
(** ** C126 A track is what the first packet of its buffer describes *)
Theorem C126_opened : forall name h d evs, Forall no_hook h -> Forall packet_driven h -> run (dm_new name) h = Ok (d, evs) ->
  forall i b s, In (i, b) (dm_map d) -> idx (dm_tracks d) i = Some s ->
  exists x t, for_buffer b (map payload_of (accepted evs)) = x :: t /\ opened (dm_tracks d) i x s.
Proof. intros name h d evs N P R. exact (reach_opened _ _ _ _ N P R). Qed.

(** The data and parameters of an H.264 track made from a key frame. *)
Definition avc_sets (l : list (bool * list Z)) (sps pps : list Z) : Prop := last_of_type avc_nal_type 7 (map snd l) = Some sps /\ last_of_type avc_nal_type 8 (map snd l) = Some pps.
Definition hevc_sets (l : list (bool * list Z)) (vps sps pps : list Z) : Prop :=
  last_of_type hevc_nal_type 32 (map snd l) = Some vps /\ last_of_type hevc_nal_type 33 (map snd l) = Some sps /\ last_of_type hevc_nal_type 34 (map snd l) = Some pps.
Lemma avc_extract l sps pps : l <> [] -> Forall unit_ok l -> avc_sets l sps pps -> extract_video_extra_data AVCodecIdH264 (annexb l) = Ok (Some (annexb [(true, sps); (true, pps)])).
Proof.
  intros Nl Fl [Es Ep]. unfold extract_video_extra_data. rewrite Z.eqb_refl, C36_avc_extra, Es, Ep by auto. cbn [with4 option_map bind annexb sc]. now rewrite app_nil_r, <- !app_assoc.
Qed.
Lemma hevc_extract l vps sps pps : l <> [] -> Forall unit_ok l -> hevc_sets l vps sps pps -> extract_video_extra_data AVCodecIdH265 (annexb l) = Ok (Some (annexb [(true, vps); (true, sps); (true, pps)])).
Proof.
  intros Nl Fl (Ev & Es & Ep). unfold extract_video_extra_data. change (AVCodecIdH264 =? AVCodecIdH265) with false. rewrite Z.eqb_refl. cbn iota. rewrite C37_hevc_extra, Ev, Es, Ep by auto. cbn [with4 option_map bind annexb sc]. now rewrite app_nil_r, <- !app_assoc.
Qed.
Lemma sets_ok type l t n : Forall unit_ok l -> last_of_type type t (map snd l) = Some n -> unit_ok (true, n) /\ type n = t.
Proof. intros Fl E. apply last_of_type_in in E as [E T]. split; [|exact T]. apply in_map_iff in E as (u & <- & I). rewrite Forall_forall in Fl. now apply Fl in I. Qed.
Lemma avc_generate l sps pps : Forall unit_ok l -> avc_sets l sps pps ->
  generate_video_codec_data (fun n => n) PacketTypeAnnexB AVCodecIdH264 (annexb [(true, sps); (true, pps)]) = (c <- new_avc_codec_data (start4 ++ sps) (start4 ++ pps);; Ok (Some c)).
Proof.
  intros Fl [Es Ep]. destruct (sets_ok _ _ _ _ Fl Es) as [Os Ts]. destruct (sets_ok _ _ _ _ Fl Ep) as [Op Tp].
  unfold generate_video_codec_data. change (PacketTypeAnnexB =? PacketTypeAVCC) with false. cbn iota. rewrite Z.eqb_refl, C36_avc_extra; [|discriminate|repeat (apply Forall_cons; [assumption|]); apply Forall_nil].
  unfold last_of_type. cbn [map snd rev app find]. rewrite Ts, Tp. cbn [Z.eqb Pos.eqb with4 option_map bind]. reflexivity.
Qed.
Lemma hevc_generate l vps sps pps : Forall unit_ok l -> hevc_sets l vps sps pps ->
  generate_video_codec_data (fun n => n) PacketTypeAnnexB AVCodecIdH265 (annexb [(true, vps); (true, sps); (true, pps)]) = (c <- new_hevc_codec_data (start4 ++ vps) (start4 ++ sps) (start4 ++ pps);; Ok (Some c)).
Proof.
  intros Fl (Ev & Es & Ep). destruct (sets_ok _ _ _ _ Fl Ev) as [Ov Tv]. destruct (sets_ok _ _ _ _ Fl Es) as [Os Ts]. destruct (sets_ok _ _ _ _ Fl Ep) as [Op Tp].
  unfold generate_video_codec_data. change (PacketTypeAnnexB =? PacketTypeAVCC) with false. change (AVCodecIdH265 =? AVCodecIdH264) with false. cbn iota.
  rewrite Z.eqb_refl, C37_hevc_extra; [|discriminate|repeat (apply Forall_cons; [assumption|]); apply Forall_nil].
  unfold last_of_type. cbn [map snd rev app find]. rewrite Tv, Ts, Tp. cbn [Z.eqb Pos.eqb with4 option_map bind]. reflexivity.
Qed.
Lemma opened_own tracks i b c data dts pts s e : opened tracks i (AVMediaTypeVideo, b, c, data, true, dts, pts) s -> extract_video_extra_data c data = Ok (Some e) ->
  st_media s = AVMediaTypeVideo /\ st_codec s = c /\ st_data s = Some e /\ generate_video_codec_data (fun n => n) PacketTypeAnnexB c e = Ok (st_params s).
Proof.
  intros (M & C & [(Q & _)|(_ & e' & D & G & O)]) X; [discriminate|]. assert (e' = e) as ->; [|auto].
  destruct O as [(_ & O)|(O & _)]; [congruence|]. exfalso. apply (O e). split; [reflexivity|exact X].
Qed.
Theorem C126_avc : forall name h d evs, Forall no_hook h -> Forall packet_driven h -> run (dm_new name) h = Ok (d, evs) ->
  forall i b s dts pts l t sps pps, In (i, b) (dm_map d) -> idx (dm_tracks d) i = Some s ->
  for_buffer b (map payload_of (accepted evs)) = (AVMediaTypeVideo, b, AVCodecIdH264, annexb l, true, dts, pts) :: t -> l <> [] -> Forall unit_ok l -> avc_sets l sps pps ->
  st_media s = AVMediaTypeVideo /\ st_codec s = AVCodecIdH264 /\ st_data s = Some (annexb [(true, sps); (true, pps)]) /\
  exists info c, avc_parse_sps (start4 ++ sps) = Ok info /\ st_params s = Some c /\ cd_width c = as_width info /\ cd_height c = as_height info /\ cd_annexb c = annexb [(true, sps); (true, pps)].
Proof.
  intros name h d evs N P R i b s dts pts l t sps pps I J E Nl Fl Se. destruct (C126_opened _ _ _ _ N P R i b s I J) as (x & t' & E' & O). rewrite E in E'. injection E' as <- _.
  destruct (opened_own _ _ _ _ _ _ _ _ _ O (avc_extract _ _ _ Nl Fl Se)) as (M & C & D & G). split; [exact M|]. split; [exact C|]. split; [exact D|]. rewrite (avc_generate l) in G by assumption. unfold new_avc_codec_data in G.
  destruct (avc_parse_sps (start4 ++ sps)) as [info| | |]; cbn [bind] in G; try discriminate. injection G as G. exists info. eexists. split; [reflexivity|]. split; [symmetry; exact G|]. split; [reflexivity|]. split; [reflexivity|].
  cbn [cd_annexb]. cbn. now rewrite ?app_nil_r, <- ?app_assoc.
Qed.
Theorem C126_hevc : forall name h d evs, Forall no_hook h -> Forall packet_driven h -> run (dm_new name) h = Ok (d, evs) ->
  forall i b s dts pts l t vps sps pps, In (i, b) (dm_map d) -> idx (dm_tracks d) i = Some s ->
  for_buffer b (map payload_of (accepted evs)) = (AVMediaTypeVideo, b, AVCodecIdH265, annexb l, true, dts, pts) :: t -> l <> [] -> Forall unit_ok l -> hevc_sets l vps sps pps ->
  st_media s = AVMediaTypeVideo /\ st_codec s = AVCodecIdH265 /\ st_data s = Some (annexb [(true, vps); (true, sps); (true, pps)]) /\
  exists info c, hevc_parse_sps (start4 ++ sps) = Ok info /\ st_params s = Some c /\ cd_width c = hsp_width info /\ cd_height c = hsp_height info /\ cd_annexb c = annexb [(true, vps); (true, sps); (true, pps)].
Proof.
  intros name h d evs N P R i b s dts pts l t vps sps pps I J E Nl Fl Se. destruct (C126_opened _ _ _ _ N P R i b s I J) as (x & t' & E' & O). rewrite E in E'. injection E' as <- _.
  destruct (opened_own _ _ _ _ _ _ _ _ _ O (hevc_extract _ _ _ _ Nl Fl Se)) as (M & C & D & G). split; [exact M|]. split; [exact C|]. split; [exact D|]. rewrite (hevc_generate l) in G by assumption. unfold new_hevc_codec_data in G.
  destruct (hevc_parse_sps (start4 ++ sps)) as [info| | |]; cbn [bind] in G; try discriminate. injection G as G. exists info. eexists. split; [reflexivity|]. split; [symmetry; exact G|]. split; [reflexivity|]. split; [reflexivity|].
  cbn [cd_annexb]. cbn. now rewrite ?app_nil_r, <- ?app_assoc.
Qed.
Print Assumptions C126_opened.
Print Assumptions C126_avc.
Print Assumptions C126_hevc.
(** Buffer 1 opens a track from its key frame; buffer 2 gives no parameter sets of its own and gets those of buffer 1; AAC describes itself. *)
Example C126_example : exists d evs, run (dm_new "ps") (calls [OpSetHandler; OpVideo 1 AVCodecIdH264 key_frame true 6000 9000; OpVideo 2 AVCodecIdH264 [0; 0; 1; 101; 7] true 6000 9000;
    OpAudio 4 AVCodecIdAAC [255; 241; 80; 128; 1; 63; 252; 1; 2] 0]) = Ok (d, evs) /\ dm_map d = [(0, 1); (1, 2); (2, 4)] /\
  map st_data (dm_tracks d) = [Some (annexb [(true, sps_y); (true, pps_x)]); Some (annexb [(true, sps_y); (true, pps_x)]); Some [18; 16]] /\
  avc_sets [(true, sps_y); (true, pps_x); (false, [101; 1; 2])] sps_y pps_x.
Proof. do 2 eexists. split; [vm_compute; reflexivity|]. split; [vm_compute; reflexivity|]. split; [vm_compute; reflexivity|]. split; vm_compute; reflexivity. Qed.

(* ---------------------------------------------------------------------------------------- *)
(** ** C125 once more: when the first packet of a buffer is a key frame with parameter sets, the file follows from the calls alone *)
Theorem C125_h264_all : forall path k name o0 c0 l d evs y f, let h := map fst l in In (name, 1) packing ->
  oracle_ok o0 -> Forall sorting h -> Forall no_hook h -> Forall delivery_op h -> Forall packet_driven h -> run (dm_new name) ((o0, OpSetAutoFree true) :: h) = Ok (d, evs) ->
  sys_fits (sys_new name) (((o0, OpSetAutoFree true), c0) :: l) ->
  rec_run path (sys_new name) (fh_start k) (((o0, OpSetAutoFree true), c0) :: l) = Ok (y, f) -> dm_completed d = true ->
  forall j s n b, nth_error (dm_tracks d) j = Some s -> In (Z.of_nat j, b) (dm_map d) -> file_name path s = Ok n ->
  StronglySorted Z.lt (map payload_dts (for_buffer b (payloads h))) ->
  forall units, (forall x, In x (for_buffer b (payloads h)) -> payload_data x = annexb (units x) /\ units x <> [] /\ Forall unit_ok (units x)) ->
  forall dts pts data rest sps pps info, let x0 := (AVMediaTypeVideo, b, AVCodecIdH264, data, true, dts, pts) in for_buffer b (payloads h) = x0 :: rest -> avc_sets (units x0) sps pps -> avc_parse_sps (start4 ++ sps) = Ok info ->
  let c := annexb (concat (map (fun x => recorded_units [(true, sps); (true, pps)] (payload_key x) (units x)) (removelast (x0 :: rest)))) in fh_disk f n = c ++ skipn (length c) (k n).
Proof.
  intros path k name o c0 l d evs y f h Pk Oo So Nh D P R Su E Cd j s n b J Jb Fn As units U dts pts data rest sps pps info x0 Ex Se Pi. cbv zeta.
  destruct (C125_file path k name o c0 l d evs y f Pk Oo So Nh D P R Su E Cd j s n b J Jb Fn As) as (refused & kept & Ek & Fst & C).
  fold h in Ek, Fst. destruct (U x0) as (Ud & Un & Uo); [rewrite Ex; now left|]. change (payload_data x0) with data in Ud.
  assert (O : opens name x0).
  { right. split; [reflexivity|]. split; [exact Pk|]. split; [reflexivity|]. exists (annexb [(true, sps); (true, pps)]). eexists. split; [rewrite Ud; now apply avc_extract|]. rewrite (avc_generate (units x0)) by assumption. unfold new_avc_codec_data. rewrite Pi. reflexivity. }
  rewrite (Fst _ _ Ex O) in Ek. cbn [app] in Ek. rewrite Ex in Ek. subst kept.
  assert (P' : Forall packet_driven ((o, OpSetAutoFree true) :: h)) by (constructor; [reflexivity|exact P]).
  assert (Nh' : Forall no_hook ((o, OpSetAutoFree true) :: h)) by (constructor; [exact Logic.I|exact Nh]).
  destruct (C124_all name _ d evs Nh' R b x0 rest Ex O) as [K|(_ & K & _)]; [|exfalso; now apply (K (Z.of_nat j))]. change (payloads ((o, OpSetAutoFree true) :: h)) with (payloads h) in K. rewrite Ex in K.
  unfold x0 in K. rewrite Ud in K. fold x0 in K.
  destruct (C126_avc name _ d evs Nh' P' R (Z.of_nat j) b s dts pts (units x0) rest sps pps) as (_ & Co & _ & info' & cd & _ & Sp & _ & _ & An); auto; [now rewrite idx_nat|].
  assert (Rc : concat (map (recorded s) (removelast (x0 :: rest))) = annexb (concat (map (fun x => recorded_units [(true, sps); (true, pps)] (payload_key x) (units x)) (removelast (x0 :: rest))))).
  { apply (recorded_stream h b s cd _ _ _ []); auto; [now rewrite Co|]. destruct (sets_ok _ _ _ _ Uo (proj1 Se)) as [(_ & Ne & _) _]. cbn [snd] in Ne. destruct sps as [|a t]; [congruence|]. cbn [annexb unit_head app]. apply C58_header. }
  rewrite <- Rc. exact C.
Qed.
Theorem C125_h265_all : forall path k name o0 c0 l d evs y f, let h := map fst l in In (name, 1) packing ->
  oracle_ok o0 -> Forall sorting h -> Forall no_hook h -> Forall delivery_op h -> Forall packet_driven h -> run (dm_new name) ((o0, OpSetAutoFree true) :: h) = Ok (d, evs) ->
  sys_fits (sys_new name) (((o0, OpSetAutoFree true), c0) :: l) ->
  rec_run path (sys_new name) (fh_start k) (((o0, OpSetAutoFree true), c0) :: l) = Ok (y, f) -> dm_completed d = true ->
  forall j s n b, nth_error (dm_tracks d) j = Some s -> In (Z.of_nat j, b) (dm_map d) -> file_name path s = Ok n ->
  StronglySorted Z.lt (map payload_dts (for_buffer b (payloads h))) ->
  forall units, (forall x, In x (for_buffer b (payloads h)) -> payload_data x = annexb (units x) /\ units x <> [] /\ Forall unit_ok (units x)) ->
  forall dts pts data rest vps sps pps info, let x0 := (AVMediaTypeVideo, b, AVCodecIdH265, data, true, dts, pts) in for_buffer b (payloads h) = x0 :: rest -> hevc_sets (units x0) vps sps pps -> hevc_parse_sps (start4 ++ sps) = Ok info ->
  let c := annexb (concat (map (fun x => recorded_units [(true, vps); (true, sps); (true, pps)] (payload_key x) (units x)) (removelast (x0 :: rest)))) in fh_disk f n = c ++ skipn (length c) (k n).
Proof.
  intros path k name o c0 l d evs y f h Pk Oo So Nh D P R Su E Cd j s n b J Jb Fn As units U dts pts data rest vps sps pps info x0 Ex Se Pi. cbv zeta.
  destruct (C125_file path k name o c0 l d evs y f Pk Oo So Nh D P R Su E Cd j s n b J Jb Fn As) as (refused & kept & Ek & Fst & C).
  fold h in Ek, Fst. destruct (U x0) as (Ud & Un & Uo); [rewrite Ex; now left|]. change (payload_data x0) with data in Ud.
  assert (O : opens name x0).
  { right. split; [reflexivity|]. split; [exact Pk|]. split; [reflexivity|]. exists (annexb [(true, vps); (true, sps); (true, pps)]). eexists. split; [rewrite Ud; now apply hevc_extract|]. rewrite (hevc_generate (units x0)) by assumption. unfold new_hevc_codec_data. rewrite Pi. reflexivity. }
  rewrite (Fst _ _ Ex O) in Ek. cbn [app] in Ek. rewrite Ex in Ek. subst kept.
  assert (P' : Forall packet_driven ((o, OpSetAutoFree true) :: h)) by (constructor; [reflexivity|exact P]).
  assert (Nh' : Forall no_hook ((o, OpSetAutoFree true) :: h)) by (constructor; [exact Logic.I|exact Nh]).
  destruct (C124_all name _ d evs Nh' R b x0 rest Ex O) as [K|(_ & K & _)]; [|exfalso; now apply (K (Z.of_nat j))]. change (payloads ((o, OpSetAutoFree true) :: h)) with (payloads h) in K. rewrite Ex in K.
  unfold x0 in K. rewrite Ud in K. fold x0 in K.
  destruct (C126_hevc name _ d evs Nh' P' R (Z.of_nat j) b s dts pts (units x0) rest vps sps pps) as (_ & Co & _ & info' & cd & _ & Sp & _ & _ & An); auto; [now rewrite idx_nat|].
  assert (Rc : concat (map (recorded s) (removelast (x0 :: rest))) = annexb (concat (map (fun x => recorded_units [(true, vps); (true, sps); (true, pps)] (payload_key x) (units x)) (removelast (x0 :: rest))))).
  { apply (recorded_stream h b s cd _ _ _ []); auto; [now rewrite Co|]. destruct (sets_ok _ _ _ _ Uo (proj1 Se)) as [(_ & Ne & _) _]. cbn [snd] in Ne. destruct vps as [|a t]; [congruence|]. cbn [annexb unit_head app]. apply C58_header. }
  rewrite <- Rc. exact C.
Qed.
Print Assumptions C125_h264_all.
Print Assumptions C125_h265_all.

(** * PropertiesFlvRecord: C127, the recording of a container with length prefixes. *)
From Coq Require Import String List Sorted.
From Verif Require Import Base CollectionsSpec NaluModel NaluSpec NaluProofs AvccProofs RecordModel SpsModel AacModel BlockModel BlockSpec PacketModel PacketProofs DemuxModel DemuxProofs DeliverySpec DeliveryProofs TrackSpec TrackProofs
  HandlerModel HandlerSpec HandlerProofs PropertiesPacket PropertiesDemux PropertiesTracks PropertiesSystem SystemSpec SystemGrowSpec PropertiesSystemGrow
  RecordingModel RecordingProofs PropertiesRecording IntakeSpec IntakeProofs RecordedSpec RecordedProofs PropertiesIntake PropertiesSps FlvRecordSpec FlvRecordProofs SmallProofs.
Import ListNotations.
Local Open Scope list_scope.

(* ---------------------------------------------------------------------------------------- *)
(** ** C127 Recording of an flv stream *)
Lemma map_func d i b b' : wf d -> In (i, b) (dm_map d) -> In (i, b') (dm_map d) -> b = b'.
Proof. intros W A B. apply (map_find_in _ _ _ (wf_nodup _ W)) in A, B. congruence. Qed.
(** The parameters of a video track come from a header announced for its buffer. *)
Theorem C127_header : forall h d evs, run (dm_new "flv") h = Ok (d, evs) -> forall i s b, idx (dm_tracks d) i = Some s -> In (i, b) (dm_map d) -> st_media s = AVMediaTypeVideo -> st_codec s = AVCodecIdH264 ->
  exists o tb record c, In (o, OpNewVideo b AVCodecIdH264 tb record) h /\ parse_avc_record record = Ok c /\ st_params s = Some c /\ st_data s = Some record /\ st_timebase s = tb.
Proof.
  intros h d evs R i s b J I M C. pose proof (run_wf _ _ _ _ (wf_new _) R) as W. destruct (reach_tracks _ _ _ _ R _ _ J) as (_ & buf & Ib & (o & a & d0 & s0 & Ja & Nm & Cb & Cr & Es)).
  assert (buf = b) as -> by exact (map_func d i _ _ W Ib I). destruct Es as (E1 & _ & E3 & E4 & E5 & E6 & _).
  destruct a; try contradiction; cbn [creates create_buf] in Cr, Cb; injection Cb as ->.
  - destruct Cr as (T1 & _). rewrite E1, T1 in M. discriminate.
  - destruct Cr as (T1 & T2 & T3 & T4 & _ & T6). assert (id = AVCodecIdH264) as -> by congruence. rewrite Nm in T6. change (get_pack_type "flv") with PacketTypeAVCC in T6. unfold generate_video_codec_data in T6.
    change (PacketTypeAVCC =? PacketTypeAVCC) with true in T6. change (AVCodecIdH264 =? AVCodecIdH264) with true in T6. cbv iota in T6.
    destruct (parse_avc_record extra) as [c| | |] eqn:Pc; cbn [bind] in T6; try discriminate. exists o, timebase, extra, c. split; [exact Ja|]. split; [exact Pc|]. split; [congruence|]. split; congruence.
  - destruct Cr as (x & k & c & tb & _ & _ & (T1 & _)). rewrite E1, T1 in M. discriminate.
  - destruct Cr as (x & tb & _ & _ & PT & _). rewrite Nm in PT. discriminate.
Qed.

Theorem C127_file : forall path k o0 c0 l d evs y f, let h := map fst l in
  oracle_ok o0 -> Forall sorting h -> Forall no_hook h -> Forall delivery_op h -> run (dm_new "flv") ((o0, OpSetAutoFree true) :: h) = Ok (d, evs) ->
  aligned evs -> NoDup (map snd (dm_map d)) ->
  sys_fits (sys_new "flv") (((o0, OpSetAutoFree true), c0) :: l) ->
  rec_run path (sys_new "flv") (fh_start k) (((o0, OpSetAutoFree true), c0) :: l) = Ok (y, f) -> dm_completed d = true ->
  forall j s n b, nth_error (dm_tracks d) j = Some s -> In (Z.of_nat j, b) (dm_map d) -> file_name path s = Ok n -> st_media s = AVMediaTypeVideo -> st_codec s = AVCodecIdH264 ->
  StronglySorted Z.lt (map payload_dts (for_buffer b (payloads h))) ->
  forall units, (forall x, In x (for_buffer b (payloads h)) -> payload_media x = AVMediaTypeVideo -> payload_codec x = AVCodecIdH264 /\ payload_data x = avcc (units x) /\ Forall avcc_unit_ok (units x)) ->
  exists refused kept o tb record c, for_buffer b (payloads h) = refused ++ kept /\ (forall x t, for_buffer b (payloads h) = x :: t -> opens "flv" x -> refused = []) /\ kept = for_buffer b (map payload_of (accepted evs)) /\
    In (o, OpNewVideo b AVCodecIdH264 tb record) h /\ parse_avc_record record = Ok c /\
    let content := concat (map (recorded_flv (cd_annexb c) units) (removelast kept)) in fh_disk f n = content ++ skipn (length content) (k n).
Proof.
  intros path k o c0 l d evs y f h Oo So Nh D R Al N Su E Cd j s n b J Jb Fn M C As units U. assert (Ji : idx (dm_tracks d) (Z.of_nat j) = Some s) by now rewrite idx_nat.
  destruct (C127_header _ _ _ R _ _ _ Ji Jb M C) as (o' & tb & record & c & [Q|Ia] & Pc & Sp & _); [discriminate|].
  destruct (file_by path k "flv" o c0 l d evs y f (recorded_flv (cd_annexb c) units) Oo So Nh D R Al N Su E Cd j s n b J Jb Fn As) as (refused & kept & A1 & (A2 & A2') & A3).
  - intros p w [Fa Fl] T Ij Ip (dd & Au & ->). specialize (U _ Ip). unfold access_unit in Au. unfold recorded_flv, payload_of in *. cbn [payload_media payload_codec payload_data] in U. rewrite Z.eqb_sym in Au. rewrite (Z.eqb_sym AVMediaTypeVideo).
    destruct (Z.eqb_spec (pk_media p) AVMediaTypeVideo) as [Mp|Mp]; cbn [andb].
    + destruct T as [T|T]; [|contradiction]. change (get_pack_type "flv") with PacketTypeAVCC in T. destruct (U Mp) as (Uc & Ud & Uo). destruct Au as (s' & p1 & Es & X). rewrite Ij, Ji in Es. injection Es as <-.
      rewrite T, Z.eqb_refl, andb_true_r.
      assert (Ao : alloc_ok p) by (unfold alloc_ok; now rewrite Fl).
      pose proof (avcc_avc s p c (units (payload_of p)) [] Mp T) as Y. rewrite C, app_nil_r in Y. cbv zeta in Y. unfold payload_of in Y. rewrite Mp in *.
      rewrite Y in X; auto; [|left; vm_compute; congruence|constructor]. injection X as _ <-. unfold key_extra.
      destruct (pk_key p); [rewrite Ij, Ji, Sp|]; cbn [concat app]; now rewrite ?app_nil_r, <- ?app_assoc.
    + cbn [concat]. now rewrite app_nil_r.
  - exists refused, kept, o', tb, record, c. auto 10.
Qed.
Theorem C127_header_hevc : forall h d evs, run (dm_new "flv") h = Ok (d, evs) -> forall i s b, idx (dm_tracks d) i = Some s -> In (i, b) (dm_map d) -> st_media s = AVMediaTypeVideo -> st_codec s = AVCodecIdH265 ->
  exists o tb record c, In (o, OpNewVideo b AVCodecIdH265 tb record) h /\ parse_hevc_record (or_grow o) record = Ok c /\ st_params s = Some c /\ st_data s = Some record /\ st_timebase s = tb.
Proof.
  intros h d evs R i s b J I M C. pose proof (run_wf _ _ _ _ (wf_new _) R) as W. destruct (reach_tracks _ _ _ _ R _ _ J) as (_ & buf & Ib & (o & a & d0 & s0 & Ja & Nm & Cb & Cr & Es)).
  assert (buf = b) as -> by exact (map_func d i _ _ W Ib I). destruct Es as (E1 & _ & E3 & E4 & E5 & E6 & _).
  destruct a; try contradiction; cbn [creates create_buf] in Cr, Cb; injection Cb as ->.
  - destruct Cr as (T1 & _). rewrite E1, T1 in M. discriminate.
  - destruct Cr as (T1 & T2 & T3 & T4 & _ & T6). assert (id = AVCodecIdH265) as -> by congruence. rewrite Nm in T6. change (get_pack_type "flv") with PacketTypeAVCC in T6. unfold generate_video_codec_data in T6.
    change (PacketTypeAVCC =? PacketTypeAVCC) with true in T6. change (AVCodecIdH265 =? AVCodecIdH264) with false in T6. change (AVCodecIdH265 =? AVCodecIdH265) with true in T6. cbv iota in T6.
    destruct (parse_hevc_record (or_grow o) extra) as [c| | |] eqn:Pc; cbn [bind] in T6; try discriminate. exists o, timebase, extra, c. split; [exact Ja|]. split; [exact Pc|]. split; [congruence|]. split; congruence.
  - destruct Cr as (x & k & c & tb & _ & _ & (T1 & _)). rewrite E1, T1 in M. discriminate.
  - destruct Cr as (x & tb & _ & _ & PT & _). rewrite Nm in PT. discriminate.
Qed.
Lemma hevc_record_shape grow record c : parse_hevc_record grow record = Ok c -> exists cc v sp pp, c = CdHevc cc (prefix_length c) v sp pp.
Proof.
  unfold parse_hevc_record. destruct (hevc_unmarshal grow record) as [[r s]| | |]; cbn [bind]; try discriminate.
  destruct (of_opt _) as [x| | |]; cbn [bind]; try discriminate. destruct (hevc_parse_sps x) as [i| | |]; cbn [bind]; try discriminate. intros E. injection E as <-. cbn. eauto.
Qed.
Theorem C127_file_hevc : forall path k o0 c0 l d evs y f, let h := map fst l in
  oracle_ok o0 -> Forall sorting h -> Forall no_hook h -> Forall delivery_op h -> run (dm_new "flv") ((o0, OpSetAutoFree true) :: h) = Ok (d, evs) ->
  aligned evs -> NoDup (map snd (dm_map d)) ->
  sys_fits (sys_new "flv") (((o0, OpSetAutoFree true), c0) :: l) ->
  rec_run path (sys_new "flv") (fh_start k) (((o0, OpSetAutoFree true), c0) :: l) = Ok (y, f) -> dm_completed d = true ->
  forall j s n b, nth_error (dm_tracks d) j = Some s -> In (Z.of_nat j, b) (dm_map d) -> file_name path s = Ok n -> st_media s = AVMediaTypeVideo -> st_codec s = AVCodecIdH265 ->
  StronglySorted Z.lt (map payload_dts (for_buffer b (payloads h))) ->
  forall m units, (1 <= m <= 4)%nat -> (forall o tb record c, In (o, OpNewVideo b AVCodecIdH265 tb record) h -> parse_hevc_record (or_grow o) record = Ok c -> prefix_length c = Z.of_nat m) ->
  (forall x, In x (for_buffer b (payloads h)) -> payload_media x = AVMediaTypeVideo ->
     payload_codec x = AVCodecIdH265 /\ payload_data x = lp m (units x) /\ Forall (lp_unit_ok m) (units x) /\ (4 - Z.of_nat m) * zlen (units x) <= 256) ->
  exists refused kept o tb record c, for_buffer b (payloads h) = refused ++ kept /\ (forall x t, for_buffer b (payloads h) = x :: t -> opens "flv" x -> refused = []) /\ kept = for_buffer b (map payload_of (accepted evs)) /\
    In (o, OpNewVideo b AVCodecIdH265 tb record) h /\ parse_hevc_record (or_grow o) record = Ok c /\
    let content := concat (map (recorded_flv_hevc (cd_annexb c) units) (removelast kept)) in fh_disk f n = content ++ skipn (length content) (k n).
Proof.
  intros path k o c0 l d evs y f h Oo So Nh D R Al N Su E Cd j s n b J Jb Fn M C As m units Bm Pm U. assert (Ji : idx (dm_tracks d) (Z.of_nat j) = Some s) by now rewrite idx_nat.
  destruct (C127_header_hevc _ _ _ R _ _ _ Ji Jb M C) as (o' & tb & record & c & [Q|Ia] & Pc & Sp & _); [discriminate|].
  destruct (hevc_record_shape _ _ _ Pc) as (cc & v & sp & pp & Ec). rewrite (Pm _ _ _ _ Ia Pc) in Ec.
  destruct (file_by path k "flv" o c0 l d evs y f (recorded_flv_hevc (cd_annexb c) units) Oo So Nh D R Al N Su E Cd j s n b J Jb Fn As) as (refused & kept & A1 & (A2 & A2') & A3).
  - intros p w [Fa Fl] T Ij Ip (dd & Au & ->). specialize (U _ Ip). unfold access_unit in Au. unfold recorded_flv_hevc, payload_of in *. cbn [payload_media payload_codec payload_data] in U. rewrite Z.eqb_sym in Au. rewrite (Z.eqb_sym AVMediaTypeVideo).
    destruct (Z.eqb_spec (pk_media p) AVMediaTypeVideo) as [Mp|Mp]; cbn [andb].
    + destruct T as [T|T]; [|contradiction]. change (get_pack_type "flv") with PacketTypeAVCC in T. destruct (U Mp) as (Uc & Ud & Uo & Ul). destruct Au as (s' & p1 & Es & X). rewrite Ij, Ji in Es. injection Es as <-.
      rewrite T, Z.eqb_refl, andb_true_r.
      assert (Ao : alloc_ok p) by (unfold alloc_ok; now rewrite Fl).
      pose proof (avcc_hevc s p cc m v sp pp (units (payload_of p)) Mp T) as Y. rewrite C in Y. cbv zeta in Y. unfold payload_of in Y. rewrite Mp in *. rewrite <- Ec in Y.
      rewrite Y in X; auto. injection X as _ <-. unfold key_extra.
      destruct (pk_key p); [rewrite Ij, Ji, Sp|]; cbn [concat app]; now rewrite ?app_nil_r, <- ?app_assoc.
    + cbn [concat]. now rewrite app_nil_r.
  - exists refused, kept, o', tb, record, c. auto 10.
Qed.
(** With one track nothing is required of the order of the packets. *)
Theorem C127_one_track : forall name h d evs, Forall op_hook_ok h -> run (dm_new name) h = Ok (d, evs) -> (length (dm_tracks d) <= 1)%nat -> aligned evs /\ NoDup (map snd (dm_map d)).
Proof.
  intros name h d evs Nh R L. pose proof (run_wf _ _ _ _ (wf_new _) R) as W. split.
  - revert L. refine (proj2 (run_hist op_hook_ok (fun _ d evs => (wf d /\ hook_ok (dm_pre d)) /\ ((length (dm_tracks d) <= 1)%nat -> aligned evs)) (dm_new name) _ _ h d evs Nh R)).
    + split; [split; [apply wf_new|exact I]|]. intros _. constructor.
    + clear. intros h o a d evs d' e N R ((W & H) & A) S. split; [split; [eapply step_wf; eauto|eapply step_hook; eauto]|]. intros L.
      assert (Ld : (length (dm_tracks d) <= length (dm_tracks d'))%nat).
      { destruct (step_ext _ _ _ _ _ W S) as [X _]. apply ext_len in X. unfold zlen in X. lia. }
      apply Forall_app. split; [apply A; lia|].
      destruct (step_cases _ _ _ _ _ W S) as [(_ & Q & _)|[(buf & s & _ & _ & _ & _ & Q)|[(buf & id & data & dts & Op & P)|(_ & C)]]]; [now apply quiet_aligned|now apply quiet_aligned| |now apply complete_aligned in C].
      assert (Hp : hook_ok (op_pre d a)) by (destruct a; cbn; auto).
      destruct P as [(-> & ->)|(d1 & i & s & p & G & I1 & X & _ & _ & P0 & _ & _ & _ & _ & P)]; [repeat constructor|].
      assert (W1 : wf d1) by (destruct G as [->|(_ & _ & G & _ & _ & ->)]; [assumption|now apply wf_grow]).
      destruct (process_packets _ _ _ _ _ P) as (N0 & _ & L2 & r & -> & Ar). pose proof (apply_pre_ok _ p Hp) as [Ei _]. constructor; [|exact Ar].
      assert (Bi : 0 <= i < zlen (dm_tracks d1)) by (apply wf_key; auto; change i with (fst (i, buf)); now apply in_map).
      rewrite Ei, P0. unfold zlen in Bi. pose proof (zlen_nonneg (dm_packets d1)). lia.
  - assert (E : length (dm_map d) = length (dm_tracks d)) by (rewrite <- (map_length fst), (proj2 W), map_length; apply seq_length).
    destruct (dm_map d) as [|x [|z t]]; cbn [map]; [constructor|constructor; [intros []|constructor]|cbn in E; lia].
Qed.
(** A header, a key frame of a SEI unit and a picture, two pictures, and a key frame that is held. *)
Definition C127_calls : list call :=
  [((o0, OpSetAutoFree true), []); ((o0, OpSetHandler), []); ((o0, OpNewVideo 0 AVCodecIdH264 1000 avcc_720), [avcc_720]);
   ((o0, OpVideo 0 AVCodecIdH264 (avcc [[6; 1]; [101; 5; 5]]) true 0 0), [avcc [[6; 1]; [101; 5; 5]]]); ((o0, OpProbeComplete), []);
   ((o0, OpVideo 0 AVCodecIdH264 (avcc [[97; 7]; [97; 8]]) false 40 80), [avcc [[97; 7]]; avcc [[97; 8]]]); ((o0, OpVideo 0 AVCodecIdH264 (avcc [[101; 9]]) true 80 80), [avcc [[101; 9]]])].
Example C127_example : sys_fits (sys_new "flv") C127_calls /\
  ('(_, f) <- rec_run "t" (sys_new "flv") (fh_start (fun _ => [])) C127_calls;; Ok (map fst (fh_files f), map (fun x => fh_disk f (fst x)) (fh_files f))) =
  Ok (["t.video.0.H264"%string], [match parse_avc_record avcc_720 with Ok c => cd_annexb c ++ cd_annexb c | _ => [] end ++ sc true ++ [101; 5; 5] ++ sc true ++ [97; 7] ++ sc false ++ [97; 8]]) /\
  ('(d, e) <- run (dm_new "flv") (map fst C127_calls);; Ok (dm_completed d, length (dm_tracks d), dm_map d)) = Ok (true, 1%nat, [(0, 0)]).
Proof. small_run E F "t"%string (fh_start (fun _ => [])) "flv"%string C127_calls o0_ok. split; [exact F|]. rewrite E. split; vm_compute; reflexivity. Qed.
Print Assumptions C127_header.
Print Assumptions C127_file.
Print Assumptions C127_header_hevc.
Print Assumptions C127_file_hevc.
Print Assumptions C127_one_track.

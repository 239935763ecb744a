(** * FlvSafeProofs: when an flv session is demuxed and recorded to its end. *)
From Coq Require Import String List.
From Verif Require Import Base NaluModel NaluSpec RecordModel RecordSpec SplitProofs SpsModel AacModel UtilModel PacketModel PacketProofs RoundProofs DemuxModel DemuxProofs DeliverySpec DeliveryProofs TrackSpec TrackProofs PropertiesDemux PropertiesTracks PropertiesPacket
  PropertiesAac PropertiesParams PropertiesRound HandlerModel HandlerSpec HandlerProofs PropertiesHandler RecordedProofs RecordSafeSpec RecordSafeProofs FlvSafeSpec.
Import ListNotations.
Local Open Scope list_scope.

Lemma source_step o a d : dm_name d = "flv"%string -> live d -> dm_handler d = true -> oracle_ok o -> flv_source (o, a) -> exists d' e, step o d a = Ok (d', e).
Proof.
  intros Nm Lv Hd O S. cut (exists r, step o d a = Ok r); [intros ([d' e] & ->); eauto|]. unfold flv_source in S. destruct a; cbn [snd] in S; try contradiction; cbn [step]; eauto.
  - destruct (flv_step o (OpNewAudio buf id timebase extra config) d Nm Lv Hd O S) as (d' & e & E). eauto.
  - unfold on_new_video_track. destruct S as (B & L). assert (C : exists r, create_video_track o d buf id timebase extra = Ok r).
    { unfold create_video_track. rewrite Nm. change (get_pack_type "flv") with PacketTypeAVCC. unfold generate_video_codec_data. change (PacketTypeAVCC =? PacketTypeAVCC) with true. cbv iota.
      destruct (id =? AVCodecIdH264); [destruct (C116_avc_exact extra B L) as [_ [(c & ->)| ->]]; cbn [bind]; eauto|].
      destruct (id =? AVCodecIdH265); [destruct (C116_hevc_exact_partial (or_grow o) extra B L) as [_ [(c & ->)| ->]]; cbn [bind]; eauto|eauto]. }
    destruct C as ([d1 t] & C). destruct (tm_find_type _ _); [rewrite Nm; cbn; eauto|]. rewrite C. cbn. eauto.
  - apply audio_total; auto. rewrite Nm. discriminate.
  - apply video_total_avcc; auto. rewrite Nm. discriminate.
  - apply complete_total; auto. apply Lv.
  - unfold try_complete_probe. destruct (need_more d); eauto. apply complete_total; auto. apply Lv.
  - destruct (find_buffer_index d marker). eauto.
Qed.

Lemma source_handler o d a d' e : flv_source (o, a) -> wf d -> step o d a = Ok (d', e) -> dm_handler d = true -> dm_handler d' = true.
Proof.
  intros Sa W S H. destruct (op_new_buf a) as [b|] eqn:Nb.
  - destruct (step_cases _ _ _ _ _ W S) as [(Sc & _ & _)|[(buf & s & _ & _ & _ & -> & _)|[(buf & id & data & dts & Op & P)|(C & _)]]]; [|exact H|destruct a; discriminate|destruct C as [-> | ->]; discriminate].
    destruct a; try discriminate; [eapply flv_handler; eauto; exact Sa|]. cbn [step] in S. unfold on_new_video_track in S.
    destruct (match tm_find_type (dm_tracks d) AVMediaTypeVideo with None => _ | Some _ => _ end) as [[d1 t]| | |] eqn:M; cbn [bind] in S; try discriminate.
    injection S as <- <-. assert (C : d1 = d \/ create_video_track o d buf id timebase extra = Ok (d1, t)).
    { destruct (tm_find_type _ _); [destruct (_ =? _)%string; [now right|injection M as <- <-; now left]|now right]. }
    destruct C as [->|C]; auto. apply create_video_cases in C; auto. destruct C as [(-> & _)|(_ & s & _ & _ & _ & _ & -> & _)]; auto.
  - destruct a; try discriminate; try (eapply flv_handler; eauto; exact Sa).
    cbn [step] in S. apply video_step in S as [(-> & _)|(d1 & i & s & p & G & _ & _ & _ & _ & _ & _ & _ & _ & _ & P)]; auto.
    rewrite (process_handler _ _ _ _ _ P). destruct G as [->|(_ & _ & _ & _ & _ & ->)]; assumption.
Qed.
Lemma source_run o1 o2 h : oracle_ok o1 -> oracle_ok o2 -> Forall well_behaved h -> Forall flv_source h ->
  exists d evs, run (dm_new "flv") ((o1, OpSetAutoFree true) :: (o2, OpSetHandler) :: h) = Ok (d, evs) /\ dm_handler d = true.
Proof.
  intros O1 O2. induction h as [|[o a] t IH] using rev_ind; intros W S.
  - do 2 eexists. split; reflexivity.
  - apply Forall_app in W as [W Wa], S as [S Sa]. apply Forall_inv in Wa, Sa. destruct (IH W S) as (d & evs & R & Hd).
    assert (F1 : Forall well_behaved ((o1, OpSetAutoFree true) :: (o2, OpSetHandler) :: t)).
    { constructor; [split; [exact O1|exact Logic.I]|]. constructor; [split; [exact O2|exact Logic.I]|exact W]. }
    destruct (source_step o a d) as (d' & e & St); auto; [now rewrite (run_name _ _ _ _ R)|eapply reach_live; eauto|apply Wa|].
    exists d', (evs ++ e). split.
    + change ((o1, OpSetAutoFree true) :: (o2, OpSetHandler) :: t ++ [(o, a)]) with (((o1, OpSetAutoFree true) :: (o2, OpSetHandler) :: t) ++ [(o, a)]). rewrite run_app, R. cbn [bind run]. rewrite St. cbn [bind]. now rewrite app_nil_r.
    + eapply source_handler; eauto. eapply run_wf; [apply wf_new|exact R].
Qed.
(** A track of an flv session with an H.264 or H.265 codec has the parameters of a record of that codec. *)
Lemma record_prefix grow record c : bytes_ok record -> zlen record < 2 ^ 63 -> parse_hevc_record grow record = Ok c -> exists cc k v sp pp, c = CdHevc cc (Z.of_nat k) v sp pp /\ (1 <= k <= 4)%nat.
Proof.
  intros B L P. destruct (C116_hevc_exact_partial grow record B L) as [X _]. apply X in P as (hdr & arrs & tail & l & x & r & i & _ & _ & _ & _ & _ & _ & ->). unfold hevc_params.
  assert (F : 0 <= field hdr 174 2 < 4) by (unfold field; change (2 ^ 2) with 4; apply Z.mod_pos_bound; lia).
  do 5 eexists. split; [f_equal; symmetry; apply Z2Nat.id; lia|lia].
Qed.
Lemma avc_shape record c : parse_avc_record record = Ok c -> exists cc sp pp, c = CdAvc cc sp pp.
Proof.
  unfold parse_avc_record. destruct (avc_unmarshal _ record) as [r| | |]; cbn [bind]; try discriminate. destruct (of_opt _) as [x| | |]; cbn [bind]; try discriminate.
  destruct (avc_parse_sps x) as [i| | |]; cbn [bind]; try discriminate. intros E. injection E as <-. eauto.
Qed.
Lemma source_track h d evs : Forall flv_source h -> run (dm_new "flv") h = Ok (d, evs) -> forall i s, idx (dm_tracks d) i = Some s -> is_h26x (st_codec s) = true ->
  (exists cc sp pp, st_params s = Some (CdAvc cc sp pp)) \/ (exists cc k v sp pp, st_params s = Some (CdHevc cc (Z.of_nat k) v sp pp) /\ (1 <= k <= 4)%nat).
Proof.
  intros Fc R i s Js H. rewrite Forall_forall in Fc. destruct (reach_tracks _ _ _ _ R _ _ Js) as (_ & buf & Ib & (o & a & d0 & s0 & Ja & Nm & Cb & Cr & Es)). destruct Es as (E1 & _ & E3 & E4 & E5 & E6 & _).
  specialize (Fc _ Ja). unfold flv_source in Fc. cbn [snd] in Fc. destruct a; try contradiction; cbn [creates] in Cr.
  - destruct Cr as (_ & T & _). destruct Fc as [Fc _]. congruence.
  - destruct Cr as (_ & T2 & _ & _ & _ & T6). rewrite Nm in T6. change (get_pack_type "flv") with PacketTypeAVCC in T6. destruct Fc as (B & L). unfold generate_video_codec_data in T6.
    change (PacketTypeAVCC =? PacketTypeAVCC) with true in T6. cbv iota in T6. rewrite E3, T2 in H.
    destruct (id =? AVCodecIdH264) eqn:I4; [destruct (parse_avc_record extra) as [c| | |] eqn:P; cbn [bind] in T6; try discriminate; left; destruct (avc_shape _ _ P) as (cc & sp & pp & Ec); exists cc, sp, pp; congruence|].
    destruct (id =? AVCodecIdH265) eqn:I5; [destruct (parse_hevc_record (or_grow o) extra) as [c| | |] eqn:P; cbn [bind] in T6; try discriminate; right; destruct (record_prefix _ _ _ B L P) as (cc & k & v & sp & pp & Ec & K); exists cc, k, v, sp, pp; split; [congruence|exact K]|].
    exfalso. unfold is_h26x in H. apply Z.eqb_neq in I4, I5. apply orb_prop in H as [H|H]; apply Z.eqb_eq in H; congruence.
  - destruct Cr as (x & k' & c' & tb & _ & _ & (_ & T & _)). congruence.
  - destruct Cr as (x & tb & _ & _ & PT & _). rewrite Nm in PT. discriminate.
Qed.
Lemma source_bytes h p : Forall flv_source h -> In (payload_of p) (payloads h) -> pk_media p = AVMediaTypeVideo -> bytes_ok (pk_data p).
Proof.
  intros Fc Pl M. rewrite Forall_forall in Fc. unfold payloads in Pl. apply in_flat_map in Pl as ((o' & a') & Ja' & I'). specialize (Fc _ Ja'). unfold flv_source in Fc. cbn [snd] in *.
  destruct a'; cbn [call_payload] in I'; try contradiction; destruct I' as [E|[]]; unfold payload_of in E; [injection E; intros; exfalso; rewrite M in *; discriminate|]. assert (Y : pk_data p = data) by congruence. now rewrite Y.
Qed.
(** A packet of another codec leaves the parameter sets only. *)
Lemma avcc_other s p c : pk_media p = AVMediaTypeVideo -> pk_type p = PacketTypeAVCC -> is_h26x (st_codec s) = true -> pk_annexb p = None -> st_params s = Some c -> alloc_ok p ->
  pk_codec p <> AVCodecIdH264 -> pk_codec p <> AVCodecIdH265 -> exists r, avcc_packet_to_annexb s p = Ok r.
Proof.
  intros M T H N P A C4 C5. eexists. apply (avcc_core s p c []); auto. intros pre rest Lr. destruct (Z.eqb_spec AVCodecIdH264 (pk_codec p)) as [X|_]; [congruence|]. destruct (Z.eqb_spec AVCodecIdH265 (pk_codec p)) as [X|_]; [congruence|]. reflexivity.
Qed.
Lemma source_session path k h d evs : Forall sorting h -> Forall no_hook h -> Forall flv_source h -> run (dm_new "flv") h = Ok (d, evs) ->
  (exists f, fh_session path (fh_start k) evs = Ok f) <-> Forall (fun p => ~ unreadable (dm_tracks d) p) (delivered evs).
Proof.
  intros So Nh Fc R.
  assert (W : Forall well_behaved h).
  { apply Forall_forall. intros [o1 a1] I1. rewrite Forall_forall in So, Nh. split; [now apply So|]. specialize (Nh _ I1). unfold op_hook_ok, no_hook in *. cbn [snd] in *. destruct a1; auto. destruct f; [contradiction|exact Logic.I]. }
  rewrite (session_total path k "flv" h d evs W R). rewrite !Forall_forall. pose proof (delivered_facts "flv" h d evs So Nh R) as DF. split; intros F p Ip; destruct (DF p Ip) as ([Fa Fl] & Pl & Ty & s & Js); specialize (F p Ip).
  - intros (M & C & s' & Js' & H & Nr). rewrite Js in Js'. injection Js' as <-. destruct F as [_ (w & dd & Au & _)]. unfold access_unit in Au. rewrite M in Au. destruct Au as (s' & p1 & Js' & X). rewrite Js in Js'. injection Js' as <-.
    assert (Ao : alloc_ok p) by (unfold alloc_ok; now rewrite Fl). specialize (Ty M). change (get_pack_type "flv") with PacketTypeAVCC in Ty.
    destruct (source_track h d evs Fc R _ s Js H) as [(cc & sp & pp & Sp)|(cc & m & v & sp & pp & Sp & K)].
    + unfold avcc_packet_to_annexb in X. rewrite M, Ty, H, Fa, C, Sp in X. cbn in X. discriminate.
    + destruct (C56_hevc_packet_exact s p cc m v sp pp M Ty H C Fa Sp Ao ltac:(lia) (source_bytes _ _ Fc Pl M)) as [(units & Eu & Fu & Lu & _)|[_ Y]]; [|rewrite Y in X; discriminate].
      apply Nr. exists cc, m, v, sp, pp, units. auto.
  - split; [destruct (media_of_payload _ _ Pl) as [[-> _]| ->]; eexists; reflexivity|].
    destruct (media_of_payload _ _ Pl) as [[M _]|M]; [eexists; exists (pk_data p); split; [unfold access_unit; rewrite M; reflexivity|reflexivity]|].
    assert (X : exists p1 dd, avcc_packet_to_annexb s p = Ok (p1, dd)).
    { destruct (is_h26x (st_codec s)) eqn:H; [|do 2 eexists; apply C58_other_packets; auto].
      assert (Ao : alloc_ok p) by (unfold alloc_ok; now rewrite Fl). specialize (Ty M). change (get_pack_type "flv") with PacketTypeAVCC in Ty. pose proof (source_bytes _ _ Fc Pl M) as B.
      destruct (Z.eq_dec (pk_codec p) AVCodecIdH264) as [C4|C4].
      { assert (Sp : exists c, st_params s = Some c) by (destruct (source_track h d evs Fc R _ s Js H) as [(cc & sp & pp & Sp)|(cc & m & v & sp & pp & Sp & _)]; eauto). destruct Sp as (c & Sp).
        destruct (C56_avcc_packet_partial s p c M Ty H C4 Fa Sp Ao B) as (units & tail & _ & _ & _ & X & _). eauto. }
      destruct (Z.eq_dec (pk_codec p) AVCodecIdH265) as [C5|C5].
      { destruct (source_track h d evs Fc R _ s Js H) as [(cc & sp & pp & Sp)|(cc & m & v & sp & pp & Sp & K)].
        - exfalso. apply F. split; [exact M|]. split; [exact C5|]. exists s. split; [exact Js|]. split; [exact H|]. intros (cc' & k' & v & sp' & pp' & units & E & _). congruence.
        - destruct (C56_hevc_packet_exact s p cc m v sp pp M Ty H C5 Fa Sp Ao ltac:(lia) B) as [(units & _ & _ & _ & Y)|[Nu _]]; [eauto|].
          exfalso. apply F. split; [exact M|]. split; [exact C5|]. exists s. split; [exact Js|]. split; [exact H|]. intros (cc' & k' & v' & sp' & pp' & units & E & Eu & Fu & Lu). rewrite Sp in E. injection E as <- Ek <- <- <-. apply Nat2Z.inj in Ek as <-.
          specialize (Nu units Eu Fu). lia. }
      assert (Sp : exists c, st_params s = Some c) by (destruct (source_track h d evs Fc R _ s Js H) as [(cc & sp & pp & Sp)|(cc & m & v & sp & pp & Sp & _)]; eauto). destruct Sp as (c & Sp).
      destruct (avcc_other s p c M Ty H Fa Sp Ao C4 C5) as ([p1 dd] & X). eauto. }
    destruct X as (p1 & dd & X). eexists. exists dd. split; [unfold access_unit; rewrite M; exists s, p1; auto|reflexivity].
Qed.

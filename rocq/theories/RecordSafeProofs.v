(** * RecordSafeProofs: the demuxer and the file handler never panic on the calls of RecordSafeSpec. *)
From Coq Require Import String List.
From Verif Require Import Base NaluModel NaluSpec SplitProofs SpsModel AacModel UtilModel PacketModel PacketProofs DemuxModel DemuxProofs DeliverySpec DeliveryProofs TrackSpec TrackProofs PropertiesDemux PropertiesTracks PropertiesPacket PropertiesAac PropertiesParams
  HandlerModel HandlerSpec HandlerProofs PropertiesHandler RecordedProofs RecordSafeSpec.
Import ListNotations.
Local Open Scope list_scope.

(** ** The demuxer *)
Lemma safe_driven x : safe_call x -> packet_driven x.
Proof. destruct x as [o a]. unfold safe_call, packet_driven. cbn [snd]. destruct a; cbn; tauto. Qed.
Lemma safe_step name o a d : get_timebase name <> Panic -> dm_name d = name -> live d -> dm_handler d = true -> Forall (reparse (dm_name d)) (dm_tracks d) -> oracle_ok o -> safe_call (o, a) ->
  exists d' e, step o d a = Ok (d', e).
Proof.
  intros Tb Nm Lv Hd Rp O S. cut (exists r, step o d a = Ok r); [intros ([d' e] & ->); eauto|]. destruct a; cbn [safe_call snd] in S; try contradiction; cbn [step]; eauto.
  - apply audio_total; auto. now rewrite Nm.
  - apply video_total; auto. intros ->. right. right. right. unfold safe_call in S. cbn [snd] in S. destruct S as (B & K & _). destruct (key_cases id data B); [contradiction|auto].
  - apply complete_total; auto. apply Lv.
  - unfold try_complete_probe. destruct (need_more d); eauto. apply complete_total; auto. apply Lv.
  - destruct (find_buffer_index d marker). eauto.
Qed.
Lemma process_handler o d p d' e : process_buffered_packet o d p = Ok (d', e) -> dm_handler d' = dm_handler d.
Proof.
  intros P. apply process_cases in P as (k & l & _ & _ & [(_ & -> & _)|[(l' & q & e' & _ & _ & -> & _)|(e' & _ & _ & _ & C & _)]]); auto.
  apply complete_cases in C as [(_ & -> & _)|[(_ & _ & -> & _)|(_ & _ & -> & _)]]; reflexivity.
Qed.
Lemma step_handler o d a d' e : safe_call (o, a) -> wf d -> step o d a = Ok (d', e) -> dm_handler d = true -> dm_handler d' = true.
Proof.
  intros Sa W S H. unfold safe_call in Sa. destruct a; cbn [snd] in Sa; try contradiction; cbn [step] in S; try (injection S as <- <-; first [assumption|reflexivity]).
  - apply audio_step in S as [(-> & _)|(d1 & i & s & p & G & _ & _ & _ & _ & _ & _ & _ & _ & _ & P)]; auto.
    rewrite (process_handler _ _ _ _ _ P). destruct G as [->|(_ & _ & _ & _ & _ & ->)]; assumption.
  - apply video_step in S as [(-> & _)|(d1 & i & s & p & G & _ & _ & _ & _ & _ & _ & _ & _ & _ & P)]; auto.
    rewrite (process_handler _ _ _ _ _ P). destruct G as [->|(_ & _ & _ & _ & _ & ->)]; assumption.
  - apply complete_cases in S as [(_ & -> & _)|[(_ & _ & -> & _)|(_ & _ & -> & _)]]; assumption.
  - unfold try_complete_probe in S. destruct (need_more d); [injection S as <- <-; assumption|].
    apply complete_cases in S as [(_ & -> & _)|[(_ & _ & -> & _)|(_ & _ & -> & _)]]; assumption.
  - unfold find_buffer_index in S. destruct (marker_index _ _ _); injection S as <- <-; assumption.
Qed.
Lemma safe_run name o1 o2 h : get_timebase name <> Panic -> oracle_ok o1 -> oracle_ok o2 -> Forall well_behaved h -> Forall safe_call h ->
  exists d evs, run (dm_new name) ((o1, OpSetAutoFree true) :: (o2, OpSetHandler) :: h) = Ok (d, evs) /\ dm_handler d = true.
Proof.
  intros Tb O1 O2. induction h as [|[o a] t IH] using rev_ind; intros W S.
  - do 2 eexists. split; reflexivity.
  - apply Forall_app in W as [W Wa], S as [S Sa]. apply Forall_inv in Wa, Sa. destruct (IH W S) as (d & evs & R & Hd).
    assert (W' : Forall (fun x => well_behaved x /\ packet_driven x) ((o1, OpSetAutoFree true) :: (o2, OpSetHandler) :: t)).
    { constructor; [split; [split; [exact O1|exact Logic.I]|reflexivity]|]. constructor; [split; [split; [exact O2|exact Logic.I]|reflexivity]|].
      apply Forall_forall. intros x Ix. rewrite Forall_forall in W, S. split; [now apply W|now apply safe_driven, S]. }
    assert (F1 : Forall well_behaved ((o1, OpSetAutoFree true) :: (o2, OpSetHandler) :: t)) by (eapply Forall_impl; [|exact W']; intros x [X _]; exact X).
    assert (F2 : Forall (fun x => op_hook_ok x /\ packet_driven x) ((o1, OpSetAutoFree true) :: (o2, OpSetHandler) :: t)) by (eapply Forall_impl; [|exact W']; intros x [[_ X] Y]; auto).
    destruct (reach_driven _ _ _ _ F2 R) as (_ & Nm & Rp). rewrite <- Nm in Rp.
    destruct (safe_step name o a d) as (d' & e & St); auto; [eapply reach_live; eauto|apply Wa|].
    exists d', (evs ++ e). split.
    + change ((o1, OpSetAutoFree true) :: (o2, OpSetHandler) :: t ++ [(o, a)]) with (((o1, OpSetAutoFree true) :: (o2, OpSetHandler) :: t) ++ [(o, a)]). rewrite run_app, R. cbn [bind run]. rewrite St. cbn [bind]. now rewrite app_nil_r.
    + eapply step_handler; eauto. eapply run_wf; [apply wf_new|exact R].
Qed.

(** ** The parameter sets of a track begin with a unit *)
Definition unit_set (o : option (list Z)) : Prop := forall x, o = Some x -> exists b t, x = sc true ++ b :: t.
Lemma unit_set_some n h : idx n 0 = Some h -> unit_set (Some (sc true ++ n)).
Proof. intros E x [= <-]. destruct n as [|b t]; [discriminate|]. exists b, t. reflexivity. Qed.
Lemma avc_loop_form pieces : forall s q s' q', avc_extra_loop pieces s q = Ok (s', q') -> unit_set s -> unit_set s'.
Proof.
  induction pieces as [|n t IH]; cbn [avc_extra_loop]; intros s q s' q' E U; [injection E as <- <-; exact U|].
  destruct (remove_start_code n) as [m| | |]; cbn [bind] in E; try discriminate. destruct (idx m 0) as [h|] eqn:Eh; cbn [of_opt bind] in E; try discriminate. rewrite !with_start_code_ok in E. cbn [bind] in E.
  destruct (_ =? _); [eapply IH; eauto; eapply unit_set_some; eauto|]. destruct (_ =? _); eapply IH; eauto.
Qed.
Lemma hevc_loop_form pieces : forall v s q v' s' q', hevc_extra_loop pieces v s q = Ok (v', s', q') -> unit_set v -> unit_set v'.
Proof.
  induction pieces as [|n t IH]; cbn [hevc_extra_loop]; intros v s q v' s' q' E U; [injection E as <- <- <-; exact U|].
  destruct (remove_start_code n) as [m| | |]; cbn [bind] in E; try discriminate. destruct (idx m 0) as [h|] eqn:Eh; cbn [of_opt bind] in E; try discriminate. rewrite !with_start_code_ok in E. cbn [bind] in E.
  destruct (_ =? _); [eapply IH; eauto; eapply unit_set_some; eauto|]. destruct (_ =? _); [eapply IH; eauto|]. destruct (_ =? _); eapply IH; eauto.
Qed.
Lemma unit_none : unit_set None.
Proof. intros x. discriminate. Qed.
Lemma generated_header grow id data c : generate_video_codec_data grow PacketTypeAnnexB id data = Ok (Some c) -> nal_header (cd_annexb c) <> None.
Proof.
  unfold generate_video_codec_data. change (PacketTypeAnnexB =? PacketTypeAVCC) with false. cbv iota. intros E.
  destruct (Z.eqb_spec id AVCodecIdH264) as [->|N4].
  - unfold avc_parse_extra_data in E. destruct (split_nalu data) as [pieces| | |]; cbn [bind] in E; try discriminate. destruct (avc_extra_loop pieces None None) as [[s q]| | |] eqn:El; cbn [bind] in E; try discriminate.
    pose proof (avc_loop_form _ _ _ _ _ El unit_none) as Us. destruct s as [s|], q as [q|]; cbn [bind] in E; try discriminate. unfold new_avc_codec_data in E. destruct (avc_parse_sps s) as [i| | |]; cbn [bind] in E; try discriminate.
    injection E as <-. destruct (Us s eq_refl) as (b & t & ->). discriminate.
  - destruct (Z.eqb_spec id AVCodecIdH265) as [->|N5]; [|discriminate].
    unfold hevc_parse_extra_data in E. destruct (split_nalu data) as [pieces| | |]; cbn [bind] in E; try discriminate. destruct (hevc_extra_loop pieces None None None) as [[[v s] q]| | |] eqn:El; cbn [bind] in E; try discriminate.
    pose proof (hevc_loop_form _ _ _ _ _ _ _ El unit_none) as Uv. destruct v as [v|], s as [s|], q as [q|]; cbn [bind] in E; try discriminate. unfold new_hevc_codec_data in E. destruct (hevc_parse_sps s) as [i| | |]; cbn [bind] in E; try discriminate.
    injection E as <-. destruct (Uv v eq_refl) as (b & t & ->). discriminate.
Qed.
Lemma track_header name h d evs i s c : get_pack_type name = PacketTypeAnnexB -> run (dm_new name) h = Ok (d, evs) -> idx (dm_tracks d) i = Some s -> st_params s = Some c -> nal_header (cd_annexb c) <> None.
Proof.
  intros PT R J P. destruct (reach_tracks _ _ _ _ R _ _ J) as (_ & buf & Ib & (o & a & d0 & s0 & Ja & Nm & Cb & Cr & Es)).
  destruct Es as (E1 & _ & E3 & E4 & E5 & E6 & _).
  destruct a; try contradiction; cbn [creates] in Cr.
  - destruct Cr as (_ & _ & _ & T & _). congruence.
  - destruct Cr as (_ & _ & _ & _ & _ & T6). rewrite Nm, PT in T6. apply (generated_header (or_grow o) id extra). congruence.
  - destruct Cr as (x & k & c' & tb & _ & _ & (_ & _ & _ & T & _)). congruence.
  - destruct Cr as (x & tb & _ & (_ & _ & _ & _ & _ & T6) & _). rewrite Nm, PT in T6. apply (generated_header (or_grow o) id x). congruence.
Qed.

(** ** The packets that reach the handler *)
Lemma delivered_facts name h d evs : Forall sorting h -> Forall no_hook h -> run (dm_new name) h = Ok (d, evs) ->
  forall p, In p (delivered evs) -> fresh p /\ In (payload_of p) (payloads h) /\ (pk_media p = AVMediaTypeVideo -> pk_type p = get_pack_type name) /\ exists s, idx (dm_tracks d) (pk_index p) = Some s.
Proof.
  intros So Nh R p Ip. destruct (C89_payload _ _ _ _ So Nh R) as (_ & _ & Pl). split; [|split; [now apply Pl|]].
  - destruct (delivered_accepted _ _ _ _ _ So R Ip) as (q & Iq & Eq). pose proof (reach_fresh _ _ _ _ Nh R) as Fr. rewrite Forall_forall in Fr. specialize (Fr _ Iq). unfold fresh in *. injection Eq. intros. destruct Fr. split; congruence.
  - destruct (delivered_accepted _ _ _ _ _ So R Ip) as (q & Iq & Eq). destruct (reach_packets _ _ _ _ Nh R) as [_ Pok]. rewrite Forall_forall in Pok. destruct (Pok _ Iq) as [T (s & Js & _)]. injection Eq. intros. split.
    + intros M. transitivity (pk_type q); [congruence|]. apply T; congruence.
    + exists s. congruence.
Qed.
Lemma media_of_payload h p : In (payload_of p) (payloads h) -> (pk_media p = AVMediaTypeAudio /\ pk_key p = false) \/ pk_media p = AVMediaTypeVideo.
Proof.
  unfold payloads. rewrite in_flat_map. intros ((o & a) & _ & I). cbn [snd] in I. destruct a; cbn [call_payload] in I; try contradiction; destruct I as [E|[]]; injection E; intros; auto.
Qed.

Lemma session_safe path k name h d evs : get_pack_type name = PacketTypeAnnexB -> Forall sorting h -> Forall no_hook h -> run (dm_new name) h = Ok (d, evs) ->
  (exists f, fh_session path (fh_start k) evs = Ok f) <-> Forall (fun p => ~ headless (dm_tracks d) p) (delivered evs).
Proof.
  intros PT So Nh R.
  assert (W : Forall well_behaved h).
  { apply Forall_forall. intros [o1 a1] I1. rewrite Forall_forall in So, Nh. split; [now apply So|]. specialize (Nh _ I1). unfold op_hook_ok, no_hook in *. cbn [snd] in *. destruct a1; auto. destruct f; [contradiction|exact Logic.I]. }
  rewrite (session_total path k name h d evs W R). rewrite !Forall_forall. pose proof (delivered_facts _ _ _ _ So Nh R) as DF. split; intros F p Ip; destruct (DF p Ip) as ([Fa Fl] & Pl & Ty & s & Js); specialize (F p Ip).
  - intros (M & K & N & s' & Js' & H & P). rewrite Js in Js'. injection Js' as <-. destruct F as [_ (w & dd & Au & _)]. unfold access_unit in Au. rewrite M in Au. destruct Au as (s' & p1 & Js' & X). rewrite Js in Js'. injection Js' as <-.
    destruct (st_params s) as [c|] eqn:Sp; [|congruence]. rewrite (C58_no_header s p c) in X; auto; [discriminate|]. rewrite (Ty M), PT. discriminate.
  - split.
    + destruct (media_of_payload _ _ Pl) as [[-> _]| ->]; eexists; reflexivity.
    + destruct (media_of_payload _ _ Pl) as [[M _]|M].
      * eexists. exists (pk_data p). split; [unfold access_unit; rewrite M; reflexivity|reflexivity].
      * assert (T : pk_type p <> PacketTypeAVCC) by (rewrite (Ty M), PT; discriminate).
        assert (X : exists p1 dd, avcc_packet_to_annexb s p = Ok (p1, dd)).
        { destruct (pk_key p) eqn:K; [|do 2 eexists; apply C58_other_packets; auto]. destruct (is_h26x (st_codec s)) eqn:H; [|do 2 eexists; apply C58_other_packets; auto].
          destruct (st_params s) as [c|] eqn:Sp; [|do 2 eexists; apply C58_other_packets; auto]. pose proof (track_header _ _ _ _ _ _ _ PT R Js Sp) as Hc. destruct (nal_header (cd_annexb c)) as [a|] eqn:Ha; [|congruence].
          destruct (nal_header (pk_data p)) as [b|] eqn:Hb; [|exfalso; apply F; split; [exact M|split; [exact K|split; [exact Hb|exists s; split; [exact Js|split; [exact H|congruence]]]]]].
          assert (Ao : alloc_ok p) by (unfold alloc_ok; now rewrite Fl). rewrite (annexb_key s p c a b M T K H Sp Fa Ao Ha Hb). destruct (a =? b); eauto. }
        destruct X as (p1 & dd & X). eexists. exists dd. split; [unfold access_unit; rewrite M; exists s, p1; auto|reflexivity].
Qed.

(** ** flv *)
Lemma video_total_avcc o d buf id data key dts pts : oracle_ok o -> live d -> dm_handler d = true -> get_pack_type (dm_name d) <> PacketTypeAnnexB -> exists r, on_video_packet o d buf id data key dts pts = Ok r.
Proof.
  intros O (W & Hk & F) Hd PT. unfold on_video_packet. destruct (find_track_total o d buf W) as (r & R). rewrite R. cbn [bind]. apply find_track_cases in R as [(-> & N)|(i & s & -> & I & T)].
  - destruct (Z.eqb_spec (get_pack_type (dm_name d)) PacketTypeAnnexB) as [X|_]; [congruence|]. rewrite andb_false_r. cbn. eauto.
  - cbn [bind]. refine (process_live o d i buf (set_buffer _ _) (dm_pre d) O W Hk Hd F I _ eq_refl). cbn. now apply W.
Qed.
Lemma flv_step o a d : dm_name d = "flv"%string -> live d -> dm_handler d = true -> oracle_ok o -> flv_call (o, a) -> exists d' e, step o d a = Ok (d', e).
Proof.
  intros Nm Lv Hd O S. cut (exists r, step o d a = Ok r); [intros ([d' e] & ->); eauto|]. unfold flv_call in S. destruct a; cbn [snd] in S; try contradiction; cbn [step]; eauto.
  - unfold on_new_audio_track. destruct S as [_ S]. assert (C : exists r, create_audio_track d buf id timebase extra config = Ok r).
    { unfold create_audio_track. destruct (Z.eqb_spec id AVCodecIdAAC) as [E|]; cbn [andb]; [|eauto]. destruct (ac_has_adts config) eqn:Ha; cbn [negb]; [eauto|]. destruct (S E eq_refl) as (e & -> & B & L).
      destruct C80_parse_asc_partial as (_ & _ & T). destruct (T e B) as [P N]. destruct (parse_asc e); eauto; [|congruence]. exfalso. pose proof (proj1 P eq_refl). lia. }
    destruct C as ([d1 t] & C). destruct (tm_find_type _ _); [rewrite Nm; cbn; eauto|]. rewrite C. cbn. eauto.
  - unfold on_new_video_track. destruct S as (-> & B & L). assert (C : exists r, create_video_track o d buf AVCodecIdH264 timebase extra = Ok r).
    { unfold create_video_track. rewrite Nm. change (get_pack_type "flv") with PacketTypeAVCC. unfold generate_video_codec_data. change (PacketTypeAVCC =? PacketTypeAVCC) with true. change (AVCodecIdH264 =? AVCodecIdH264) with true. cbv iota.
      destruct (C116_avc_exact extra B L) as [_ [(c & ->)| ->]]; cbn [bind]; eauto. }
    destruct C as ([d1 t] & C). destruct (tm_find_type _ _); [rewrite Nm; cbn; eauto|]. rewrite C. cbn. eauto.
  - apply audio_total; auto. rewrite Nm. discriminate.
  - apply video_total_avcc; auto. rewrite Nm. discriminate.
  - apply complete_total; auto. apply Lv.
  - unfold try_complete_probe. destruct (need_more d); eauto. apply complete_total; auto. apply Lv.
  - destruct (find_buffer_index d marker). eauto.
Qed.
Lemma flv_handler o d a d' e : flv_call (o, a) -> wf d -> step o d a = Ok (d', e) -> dm_handler d = true -> dm_handler d' = true.
Proof.
  intros Sa W S H. destruct (op_new_buf a) as [b|] eqn:Nb.
  - destruct (step_cases _ _ _ _ _ W S) as [(_ & _ & _)|[(buf & s & _ & _ & _ & -> & _)|[(buf & id & data & dts & Op & P)|(C & _)]]]; [|exact H|destruct a; discriminate|destruct C as [-> | ->]; discriminate].
    destruct a; try discriminate; cbn [step] in S.
    + unfold on_new_audio_track in S. destruct (match tm_find_type (dm_tracks d) AVMediaTypeAudio with None => _ | Some _ => _ end) as [[d1 t]| | |] eqn:M; cbn [bind] in S; try discriminate.
      injection S as <- <-. assert (C : d1 = d \/ create_audio_track d buf id timebase extra config = Ok (d1, t)).
      { destruct (tm_find_type _ _); [destruct (_ =? _)%string; [now right|injection M as <- <-; now left]|now right]. }
      destruct C as [->|C]; auto. apply create_audio_cases in C; auto. destruct C as [(-> & _)|(_ & s & _ & _ & _ & _ & -> & _)]; auto.
    + unfold on_new_video_track in S. destruct (match tm_find_type (dm_tracks d) AVMediaTypeVideo with None => _ | Some _ => _ end) as [[d1 t]| | |] eqn:M; cbn [bind] in S; try discriminate.
      injection S as <- <-. assert (C : d1 = d \/ create_video_track o d buf id timebase extra = Ok (d1, t)).
      { destruct (tm_find_type _ _); [destruct (_ =? _)%string; [now right|injection M as <- <-; now left]|now right]. }
      destruct C as [->|C]; auto. apply create_video_cases in C; auto. destruct C as [(-> & _)|(_ & s & _ & _ & _ & _ & -> & _)]; auto.
  - destruct a; try discriminate; try (cbn in S; injection S as <- <-; first [assumption|reflexivity]).
    + cbn [step] in S. apply audio_step in S as [(-> & _)|(d1 & i & s & p & G & _ & _ & _ & _ & _ & _ & _ & _ & _ & P)]; auto.
      rewrite (process_handler _ _ _ _ _ P). destruct G as [->|(_ & _ & _ & _ & _ & ->)]; assumption.
    + cbn [step] in S. apply video_step in S as [(-> & _)|(d1 & i & s & p & G & _ & _ & _ & _ & _ & _ & _ & _ & _ & P)]; auto.
      rewrite (process_handler _ _ _ _ _ P). destruct G as [->|(_ & _ & _ & _ & _ & ->)]; assumption.
    + cbn [step] in S. apply complete_cases in S as [(_ & -> & _)|[(_ & _ & -> & _)|(_ & _ & -> & _)]]; assumption.
    + cbn [step] in S. unfold try_complete_probe in S. destruct (need_more d); [injection S as <- <-; assumption|].
      apply complete_cases in S as [(_ & -> & _)|[(_ & _ & -> & _)|(_ & _ & -> & _)]]; assumption.
    + destruct Sa.
    + cbn [step] in S. unfold find_buffer_index in S. destruct (marker_index _ _ _); injection S as <- <-; assumption.
Qed.
Lemma flv_run o1 o2 h : oracle_ok o1 -> oracle_ok o2 -> Forall well_behaved h -> Forall flv_call h ->
  exists d evs, run (dm_new "flv") ((o1, OpSetAutoFree true) :: (o2, OpSetHandler) :: h) = Ok (d, evs) /\ dm_handler d = true.
Proof.
  intros O1 O2. induction h as [|[o a] t IH] using rev_ind; intros W S.
  - do 2 eexists. split; reflexivity.
  - apply Forall_app in W as [W Wa], S as [S Sa]. apply Forall_inv in Wa, Sa. destruct (IH W S) as (d & evs & R & Hd).
    assert (F1 : Forall well_behaved ((o1, OpSetAutoFree true) :: (o2, OpSetHandler) :: t)).
    { constructor; [split; [exact O1|exact Logic.I]|]. constructor; [split; [exact O2|exact Logic.I]|exact W]. }
    destruct (flv_step o a d) as (d' & e & St); auto; [now rewrite (run_name _ _ _ _ R)|eapply reach_live; eauto|apply Wa|].
    exists d', (evs ++ e). split.
    + change ((o1, OpSetAutoFree true) :: (o2, OpSetHandler) :: t ++ [(o, a)]) with (((o1, OpSetAutoFree true) :: (o2, OpSetHandler) :: t) ++ [(o, a)]). rewrite run_app, R. cbn [bind run]. rewrite St. cbn [bind]. now rewrite app_nil_r.
    + eapply flv_handler; eauto. eapply run_wf; [apply wf_new|exact R].
Qed.
Lemma flv_session path k h d evs : Forall sorting h -> Forall no_hook h -> Forall flv_call h -> run (dm_new "flv") h = Ok (d, evs) -> exists f, fh_session path (fh_start k) evs = Ok f.
Proof.
  intros So Nh Fc R.
  assert (W : Forall well_behaved h).
  { apply Forall_forall. intros [o1 a1] I1. rewrite Forall_forall in So, Nh. split; [now apply So|]. specialize (Nh _ I1). unfold op_hook_ok, no_hook in *. cbn [snd] in *. destruct a1; auto. destruct f; [contradiction|exact Logic.I]. }
  apply (session_total path k "flv" h d evs W R). rewrite !Forall_forall in *. pose proof (delivered_facts "flv" h d evs) as DF. intros p Ip. destruct (DF ltac:(now apply Forall_forall) ltac:(now apply Forall_forall) R p Ip) as ([Fa Fl] & Pl & Ty & s & Js).
  split; [destruct (media_of_payload _ _ Pl) as [[-> _]| ->]; eexists; reflexivity|].
  destruct (media_of_payload _ _ Pl) as [[M _]|M]; [eexists; exists (pk_data p); split; [unfold access_unit; rewrite M; reflexivity|reflexivity]|].
  assert (X : exists p1 dd, avcc_packet_to_annexb s p = Ok (p1, dd)).
  { destruct (is_h26x (st_codec s)) eqn:H; [|do 2 eexists; apply C58_other_packets; auto].
    destruct (reach_tracks _ _ _ _ R _ _ Js) as (_ & buf & Ib & (o & a & d0 & s0 & Ja & Nm & Cb & Cr & Es)). destruct Es as (E1 & _ & E3 & E4 & E5 & E6 & _).
    assert (Ac : pk_codec p = AVCodecIdH264 /\ bytes_ok (pk_data p)).
    { unfold payloads in Pl. apply in_flat_map in Pl as ((o' & a') & Ja' & I'). specialize (Fc _ Ja'). unfold flv_call in Fc. cbn [snd] in *. destruct a'; cbn [call_payload] in I'; try contradiction; destruct I' as [E|[]]; unfold payload_of in E; [injection E; intros; exfalso; rewrite M in *; discriminate|]. assert (Y : pk_codec p = id /\ pk_data p = data) by (split; congruence). destruct Y as [-> ->]. exact Fc. }
    specialize (Fc _ Ja). unfold flv_call in Fc. cbn [snd] in Fc.
    destruct a; try contradiction; cbn [creates] in Cr.
    - destruct Cr as (_ & T & _). destruct Fc as [Fc _]. congruence.
    - destruct Cr as (_ & T2 & _ & _ & _ & T6). rewrite Nm in T6. change (get_pack_type "flv") with PacketTypeAVCC in T6. destruct Fc as (-> & _). unfold generate_video_codec_data in T6.
      change (PacketTypeAVCC =? PacketTypeAVCC) with true in T6. change (AVCodecIdH264 =? AVCodecIdH264) with true in T6. cbv iota in T6. destruct (parse_avc_record extra) as [c| | |]; cbn [bind] in T6; try discriminate. 
      assert (Ao : alloc_ok p) by (unfold alloc_ok; now rewrite Fl). destruct Ac as [Ac B].
      assert (Sp : st_params s = Some c) by congruence.
      destruct (C56_avcc_packet_partial s p c M (Ty M) H Ac Fa Sp Ao B) as (units & tail & _ & _ & _ & X & _). eauto.
    - destruct Cr as (x & k' & c' & tb & _ & _ & (_ & T & _)). congruence.
    - destruct Cr as (x & tb & _ & _ & PT & _). rewrite Nm in PT. discriminate. }
  destruct X as (p1 & dd & X). eexists. exists dd. split; [unfold access_unit; rewrite M; exists s, p1; auto|reflexivity].
Qed.

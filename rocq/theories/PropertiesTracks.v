(** * PropertiesTracks: C89-C95, what packets and tracks hold.

    As in [PropertiesDemux], [run (dm_new name) h = Ok (d, evs)] says that the calls of [h] return and leave the demuxer in state [d],
    [evs] being what was seen from outside. *)
From Verif Require Import Base RingProofs BufioModel NaluModel NaluSpec NaluProofs SplitProofs AvccProofs RecordModel SpsModel AacModel FloatModel PacketModel PacketProofs
  PropertiesNalu PropertiesAac PropertiesPacket DemuxModel DemuxProofs PropertiesDemux TrackSpec TrackProofs.
From Coq Require Import String Permutation Sorted List.
Import ListNotations.
Local Open Scope list_scope.

(** A delivered packet is an accepted one with its duration set (C64). *)
Lemma delivered_accepted name h d evs p : Forall sorting h -> run (dm_new name) h = Ok (d, evs) -> In p (delivered evs) -> exists q, In q (accepted evs) /\ nodur q = nodur p.
Proof.
  intros F R J. destruct (C64_conservation _ _ _ _ F R) as [P _]. assert (K : In (nodur p) (map nodur (accepted evs))).
  { eapply Permutation_in; [symmetry; exact P|]. apply in_or_app. left. now apply in_map. }
  apply in_map_iff in K as (q & E & K). eauto.
Qed.

(* ---------------------------------------------------------------------------------------- *)
(** ** C89 Packets carry what the calls handed over *)
Lemma payload_nodur p : payload_of (nodur p) = payload_of p.
Proof. reflexivity. Qed.
Lemma map_payload_nodur l : map payload_of (map nodur l) = map payload_of l.
Proof. rewrite map_map. apply map_ext. apply payload_nodur. Qed.
Theorem C89_payload : forall name h d evs, Forall sorting h -> Forall no_hook h -> run (dm_new name) h = Ok (d, evs) ->
  subseq (map payload_of (accepted evs)) (payloads h) /\
  Permutation (map payload_of (accepted evs)) (map payload_of (delivered evs) ++ map payload_of (List.concat (dm_packets d))) /\
  (forall p, In p (delivered evs) -> In (payload_of p) (payloads h)).
Proof.
  intros name h d evs F N R. destruct (reach_packets _ _ _ _ N R) as [S _]. destruct (C64_conservation _ _ _ _ F R) as [P _].
  apply (Permutation_map payload_of) in P. rewrite map_app, !map_payload_nodur in P. split; [exact S|]. split; [exact P|].
  assert (Sub : forall (x : payload) a b, subseq a b -> In x a -> In x b) by (intros x a b Sb; induction Sb; cbn; intuition).
  intros p J. eapply Sub; [exact S|]. eapply Permutation_in; [symmetry; exact P|]. apply in_or_app. left. now apply in_map.
Qed.
Print Assumptions C89_payload.
Definition key_frame : list Z := annexb [(true, sps_y); (true, pps_x); (false, [101; 1; 2])].
Example C89_example : exists d evs, run (dm_new "ps") (calls [OpSetHandler; OpAudio 3 G711A [1; 2] 500; OpVideo 1 AVCodecIdH264 [0; 0; 1; 97] false 3 4; OpVideo 1 AVCodecIdH264 key_frame true 6000 9000;
    OpVideo 1 AVCodecIdH264 [0; 0; 1; 97] false 30000 33000]) = Ok (d, evs) /\
  map payload_of (accepted evs) = [(AVMediaTypeAudio, 3, G711A, [1; 2], false, 500, 500); (AVMediaTypeVideo, 1, AVCodecIdH264, key_frame, true, 6000, 9000);
    (AVMediaTypeVideo, 1, AVCodecIdH264, [0; 0; 1; 97], false, 30000, 33000)] /\
  map payload_of (delivered evs) = [(AVMediaTypeVideo, 1, AVCodecIdH264, key_frame, true, 6000, 9000)].
Proof. do 2 eexists. split; [vm_compute; reflexivity|]. split; vm_compute; reflexivity. Qed.

(* ---------------------------------------------------------------------------------------- *)
(** ** C90 Time base and packing *)
Lemma packing_ok name t : In (name, t) packing -> get_pack_type name = t.
Proof. intros J. unfold packing in J. repeat (destruct J as [[= <- <-]|J]; [reflexivity|]). destruct J. Qed.
Lemma clock_ok name t : In (name, t) clock -> get_timebase name = Ok t.
Proof. intros J. unfold clock in J. repeat (destruct J as [[= <- <-]|J]; [reflexivity|]). destruct J. Qed.
Lemma get_timebase_other name : (forall t, ~ In (name, t) clock) -> get_timebase name = Panic.
Proof.
  intros N. unfold get_timebase. destruct (String.eqb_spec name "flv") as [->|]; [exfalso; eapply N; now left|]. destruct (String.eqb_spec name "jt1078") as [->|]; [exfalso; eapply N; right; now left|].
  destruct (String.eqb_spec name "ps") as [->|]; [exfalso; eapply N; right; right; now left|]. destruct (String.eqb_spec name "ts") as [->|]; [exfalso; eapply N; do 3 right; now left|]. reflexivity.
Qed.
Theorem C90_timebase : forall name h d evs, Forall sorting h -> Forall no_hook h -> run (dm_new name) h = Ok (d, evs) ->
  (* every packet counts in the time base of its track, and its track is the one of its buffer *)
  (forall p, In p (accepted evs) \/ In p (delivered evs) -> exists s, idx (dm_tracks d) (pk_index p) = Some s /\ pk_timebase p = st_timebase s /\ In (pk_index p, pk_buffer p) (dm_map d)) /\
  (* video packets are packed as the container packs them *)
  (forall p t, In p (accepted evs) \/ In p (delivered evs) -> pk_media p = AVMediaTypeVideo -> In (name, t) packing -> pk_type p = t) /\
  (* tracks found from packets, and hence their packets, use the clock of the container *)
  (Forall packet_driven h -> forall t, In (name, t) clock -> Forall (fun s => st_timebase s = t) (dm_tracks d) /\ Forall (fun p => pk_timebase p = t) (accepted evs) /\ Forall (fun p => pk_timebase p = t) (delivered evs)) /\
  (* in a container of another name no track is found from packets *)
  (Forall packet_driven h -> (forall t, ~ In (name, t) clock) -> dm_tracks d = [] /\ accepted evs = []).
Proof.
  intros name h d evs F N R. destruct (reach_packets _ _ _ _ N R) as [_ S]. rewrite Forall_forall in S.
  assert (A : forall p, In p (accepted evs) \/ In p (delivered evs) -> exists q, In q (accepted evs) /\ nodur q = nodur p) by (intros p [J|J]; [eauto|eapply delivered_accepted; eauto]).
  assert (A1 : forall p, In p (accepted evs) \/ In p (delivered evs) -> exists s, idx (dm_tracks d) (pk_index p) = Some s /\ pk_timebase p = st_timebase s /\ In (pk_index p, pk_buffer p) (dm_map d)).
  { intros p J. apply A in J as (q & J & E). apply S in J as [_ J]. destruct p, q. cbn in E, J |- *. injection E as <- <- <- <- <- <- <- <- <- <- <- <- <- <-. exact J. }
  assert (Tr : Forall packet_driven h -> forall s, In s (dm_tracks d) -> get_timebase name = Ok (st_timebase s)).
  { intros PD s J. apply In_idx in J as [i J]. destruct (reach_tracks _ _ _ _ R _ _ J) as (_ & buf & _ & (o & a & d0 & s0 & Ja & Nm & Cb & Cr & Es)).
    rewrite Forall_forall in PD. specialize (PD _ Ja). unfold packet_driven in PD. cbn [snd] in PD. destruct Es as (_ & _ & _ & _ & _ & Et & _). rewrite Et. destruct a; try discriminate; cbn [creates] in Cr.
    - destruct Cr as (x & k & c & tb & _ & G & (_ & _ & T & _)). now rewrite T, <- Nm.
    - destruct Cr as (x & tb & G & (_ & _ & T & _) & _). now rewrite T, <- Nm. }
  split; [exact A1|]. split; [|split].
  - intros p t J V Pk. apply A in J as (q & J & E). apply S in J as [J _]. rewrite <- (packing_ok _ _ Pk). destruct p, q. cbn in E, J, V |- *. injection E as <- <- <- <- <- <- <- <- <- <- <- <- <- <-. auto.
  - intros PD t C. assert (T : forall s, In s (dm_tracks d) -> st_timebase s = t) by (intros s J; pose proof (Tr PD s J) as G; rewrite (clock_ok _ _ C) in G; congruence).
    split; [now apply Forall_forall|]. split; apply Forall_forall; intros p J; destruct (A1 p) as (s & J1 & J2 & _); auto; rewrite J2; apply T; eapply idx_In; eauto.
  - intros PD C. assert (T : dm_tracks d = []).
    { destruct (dm_tracks d) as [|s t] eqn:E; [reflexivity|]. specialize (Tr PD s (or_introl eq_refl)). rewrite get_timebase_other in Tr by assumption. discriminate. }
    split; [exact T|]. destruct (accepted evs) as [|p l] eqn:E; [reflexivity|]. destruct (A1 p) as (s & J & _); [left; now left|]. rewrite T in J. apply idx_inv in J. change (zlen (@nil stream)) with 0 in J. lia.
Qed.
Print Assumptions C90_timebase.
Example C90_example :
  let h := calls [OpSetHandler; OpAudio 3 G711A [1; 2] 500; OpVideo 1 AVCodecIdH264 key_frame true 6000 9000; OpVideo 1 AVCodecIdH264 [0; 0; 1; 97] false 30000 33000] in
  let show name := match run (dm_new name) h with Ok (d, evs) => Some (map st_timebase (dm_tracks d), map (fun p => (pk_index p, pk_timebase p, pk_type p)) (accepted evs)) | _ => None end in
  show "ps"%string = Some ([90000; 90000], [(0, 90000, 0); (1, 90000, PacketTypeAnnexB); (1, 90000, PacketTypeAnnexB)]) /\
  show "jt1078"%string = Some ([1000; 1000], [(0, 1000, 0); (1, 1000, PacketTypeAnnexB); (1, 1000, PacketTypeAnnexB)]).
Proof. vm_compute. split; reflexivity. Qed.

(* ---------------------------------------------------------------------------------------- *)
(** ** C91 Packets have the codec of their track *)
(** As stated it is false: the track is looked up by buffer only, so a buffer that changes its codec feeds the old track. *)
Theorem C91_same_codec_refuted : exists name h d evs p s, Forall sorting h /\ Forall no_hook h /\ Forall packet_driven h /\ run (dm_new name) h = Ok (d, evs) /\ In p (delivered evs) /\
  idx (dm_tracks d) (pk_index p) = Some s /\ pk_codec p <> st_codec s.
Proof.
  exists "ps"%string, (calls [OpSetHandler; OpAudio 0 G711A [1] 0; OpAudio 0 AVCodecIdAAC [2] 18000; OpAudio 0 G711A [3] 36000]). do 4 eexists. split; [apply calls_sorting|]. split; [repeat constructor|]. split; [repeat constructor|].
  split; [vm_compute; reflexivity|]. split; [right; left; reflexivity|]. split; [reflexivity|]. vm_compute. discriminate.
Qed.
Print Assumptions C91_same_codec_refuted.
(** It holds when every buffer carries one codec of one media type. *)
Definition one_codec (h : list (oracle * op)) : Prop :=
  forall m b c data k t1 t2 m' c' data' k' t1' t2', In (m, b, c, data, k, t1, t2) (payloads h) -> In (m', b, c', data', k', t1', t2') (payloads h) -> m = m' /\ c = c'.
Theorem C91_same_codec_partial : forall name h d evs, Forall sorting h -> Forall no_hook h -> Forall packet_driven h -> one_codec h -> run (dm_new name) h = Ok (d, evs) ->
  forall p, In p (accepted evs) \/ In p (delivered evs) -> exists s, idx (dm_tracks d) (pk_index p) = Some s /\ pk_codec p = st_codec s /\ pk_media p = st_media s.
Proof.
  intros name h d evs F N PD OC R p J. destruct (C90_timebase _ _ _ _ F N R) as (A & _). destruct (A p J) as (s & J1 & _ & J2). exists s. split; [exact J1|].
  destruct (reach_tracks _ _ _ _ R _ _ J1) as (_ & buf & M & (o & a & d0 & s0 & Ja & Nm & Cb & Cr & Es)).
  assert (W : wf d) by (eapply run_wf; [apply wf_new|exact R]). assert (buf = pk_buffer p).
  { apply (map_find_in _ _ _ (wf_nodup _ W)) in J2, M. congruence. } subst buf.
  assert (P : In (payload_of p) (payloads h)).
  { destruct (C89_payload _ _ _ _ F N R) as (Sub & _ & D). destruct J as [J|J]; [|now apply D]. revert Sub. apply (in_map payload_of) in J. revert J. clear. intros J Sub. induction Sub; cbn in *; intuition. }
  assert (Q : exists c, call_payload a = Some c /\ In c (payloads h)).
  { rewrite Forall_forall in PD. specialize (PD _ Ja). unfold packet_driven in PD. cbn [snd] in PD. destruct a; try discriminate; (eexists; split; [reflexivity|]; unfold payloads; apply in_flat_map; eexists; split; [exact Ja|]; now left). }
  destruct Q as (c & Q1 & Q2). destruct Es as (E1 & _ & E3 & _). rewrite E1, E3. destruct a; try discriminate; cbn [create_buf] in Cb; cbn [call_payload] in Q1; injection Q1 as <-; cbn [creates] in Cr.
  - injection Cb as ->. destruct (OC _ _ _ _ _ _ _ _ _ _ _ _ _ P Q2) as [-> ->]. destruct Cr as (x & k & c' & tb & _ & _ & (T1 & T2 & _)). auto.
  - injection Cb as ->. destruct (OC _ _ _ _ _ _ _ _ _ _ _ _ _ P Q2) as [-> ->]. destruct Cr as (x & tb & _ & (T1 & T2 & _) & _). auto.
Qed.
Print Assumptions C91_same_codec_partial.
(** With no condition on the codecs: a packet has the media type and codec of its own call, its track those of a call for the
    same buffer. So the two differ only where two calls for one buffer differ. *)
Theorem C91_exact : forall name h d evs, Forall sorting h -> Forall no_hook h -> run (dm_new name) h = Ok (d, evs) ->
  forall p, In p (accepted evs) \/ In p (delivered evs) ->
  (exists a, In a (map snd h) /\ call_payload a = Some (payload_of p) /\ track_call a = Some (pk_media p, pk_buffer p, pk_codec p)) /\
  exists s a, idx (dm_tracks d) (pk_index p) = Some s /\ In a (map snd h) /\ track_call a = Some (st_media s, pk_buffer p, st_codec s).
Proof.
  intros name h d evs F N R p J. destruct (C90_timebase _ _ _ _ F N R) as (A & _). destruct (A p J) as (s & J1 & _ & J2). split.
  - assert (P : In (payload_of p) (payloads h)).
    { destruct (C89_payload _ _ _ _ F N R) as (Sub & _ & D). destruct J as [J|J]; [|now apply D]. revert Sub. apply (in_map payload_of) in J. revert J. clear. intros J Sub. induction Sub; cbn in *; intuition. }
    apply in_flat_map in P as ([o a] & Ja & P). cbn [snd] in P. destruct (call_payload a) as [c|] eqn:E; [|destruct P]. destruct P as [->|[]].
    exists a. split; [apply in_map_iff; exists (o, a); auto|]. split; [exact E|]. unfold payload_of in E. destruct a; try discriminate; cbn [call_payload] in E; injection E; intros; cbn [track_call]; congruence.
  - destruct (reach_tracks _ _ _ _ R _ _ J1) as (_ & buf & M & (o & a & d0 & s0 & Ja & Nm & Cb & Cr & Es)).
    assert (W : wf d) by (eapply run_wf; [apply wf_new|exact R]). assert (buf = pk_buffer p).
    { apply (map_find_in _ _ _ (wf_nodup _ W)) in J2, M. congruence. } subst buf.
    exists s, a. split; [exact J1|]. split; [apply in_map_iff; exists (o, a); auto|]. destruct Es as (E1 & _ & E3 & _). rewrite E1, E3. destruct a; try discriminate; cbn [create_buf] in Cb; injection Cb as ->; cbn [creates] in Cr; cbn [track_call].
    + destruct Cr as (T1 & T2 & _). now rewrite T1, T2.
    + destruct Cr as (T1 & T2 & _). now rewrite T1, T2.
    + destruct Cr as (x & k & c' & tb & _ & _ & (T1 & T2 & _)). now rewrite T1, T2.
    + destruct Cr as (x & tb & _ & (T1 & T2 & _) & _). now rewrite T1, T2.
Qed.
Print Assumptions C91_exact.
Lemma one_codec_example kf : one_codec (calls [OpSetHandler; OpAudio 3 G711A [1; 2] 500; OpVideo 1 AVCodecIdH264 kf true 6000 9000; OpVideo 1 AVCodecIdH264 [0; 0; 1; 97] false 30000 33000]).
Proof.
  intros m b c data k t1 t2 m' c' data' k' t1' t2'. cbn. intros A B.
  destruct A as [A|[A|[A|[]]]]; injection A as <- <- <- _ _ _ _; (destruct B as [B|[B|[B|[]]]]; [..]; injection B; intros; subst; try discriminate; split; reflexivity).
Qed.
Example C91_example : let h := calls [OpSetHandler; OpAudio 3 G711A [1; 2] 500; OpVideo 1 AVCodecIdH264 key_frame true 6000 9000; OpVideo 1 AVCodecIdH264 [0; 0; 1; 97] false 30000 33000] in
  one_codec h /\ exists d evs, run (dm_new "ps") h = Ok (d, evs) /\ map (fun s => (st_media s, st_codec s)) (dm_tracks d) = [(AVMediaTypeAudio, G711A); (AVMediaTypeVideo, AVCodecIdH264)] /\
    map (fun p => (pk_index p, pk_media p, pk_codec p)) (delivered evs) = [(1, AVMediaTypeVideo, AVCodecIdH264)].
Proof.
  split; [apply one_codec_example|]. do 2 eexists. split; [vm_compute; reflexivity|]. split; vm_compute; reflexivity.
Qed.

(* ---------------------------------------------------------------------------------------- *)
(** ** C92 TryCompleteProbe *)
(** The number of packets buffered for track i. *)
Definition waiting (d : demuxer) (i : Z) : Z := match idx (dm_packets d) i with Some l => zlen l | None => 0 end.
(** As stated it is false: a track without any list (no packet yet) does not hold the probe back. *)
Theorem C92_try_complete_refuted : exists h d evs d' e s, Forall sorting h /\ run (dm_new "flv") h = Ok (d, evs) /\ dm_completed d = false /\ idx (dm_tracks d) 0 = Some s /\ estimated (st_codec s) /\ waiting d 0 = 0 /\
  step o0 d OpTryComplete = Ok (d', e) /\ dm_completed d' = true.
Proof.
  exists (calls [OpSetHandler; OpNewAudio 0 AVCodecIdPCMS16LE 1000 None audio_config_zero]). do 5 eexists. split; [apply calls_sorting|]. split; [vm_compute; reflexivity|]. split; [reflexivity|]. split; [reflexivity|]. split; [now left|].
  split; [reflexivity|]. split; [vm_compute; reflexivity|]. reflexivity.
Qed.
Print Assumptions C92_try_complete_refuted.
(** It waits exactly while a track whose rate is estimated has a list with fewer than two packets; otherwise it is ProbeComplete. *)
Theorem C92_try_complete_partial : forall name h d evs o, run (dm_new name) h = Ok (d, evs) ->
  ((exists i s l, idx (dm_tracks d) i = Some s /\ estimated (st_codec s) /\ idx (dm_packets d) i = Some l /\ zlen l < 2) -> step o d OpTryComplete = Ok (d, [])) /\
  ((forall i s, idx (dm_tracks d) i = Some s -> estimated (st_codec s) -> i < zlen (dm_packets d) -> 2 <= waiting d i) -> step o d OpTryComplete = step o d OpProbeComplete).
Proof.
  intros name h d evs o R. pose proof (run_wf _ _ _ _ (wf_new name) R) as [W _]. cbn [step]. unfold try_complete_probe.
  assert (X : need_more d = true <-> exists i s l, idx (dm_tracks d) i = Some s /\ estimated (st_codec s) /\ idx (dm_packets d) i = Some l /\ zlen l < 2).
  { unfold need_more. rewrite existsb_exists. split.
    - intros (s & J & E). apply andb_prop in E as [E1 E2]. apply In_idx in J as [i J]. pose proof (W _ _ J) as Ws. rewrite Ws in E2. destruct (idx (dm_packets d) i) as [l|] eqn:L; [|discriminate].
      exists i, s, l. split; [exact J|]. split; [apply orb_prop in E1 as [E1|E1]; apply Z.eqb_eq in E1; [now left|now right]|]. split; [exact L|]. apply Z.ltb_lt. exact E2.
    - intros (i & s & l & J & E & L & B). exists s. split; [eapply idx_In; eauto|]. pose proof (W _ _ J) as Ws. rewrite Ws, L. apply andb_true_intro. split; [|now apply Z.ltb_lt].
      apply orb_true_intro. destruct E as [E|E]; [left|right]; now apply Z.eqb_eq. }
  split.
  - intros K. apply X in K. now rewrite K.
  - intros K. destruct (need_more d) eqn:E; [|reflexivity]. exfalso. destruct (proj1 X eq_refl) as (i & s & l & J & Ec & L & B). specialize (K i s J Ec). pose proof (idx_inv _ _ _ L). unfold waiting in K. rewrite L in K. lia.
Qed.
Print Assumptions C92_try_complete_partial.
Example C92_example :
  let completed h := match run (dm_new "jt1078") (calls h) with Ok (d, _) => Some (dm_completed d, waiting d 0) | _ => None end in
  completed [OpSetHandler; OpAudio 0 AVCodecIdPCMS16LE [1] 0; OpTryComplete] = Some (false, 1) /\
  completed [OpSetHandler; OpAudio 0 AVCodecIdPCMS16LE [1] 0; OpAudio 0 AVCodecIdPCMS16LE [1] 10; OpTryComplete] = Some (true, 1) /\
  completed [OpSetHandler; OpAudio 0 G711A [1] 0; OpTryComplete] = Some (true, 1).
Proof. vm_compute. repeat split. Qed.

(* ---------------------------------------------------------------------------------------- *)
(** ** C93 AAC tracks describe their stream *)
(** The track of an AAC stream found from packets holds what the ADTS header of one of its frames says, and an AudioSpecificConfig saying the same. *)
Definition same_config (hd : Z) (s : stream) : Prop :=
  fst (get_sample_rate_from_frequency (adts_frequency hd)) = ac_sample_rate (st_audio s) /\ adts_channel hd = ac_channels (st_audio s) /\ ac_has_adts (st_audio s) = true /\
  exists x c, st_data s = Some x /\ parse_asc x = Ok c /\ asc_object_type c = adts_profile hd + 1 /\ asc_sample_rate c = ac_sample_rate (st_audio s) /\ asc_chan_config c = ac_channels (st_audio s).
Theorem C93_aac_track : forall name h d evs, Forall packet_driven h -> (forall o buf id data ts, In (o, OpAudio buf id data ts) h -> bytes_ok data) -> run (dm_new name) h = Ok (d, evs) ->
  forall i s, idx (dm_tracks d) i = Some s -> st_media s = AVMediaTypeAudio -> st_codec s = AVCodecIdAAC ->
  exists o buf data ts hd, In (o, OpAudio buf AVCodecIdAAC data ts) h /\ In (i, buf) (dm_map d) /\ read_adts_fixed_header data = Ok hd /\ same_config hd s.
Proof.
  intros name h d evs PD B R i s J Md Cd. destruct (reach_tracks _ _ _ _ R _ _ J) as (_ & buf & M & (o & a & d0 & s0 & Ja & Nm & Cb & Cr & Es)).
  rewrite Forall_forall in PD. pose proof (PD _ Ja) as P. unfold packet_driven in P. cbn [snd] in P. destruct Es as (E1 & _ & E3 & _ & E5 & _ & E7).
  assert (s = s0) as -> by (apply E7; rewrite <- E3, Cd; intros [X|X]; discriminate). clear E1 E3 E5 E7.
  destruct a; try discriminate; cbn [creates] in Cr; cbn [create_buf] in Cb; injection Cb as ->.
  - destruct Cr as (x & k & c & tb & X & _ & (_ & T2 & _ & _ & T5 & T6)). assert (id = AVCodecIdAAC) as -> by congruence. pose proof (B _ _ _ _ _ Ja) as Bd. exists o, buf, data, ts.
    destruct (proj2 (proj2 (proj2 (C52_extract_audio_partial AVCodecIdAAC data Bd))) _ _ _ X) as (hd & H1 & H2 & _ & _ & H3 & _ & _ & (y & cc & H4 & H5 & H6 & H7 & H8 & _)).
    exists hd. split; [exact Ja|]. split; [exact M|]. split; [exact H1|]. rewrite H2, andb_false_r in T6. rewrite H4 in T5. cbn [of_nil] in T5.
    assert (Ly : 0 < zlen y). { destruct y; [|rewrite zlen_cons; pose proof (zlen_nonneg y); lia]. vm_compute in H5. discriminate. }
    destruct (Z.ltb_spec 0 (zlen y)); [|lia]. unfold same_config. rewrite T6. repeat split; try congruence.
    + unfold extract_audio_extra_data in X. change (AVCodecIdAAC =? AVCodecIdAAC) with true in X. cbn iota in X. destruct (zlen data <? 7); [discriminate|]. rewrite H1 in X. cbn [bind] in X.
      apply (f_equal (fun r => match r with Ok (_, _, k) => ac_sample_rate k | _ => 0 end)) in X. cbv beta iota in X. cbn [ac_sample_rate] in X. exact X.
    + exists y, cc. repeat split; auto.
  - destruct Cr as (x & tb & _ & (T1 & _) & _). rewrite T1 in Md. discriminate.
Qed.
Print Assumptions C93_aac_track.
Example C93_example : exists d evs s hd, run (dm_new "ps") (calls [OpSetHandler; OpAudio 2 AVCodecIdAAC [255; 241; 80; 128; 1; 63; 252; 1; 2] 0]) = Ok (d, evs) /\ idx (dm_tracks d) 0 = Some s /\ st_codec s = AVCodecIdAAC /\
  read_adts_fixed_header [255; 241; 80; 128; 1; 63; 252; 1; 2] = Ok hd /\ same_config hd s /\ ac_sample_rate (st_audio s) = 44100 /\ ac_channels (st_audio s) = 2 /\ st_data s = Some [18; 16].
Proof.
  do 4 eexists. split; [vm_compute; reflexivity|]. split; [reflexivity|]. split; [reflexivity|]. split; [vm_compute; reflexivity|]. split; [|repeat split].
  split; [vm_compute; reflexivity|]. split; [reflexivity|]. split; [reflexivity|]. do 2 eexists. split; [reflexivity|]. split; [vm_compute; reflexivity|]. repeat split.
Qed.

(* ---------------------------------------------------------------------------------------- *)
(** ** C94 Video tracks hold the parameter sets of a key frame *)
(** Key frames of codec [id] in the history are made of NAL units. *)
Definition key_units (id : Z) (h : list (oracle * op)) : Prop :=
  forall o buf data dts pts, In (o, OpVideo buf id data true dts pts) h -> exists l, l <> [] /\ Forall unit_ok l /\ data = annexb l.
Definition start4 : list Z := [0; 0; 0; 1].
Lemma video_born name h d evs : Forall packet_driven h -> run (dm_new name) h = Ok (d, evs) -> forall i s, idx (dm_tracks d) i = Some s -> st_media s = AVMediaTypeVideo -> st_codec s <> AVCodecIdAAC -> ~ estimated (st_codec s) ->
  exists o buf data dts pts e g, In (o, OpVideo buf (st_codec s) data true dts pts) h /\ extract_video_extra_data (st_codec s) data = Ok (Some e) /\ st_data s = Some e /\
    generate_video_codec_data g PacketTypeAnnexB (st_codec s) e = Ok (st_params s).
Proof.
  intros PD R i s J Md NA NE. destruct (reach_tracks _ _ _ _ R _ _ J) as (D & buf & M & (o & a & d0 & s0 & Ja & Nm & Cb & Cr & Es)). rewrite Forall_forall in PD.
  destruct Es as (E1 & _ & E3 & E4 & E5 & _).
  assert (V : exists e g, st_data s = Some e /\ generate_video_codec_data g PacketTypeAnnexB (st_codec s) e = Ok (st_params s)).
  { pose proof (PD _ Ja) as P. unfold packet_driven in P. cbn [snd] in P. destruct a; try discriminate; cbn [creates] in Cr.
    - destruct Cr as (x & k & c & tb & _ & _ & (T1 & _)). rewrite E1, T1 in Md. discriminate.
    - destruct Cr as (x & tb & _ & (_ & T2 & _ & T4 & _ & T6) & PT & _). exists x, (or_grow o). split; [congruence|]. rewrite E3, E4, T2. now rewrite <- PT. }
  destruct V as (e & g & V1 & V2). destruct (D e V1) as (o' & a' & Ja' & K). pose proof (PD _ Ja') as P. unfold packet_driven in P. cbn [snd] in P. destruct a'; try discriminate; try contradiction.
  - destruct K as (K1 & k & c & K2). exfalso. subst id. unfold extract_audio_extra_data in K2. destruct (Z.eqb_spec (st_codec s) AVCodecIdAAC); [contradiction|discriminate].
  - destruct K as (K1 & K2 & K3). subst id key. exists o', buf0, data, dts, pts, e, g. auto.
Qed.
Theorem C94_avc_track : forall name h d evs, Forall packet_driven h -> key_units AVCodecIdH264 h -> run (dm_new name) h = Ok (d, evs) ->
  forall i s, idx (dm_tracks d) i = Some s -> st_media s = AVMediaTypeVideo -> st_codec s = AVCodecIdH264 ->
  exists o buf l dts pts sps pps info, In (o, OpVideo buf AVCodecIdH264 (annexb l) true dts pts) h /\ last_of_type avc_nal_type 7 (map snd l) = Some sps /\ last_of_type avc_nal_type 8 (map snd l) = Some pps /\
    st_data s = Some (start4 ++ sps ++ start4 ++ pps) /\ avc_parse_sps (start4 ++ sps) = Ok info /\
    exists c, st_params s = Some c /\ cd_width c = as_width info /\ cd_height c = as_height info /\ cd_annexb c = start4 ++ sps ++ start4 ++ pps.
Proof.
  intros name h d evs PD KU R i s J Md Cd. destruct (video_born _ _ _ _ PD R _ _ J Md) as (o & buf & data & dts & pts & e & g & Ja & X & V1 & V2); [rewrite Cd; discriminate|rewrite Cd; intros [Y|Y]; discriminate|].
  rewrite Cd in *. destruct (KU _ _ _ _ _ Ja) as (l & Nl & Fl & ->). exists o, buf, l, dts, pts.
  assert (B : forall t n, last_of_type avc_nal_type t (map snd l) = Some n -> nalu_ok n /\ avc_nal_type n = t).
  { intros t n E. apply last_of_type_in in E as [E T]. split; [|exact T]. apply in_map_iff in E as (u & <- & I). rewrite Forall_forall in Fl. now apply Fl in I. }
  unfold extract_video_extra_data in X. rewrite Z.eqb_refl in X. rewrite C36_avc_extra in X by auto. destruct (last_of_type avc_nal_type 7 (map snd l)) as [sps|] eqn:Es; [|discriminate].
  destruct (last_of_type avc_nal_type 8 (map snd l)) as [pps|] eqn:Ep; [|discriminate]. cbn [with4 option_map bind] in X. change [0; 0; 0; 1] with start4 in X. assert (e = (start4 ++ sps) ++ start4 ++ pps) as -> by congruence. clear X.
  destruct (B _ _ Es) as [Os Ts]. destruct (B _ _ Ep) as [Op Tp].
  assert (E : (start4 ++ sps) ++ start4 ++ pps = annexb [(true, sps); (true, pps)]) by (cbn [annexb sc]; now rewrite app_nil_r, <- app_assoc).
  unfold generate_video_codec_data in V2. change (PacketTypeAnnexB =? PacketTypeAVCC) with false in V2. cbn iota in V2. rewrite Z.eqb_refl in V2. rewrite E, C36_avc_extra in V2; [|discriminate|repeat (apply Forall_cons; [assumption|]); apply Forall_nil].
  unfold last_of_type in V2. cbn [map snd rev app find] in V2. rewrite Ts, Tp in V2. cbn [Z.eqb Pos.eqb with4 option_map bind] in V2. unfold new_avc_codec_data in V2.
  change [0; 0; 0; 1] with start4 in V2. destruct (avc_parse_sps (start4 ++ sps)) as [info| | |] eqn:Pi; cbn [bind] in V2; try discriminate. injection V2 as V2.
  exists sps, pps, info. split; [exact Ja|]. split; [reflexivity|]. split; [reflexivity|]. split; [now rewrite V1, <- app_assoc|]. split; [exact Pi|]. eexists. split; [symmetry; exact V2|]. split; [reflexivity|]. split; [reflexivity|].
  cbn. now rewrite ?app_nil_r, <- ?app_assoc.
Qed.
Print Assumptions C94_avc_track.
Theorem C94_hevc_track : forall name h d evs, Forall packet_driven h -> key_units AVCodecIdH265 h -> run (dm_new name) h = Ok (d, evs) ->
  forall i s, idx (dm_tracks d) i = Some s -> st_media s = AVMediaTypeVideo -> st_codec s = AVCodecIdH265 ->
  exists o buf l dts pts vps sps pps info, In (o, OpVideo buf AVCodecIdH265 (annexb l) true dts pts) h /\ last_of_type hevc_nal_type 32 (map snd l) = Some vps /\
    last_of_type hevc_nal_type 33 (map snd l) = Some sps /\ last_of_type hevc_nal_type 34 (map snd l) = Some pps /\
    st_data s = Some (start4 ++ vps ++ start4 ++ sps ++ start4 ++ pps) /\ hevc_parse_sps (start4 ++ sps) = Ok info /\
    exists c, st_params s = Some c /\ cd_width c = hsp_width info /\ cd_height c = hsp_height info /\ cd_annexb c = start4 ++ vps ++ start4 ++ sps ++ start4 ++ pps.
Proof.
  intros name h d evs PD KU R i s J Md Cd. destruct (video_born _ _ _ _ PD R _ _ J Md) as (o & buf & data & dts & pts & e & g & Ja & X & V1 & V2); [rewrite Cd; discriminate|rewrite Cd; intros [Y|Y]; discriminate|].
  rewrite Cd in *. destruct (KU _ _ _ _ _ Ja) as (l & Nl & Fl & ->). exists o, buf, l, dts, pts.
  assert (B : forall t n, last_of_type hevc_nal_type t (map snd l) = Some n -> nalu_ok n /\ hevc_nal_type n = t).
  { intros t n E. apply last_of_type_in in E as [E T]. split; [|exact T]. apply in_map_iff in E as (u & <- & I). rewrite Forall_forall in Fl. now apply Fl in I. }
  unfold extract_video_extra_data in X. change (AVCodecIdH264 =? AVCodecIdH265) with false in X. rewrite Z.eqb_refl in X. cbn iota in X. rewrite C37_hevc_extra in X by auto.
  destruct (last_of_type hevc_nal_type 32 (map snd l)) as [vps|] eqn:Ev; [|discriminate]. destruct (last_of_type hevc_nal_type 33 (map snd l)) as [sps|] eqn:Es; [|discriminate].
  destruct (last_of_type hevc_nal_type 34 (map snd l)) as [pps|] eqn:Ep; [|discriminate]. cbn [with4 option_map bind] in X. change [0; 0; 0; 1] with start4 in X. assert (e = ((start4 ++ vps) ++ start4 ++ sps) ++ start4 ++ pps) as -> by congruence. clear X.
  destruct (B _ _ Ev) as [Ov Tv]. destruct (B _ _ Es) as [Os Ts]. destruct (B _ _ Ep) as [Op Tp].
  assert (E : ((start4 ++ vps) ++ start4 ++ sps) ++ start4 ++ pps = annexb [(true, vps); (true, sps); (true, pps)]) by (cbn [annexb sc]; now rewrite app_nil_r, <- !app_assoc).
  unfold generate_video_codec_data in V2. change (PacketTypeAnnexB =? PacketTypeAVCC) with false in V2. change (AVCodecIdH265 =? AVCodecIdH264) with false in V2. cbn iota in V2. rewrite Z.eqb_refl in V2.
  rewrite E, C37_hevc_extra in V2; [|discriminate|repeat (apply Forall_cons; [assumption|]); apply Forall_nil].
  unfold last_of_type in V2. cbn [map snd rev app find] in V2. rewrite Tv, Ts, Tp in V2. cbn [Z.eqb Pos.eqb with4 option_map bind] in V2. unfold new_hevc_codec_data in V2.
  change [0; 0; 0; 1] with start4 in V2. destruct (hevc_parse_sps (start4 ++ sps)) as [info| | |] eqn:Pi; cbn [bind] in V2; try discriminate. injection V2 as V2.
  exists vps, sps, pps, info. split; [exact Ja|]. split; [reflexivity|]. split; [reflexivity|]. split; [reflexivity|]. split; [now rewrite V1, <- !app_assoc|]. split; [exact Pi|]. eexists. split; [symmetry; exact V2|]. split; [reflexivity|]. split; [reflexivity|].
  cbn. now rewrite ?app_nil_r, <- ?app_assoc.
Qed.
Print Assumptions C94_hevc_track.
Example C94_example : exists d evs s c, run (dm_new "ps") (calls [OpSetHandler; OpVideo 1 AVCodecIdH264 key_frame true 6000 9000]) = Ok (d, evs) /\ idx (dm_tracks d) 0 = Some s /\
  st_data s = Some (start4 ++ sps_y ++ start4 ++ pps_x) /\ st_params s = Some c /\ (cd_width c, cd_height c) = (1920, 1080).
Proof. do 4 eexists. split; [vm_compute; reflexivity|]. split; [reflexivity|]. split; [reflexivity|]. split; [reflexivity|]. vm_compute. reflexivity. Qed.

(* ---------------------------------------------------------------------------------------- *)
(** ** C95 Announced tracks *)
Definition has_type (d : demuxer) (m : Z) : Prop := exists s, In s (dm_tracks d) /\ st_media s = m.
(** A track of type [m] may be announced: the probe is running, and there is none yet or the container is a transport stream. *)
Definition open_for (d : demuxer) (m : Z) : Prop := dm_completed d = false /\ (~ has_type d m \/ dm_name d = "ts"%string).
(** [d'] is [d] with the track [s] at the end, fed from buffer [buf]. *)
Definition plus_track (d : demuxer) (buf : Z) (s : stream) (d' : demuxer) : Prop :=
  exists m, d' = with_tracks d (dm_tracks d ++ [s]) m /\ st_index s = zlen (dm_tracks d) /\ forall i, map_find m i = if i =? st_index s then Some buf else map_find (dm_map d) i.

Lemma find_from_cases m i l : match tm_find_from (fun s => st_media s =? m) i l with None => ~ exists s, In s l /\ st_media s = m | Some _ => exists s, In s l /\ st_media s = m end.
Proof.
  revert i. induction l as [|s t IH]; intros i; cbn [tm_find_from]; [intros (s & [] & _)|]. destruct (Z.eqb_spec (st_media s) m) as [E|N]; [exists s; split; [now left|exact E]|].
  specialize (IH (i + 1)). destruct (tm_find_from _ _ t).
  - destruct IH as (x & J & M). exists x. split; [now right|exact M].
  - intros (x & [<-|J] & M); [contradiction|]. apply IH. eauto.
Qed.
Lemma find_type_none l m : tm_find_type l m = None -> ~ exists s, In s l /\ st_media s = m.
Proof. intros E. pose proof (find_from_cases m 0 l) as H. unfold tm_find_type in E. now rewrite E in H. Qed.
Lemma find_type_some l m i : tm_find_type l m = Some i -> exists s, In s l /\ st_media s = m.
Proof. intros E. pose proof (find_from_cases m 0 l) as H. unfold tm_find_type in E. now rewrite E in H. Qed.
Lemma map_find_set m k v i : map_find (map_set m k v) i = if i =? k then Some v else map_find m i.
Proof.
  unfold map_set. rewrite Z.eqb_sym. induction m as [|[a b] t IH]; cbn.
  - destruct (k =? i); reflexivity.
  - destruct (Z.eqb_spec a k) as [->|N]; cbn.
    + rewrite IH. destruct (k =? i); reflexivity.
    + rewrite IH. destruct (Z.eqb_spec a i) as [->|]; [|reflexivity]. destruct (Z.eqb_spec k i); congruence.
Qed.
Lemma add_plus d s buf d' r : add_track d s buf = (d', r) -> st_index s = zlen (dm_tracks d) -> if dm_completed d then d' = d else plus_track d buf s d'.
Proof.
  unfold add_track. destruct (dm_completed d) eqn:C; intros [= <- _] I; [reflexivity|]. eexists. split; [reflexivity|]. split; [exact I|]. intros i. apply map_find_set.
Qed.
Theorem C95_announced_audio : forall d buf id timebase extra config d' e, on_new_audio_track d buf id timebase extra config = Ok (d', e) ->
  e = (if 0 <? zlen (of_nil extra) then [EvDiscardBack buf] else []) /\
  (~ open_for d AVMediaTypeAudio -> d' = d) /\
  (open_for d AVMediaTypeAudio ->
     (id <> AVCodecIdAAC \/ ac_has_adts config = true -> exists s, plus_track d buf s d' /\ st_media s = AVMediaTypeAudio /\ st_codec s = id /\ st_timebase s = timebase /\
        of_nil (st_data s) = of_nil extra /\ st_audio s = config) /\
     (id = AVCodecIdAAC -> ac_has_adts config = false -> exists x, extra = Some x /\
        (parse_asc x = Err -> d' = d) /\
        (forall a, parse_asc x = Ok a -> exists s, plus_track d buf s d' /\ st_media s = AVMediaTypeAudio /\ st_codec s = id /\ st_timebase s = timebase /\ of_nil (st_data s) = x /\
           st_audio s = {| ac_sample_rate := asc_sample_rate a; ac_sample_size := ac_sample_size config; ac_channels := asc_channels a; ac_has_adts := false; ac_bit_rate := ac_bit_rate config |}))).
Proof.
  intros d buf id tb extra config d' e. unfold on_new_audio_track. set (P := create_audio_track d buf id tb extra config).
  assert (Dt : of_nil (if 0 <? zlen (of_nil extra) then extra else None) = of_nil extra).
  { destruct (Z.ltb_spec 0 (zlen (of_nil extra))); [reflexivity|]. destruct extra as [[|]|]; try reflexivity. exfalso. unfold zlen in H. cbn in H. lia. }
  assert (Run : forall r, (match tm_find_type (dm_tracks d) AVMediaTypeAudio with None => P | Some _ => if (dm_name d =? "ts")%string then P else Ok (d, None) end) = Ok r ->
    (~ open_for d AVMediaTypeAudio -> fst r = d) /\ (open_for d AVMediaTypeAudio -> P = Ok r)).
  { intros r. assert (PC : P = Ok r -> dm_completed d = true -> fst r = d).
    { intros E C. unfold P, create_audio_track, add_track in E. rewrite C in E. destruct (_ && _); [|now injection E as <-]. destruct extra; [|discriminate]. destruct (parse_asc l); try discriminate; now injection E as <-. }
    destruct (tm_find_type _ _) eqn:F.
    - apply find_type_some in F. destruct (String.eqb_spec (dm_name d) "ts") as [T|T]; intros E.
      + split; [|auto]. intros N. apply PC; [exact E|]. destruct (dm_completed d) eqn:C; [reflexivity|]. exfalso. apply N. split; [exact C|now right].
      + split; [intros _; now injection E as <-|]. intros (_ & [N|N]); exfalso; [now apply N|now apply T].
    - apply find_type_none in F. intros E. split; [|auto]. intros N. apply PC; [exact E|]. destruct (dm_completed d) eqn:C; [reflexivity|]. exfalso. apply N. split; [exact C|now left]. }
  destruct (match tm_find_type _ _ with None => _ | Some _ => _ end) as [[d1 r]| | |] eqn:E; cbn [bind]; try discriminate. intros [= <- <-]. destruct (Run _ eq_refl) as [R1 R2]. cbn [fst] in *.
  split; [reflexivity|]. split; [exact R1|]. intros O. specialize (R2 O). destruct O as [C _]. unfold P, create_audio_track in R2. clear E Run R1 P. split.
  - intros N. assert (X : (id =? AVCodecIdAAC) && negb (ac_has_adts config) = false).
    { destruct N as [N| ->]; [|apply andb_false_r]. apply Z.eqb_neq in N. now rewrite N. }
    rewrite X in R2. injection R2 as R2. apply add_plus in R2; [|reflexivity]. rewrite C in R2. eexists. split; [exact R2|]. repeat (split; [reflexivity|]). split; [exact Dt|reflexivity].
  - intros -> A. rewrite A, Z.eqb_refl in R2. cbn [andb negb] in R2. destruct extra as [x|]; [|discriminate]. exists x. split; [reflexivity|]. split.
    + intros Pe. rewrite Pe in R2. now injection R2 as <-.
    + intros a Pa. rewrite Pa in R2. injection R2 as R2. apply add_plus in R2; [|reflexivity]. rewrite C in R2. eexists. split; [exact R2|]. repeat (split; [reflexivity|]). split; [exact Dt|]. cbn. unfold set_rate_channels. now rewrite A.
Qed.
Print Assumptions C95_announced_audio.
Theorem C95_announced_video : forall o d buf id timebase extra d' e, on_new_video_track o d buf id timebase extra = Ok (d', e) ->
  e = (if 0 <? zlen extra then [EvDiscardBack buf] else []) /\
  (~ open_for d AVMediaTypeVideo -> d' = d) /\
  (open_for d AVMediaTypeVideo ->
     (generate_video_codec_data (or_grow o) (get_pack_type (dm_name d)) id extra = Err -> d' = d) /\
     (forall c, generate_video_codec_data (or_grow o) (get_pack_type (dm_name d)) id extra = Ok c -> exists s, plus_track d buf s d' /\ st_media s = AVMediaTypeVideo /\ st_codec s = id /\
        st_timebase s = timebase /\ st_data s = Some extra /\ st_params s = c)).
Proof.
  intros o d buf id tb extra d' e. unfold on_new_video_track. set (P := create_video_track o d buf id tb extra).
  assert (Run : forall r, (match tm_find_type (dm_tracks d) AVMediaTypeVideo with None => P | Some _ => if (dm_name d =? "ts")%string then P else Ok (d, None) end) = Ok r ->
    (~ open_for d AVMediaTypeVideo -> fst r = d) /\ (open_for d AVMediaTypeVideo -> P = Ok r)).
  { intros r. assert (PC : P = Ok r -> dm_completed d = true -> fst r = d).
    { intros E C. unfold P, create_video_track, add_track in E. rewrite C in E. destruct (generate_video_codec_data _ _ _ _); try discriminate; now injection E as <-. }
    destruct (tm_find_type _ _) eqn:F.
    - apply find_type_some in F. destruct (String.eqb_spec (dm_name d) "ts") as [T|T]; intros E.
      + split; [|auto]. intros N. apply PC; [exact E|]. destruct (dm_completed d) eqn:C; [reflexivity|]. exfalso. apply N. split; [exact C|now right].
      + split; [intros _; now injection E as <-|]. intros (_ & [N|N]); exfalso; [now apply N|now apply T].
    - apply find_type_none in F. intros E. split; [|auto]. intros N. apply PC; [exact E|]. destruct (dm_completed d) eqn:C; [reflexivity|]. exfalso. apply N. split; [exact C|now left]. }
  destruct (match tm_find_type _ _ with None => _ | Some _ => _ end) as [[d1 r]| | |] eqn:E; cbn [bind]; try discriminate. intros [= <- <-]. destruct (Run _ eq_refl) as [R1 R2]. cbn [fst] in *.
  split; [reflexivity|]. split; [exact R1|]. intros O. specialize (R2 O). destruct O as [C _]. unfold P, create_video_track in R2. clear E Run R1 P. split.
  - intros G. rewrite G in R2. now injection R2 as <-.
  - intros c G. rewrite G in R2. injection R2 as R2. apply add_plus in R2; [|reflexivity]. rewrite C in R2. eexists. split; [exact R2|]. repeat (split; [reflexivity|]). reflexivity.
Qed.
Print Assumptions C95_announced_video.
Definition cfg0 : audio_config := {| ac_sample_rate := 8000; ac_sample_size := 16; ac_channels := 1; ac_has_adts := false; ac_bit_rate := 0 |}.
(** A second audio track is refused in FLV and taken in a transport stream. *)
Example C95_example : forall name, In name ["flv"; "ps"; "ts"]%string -> exists d e, run (dm_new name) (calls [OpNewAudio 0 AVCodecIdAAC 1000 (Some [18; 16]) cfg0; OpNewAudio 1 G711A 1000 None cfg0]) = Ok (d, e) /\ e = [EvDiscardBack 0] /\
  map (fun s => (st_index s, st_codec s, ac_sample_rate (st_audio s), ac_channels (st_audio s))) (dm_tracks d) =
    (0, AVCodecIdAAC, 44100, 2) :: (if (name =? "ts")%string then [(1, G711A, 8000, 1)] else []).
Proof. intros name J. repeat (destruct J as [<-|J]; [do 2 eexists; split; [vm_compute; reflexivity|]; split; reflexivity|]). destruct J. Qed.

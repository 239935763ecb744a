(** * PropertiesLogger: C151, what the logging handler prints. *)
From Verif Require Import Base AacModel UtilModel PacketModel TrackSpec DemuxModel DemuxProofs HandlerProofs RecordSafeProofs PropertiesDemux LoggerModel LoggerProofs.
From Coq Require Import String List.
Import ListNotations.
Local Open Scope list_scope.

(* ---------------------------------------------------------------------------------------- *)
(** ** C151 The log of a session *)
(** [track_line] and [packet_line] are the lines of one track and one packet, [joined] puts lines one after the other. Before the probe is
    complete nothing is printed. A probe without tracks leaves one line on the standard error. Otherwise the standard output holds a
    line for every track, in the order of their indices and with the final rates, then "track complete", then a line for every packet
    delivered, in order. *)
Theorem C151_log : forall name h d evs, Forall sorting h -> Forall no_hook h -> run (dm_new name) h = Ok (d, evs) -> exists g, lg_session lg_new evs = Ok g /\
  (dm_completed d = false -> g = lg_new) /\
  (dm_completed d = true -> dm_tracks d = [] -> lg_out g = EmptyString /\ lg_err g = ("track not find" ++ lf)%string) /\
  (dm_completed d = true -> dm_tracks d <> [] -> lg_tracks g = dm_tracks d /\ lg_err g = EmptyString /\
     lg_out g = (joined (map track_line (dm_tracks d)) ++ complete_line ++ joined (map packet_line (delivered evs)))%string).
Proof.
  intros name h d evs So Nh R. pose proof (reach_order _ _ _ _ R) as O. pose proof (reach_av _ _ _ _ R) as A. rewrite lg_session_handler.
  assert (M : Forall (fun p => named (pk_media p)) (delivered evs)).
  { apply Forall_forall. intros p Ip. destruct (delivered_facts _ _ _ _ So Nh R p Ip) as (_ & Pl & _). destruct (media_of_payload _ _ Pl) as [[-> _]| ->]; eexists; reflexivity. }
  rewrite <- delivered_handler in *. unfold call_order in O. destruct (dm_completed d).
  - destruct O as [[T O]|[T [ps O]]]; rewrite O in *.
    + eexists. split; [reflexivity|]. split; [discriminate|]. split; [|congruence]. intros _ _. split; reflexivity.
    + assert (Ed : delivered (map EvNewTrack (dm_tracks d) ++ [EvTrackComplete] ++ map EvPacket ps) = ps) by (now rewrite !delivered_app, delivered_new_tracks, delivered_packets). rewrite Ed in *.
      rewrite lg_session_app, lg_tracks_lines by (eapply Forall_impl; [|exact A]; intros s; apply av_media). cbn [bind app lg_session lg_event].
      rewrite lg_packets_lines by exact M. eexists. split; [reflexivity|]. split; [discriminate|]. split; [congruence|]. intros _ _. split; [reflexivity|]. split; [reflexivity|].
      cbn [lg_track_complete lg_print lg_out lg_new lg_tracks lg_err String.append]. now rewrite sapp_assoc.
  - rewrite O in *. exists lg_new. split; [reflexivity|]. split; [reflexivity|]. split; discriminate.
Qed.
Print Assumptions C151_log.

(** With a preprocessing hook the logger stops the session (a panic of AVMediaType.String) exactly when a delivered packet has a media
    type without a name. *)
Theorem C151_log_iff : forall name h d evs, run (dm_new name) h = Ok (d, evs) -> (exists g, lg_session lg_new evs = Ok g) <-> Forall (fun p => -1 <= pk_media p <= 5) (delivered evs).
Proof.
  intros name h d evs R. pose proof (reach_order _ _ _ _ R) as O. pose proof (reach_av _ _ _ _ R) as A. rewrite lg_session_handler, <- delivered_handler. unfold call_order in O.
  assert (Na : forall l, Forall (fun p => named (pk_media p)) l <-> Forall (fun p => -1 <= pk_media p <= 5) l).
  { intros l. rewrite !Forall_forall. split; intros F p Ip; specialize (F p Ip).
    - destruct (Z_le_dec (-1) (pk_media p)), (Z_le_dec (pk_media p) 5); try lia; exfalso; destruct F as [nm F]; assert (X : media_string (pk_media p) = Panic) by (apply PropertiesUtil.C74_names_unambiguous; lia); congruence.
    - now apply PropertiesUtil.C74_names_unambiguous. }
  destruct (dm_completed d).
  - destruct O as [[T O]|[T [ps O]]]; rewrite O in *.
    + split; [constructor|]. intros _. eexists. reflexivity.
    + assert (Ed : delivered (map EvNewTrack (dm_tracks d) ++ [EvTrackComplete] ++ map EvPacket ps) = ps) by (now rewrite !delivered_app, delivered_new_tracks, delivered_packets). rewrite Ed in *.
      rewrite lg_session_app, lg_tracks_lines by (eapply Forall_impl; [|exact A]; intros s; apply av_media). cbn [bind app lg_session lg_event]. rewrite lg_packets_iff. apply Na.
  - rewrite O. split; [constructor|]. intros _. eexists. reflexivity.
Qed.
Print Assumptions C151_log_iff.

(** The log can be read back: two sessions with the same output announced the same tracks (media type, codec, index, and for audio the
    sampling rate and the channels) and delivered packets with the same media types and times, in the same order. *)
Theorem C151_readable : forall name1 h1 d1 evs1 g1 name2 h2 d2 evs2 g2,
  Forall sorting h1 -> Forall no_hook h1 -> run (dm_new name1) h1 = Ok (d1, evs1) -> lg_session lg_new evs1 = Ok g1 ->
  Forall sorting h2 -> Forall no_hook h2 -> run (dm_new name2) h2 = Ok (d2, evs2) -> lg_session lg_new evs2 = Ok g2 ->
  lg_out g1 = lg_out g2 -> lg_err g1 = lg_err g2 ->
  dm_completed d1 = dm_completed d2 /\ (dm_completed d1 = true -> map track_facts (dm_tracks d1) = map track_facts (dm_tracks d2)) /\ map packet_facts (delivered evs1) = map packet_facts (delivered evs2).
Proof.
  assert (K : forall name h d evs g, Forall sorting h -> Forall no_hook h -> run (dm_new name) h = Ok (d, evs) -> lg_session lg_new evs = Ok g ->
    Forall (fun p => named (st_media p)) (dm_tracks d) /\ Forall (fun p => named (pk_media p)) (delivered evs) /\
    (dm_completed d = false /\ delivered evs = [] /\ lg_out g = EmptyString /\ lg_err g = EmptyString \/ dm_completed d = true /\ dm_tracks d = [] /\ delivered evs = [] /\ lg_out g = EmptyString /\ lg_err g <> EmptyString \/
     dm_completed d = true /\ lg_err g = EmptyString /\ lg_out g = (joined (map track_line (dm_tracks d)) ++ complete_line ++ joined (map packet_line (delivered evs)))%string)).
  { intros name h d evs g So Nh R E. destruct (C151_log _ _ _ _ So Nh R) as (g' & E' & L1 & L2 & L3). rewrite E in E'. injection E' as <-. pose proof (reach_order _ _ _ _ R) as O. unfold call_order in O.
    split; [eapply Forall_impl; [|exact (reach_av _ _ _ _ R)]; intros s; apply av_media|]. split.
    - apply Forall_forall. intros p Ip. destruct (delivered_facts _ _ _ _ So Nh R p Ip) as (_ & Pl & _). destruct (media_of_payload _ _ Pl) as [[-> _]| ->]; eexists; reflexivity.
    - destruct (dm_completed d).
      + right. destruct (dm_tracks d) eqn:T.
        * left. destruct O as [[_ O]|[O _]]; [|congruence]. destruct (L2 eq_refl eq_refl) as [-> ->]. rewrite <- delivered_handler, O. repeat split. discriminate.
        * right. destruct L3 as (_ & -> & ->); [reflexivity|discriminate|]. auto.
      + left. rewrite <- delivered_handler, O, (L1 eq_refl). auto. }
  assert (Ne : forall ts x, (joined (map track_line ts) ++ complete_line ++ x)%string <> EmptyString) by (intros [|t ts] x; discriminate).
  intros name1 h1 d1 evs1 g1 name2 h2 d2 evs2 g2 So1 Nh1 R1 E1 So2 Nh2 R2 E2 Eo Ee.
  destruct (K _ _ _ _ _ So1 Nh1 R1 E1) as (T1 & P1 & [(-> & -> & O1 & X1)|[(-> & -> & -> & O1 & X1)|(-> & X1 & O1)]]); destruct (K _ _ _ _ _ So2 Nh2 R2 E2) as (T2 & P2 & [(-> & -> & O2 & X2)|[(-> & -> & -> & O2 & X2)|(-> & X2 & O2)]]);
    try (exfalso; congruence); try (exfalso; rewrite O1, O2 in Eo; eapply Ne; (exact Eo || (symmetry; exact Eo))).
  - repeat split; discriminate.
  - repeat split; auto.
  - rewrite O1, O2 in Eo. apply tracks_back in Eo as [Et Ep]; auto. apply packets_back in Ep; auto.
Qed.
Print Assumptions C151_readable.

(** Two streams, and a probe without tracks. *)
Definition C151_ops : list (oracle * op) := map (fun a => (o0, a)) [OpSetHandler; OpAudio 0 G711A [1; 2; 3] 0; OpAudio 1 G711A [4; 5] 4500; OpAudio 0 G711A [6] 9000; OpProbeComplete; OpAudio 0 G711A [7] 18000].
Example C151_example :
  ('(_, evs) <- run (dm_new "ts") C151_ops;; g <- lg_session lg_new evs;; Ok (lg_out g, lg_err g)) =
    Ok (("tack type: audio codec: PCMA index: 0 sample_rate: 8000 channels: 1" ++ crlf ++ "tack type: audio codec: PCMA index: 1 sample_rate: 8000 channels: 1" ++ crlf ++ "track complete" ++ crlf ++
         "packet type: audio dts: 0 pts: 0" ++ crlf ++ "packet type: audio dts: 9000 pts: 9000" ++ crlf)%string, EmptyString) /\
  ('(_, evs) <- run (dm_new "ts") [(o0, OpSetHandler); (o0, OpProbeComplete)];; g <- lg_session lg_new evs;; Ok (lg_out g, lg_err g)) =
    Ok (EmptyString, ("track not find" ++ lf)%string).
Proof. split; vm_compute; reflexivity. Qed.

(** * PropertiesReuse: C143, Close does not end a session. *)
From Verif Require Import Base NaluModel RecordModel AacModel FloatModel UtilModel PacketModel DemuxModel DemuxProofs DeliverySpec DeliveryProofs HandlerModel HandlerProofs ReentModel ReentProofs AloneProofs PropertiesDemux.
From Coq Require Import String List Permutation.
Import ListNotations.
Local Open Scope list_scope.

(* ---------------------------------------------------------------------------------------- *)
(** ** C143 A closed demuxer with a new handler *)
(** Close, then SetHandler with another handler. *)
Definition handover (o1 o2 : oracle) : list (oracle * op) := [(o1, OpClose); (o2, OpSetHandler)].
Definition taken_over (d : demuxer) : demuxer := with_pre (with_handler d true) None.

(** The demuxer goes on where it was: only the hook is gone. *)
Theorem C143_goes_on : forall o1 o2 d h, run d (handover o1 o2 ++ h) = run (taken_over d) h /\
  (dm_handler d = true -> dm_pre d = None -> run d (handover o1 o2 ++ h) = run d h).
Proof.
  intros o1 o2 d h. assert (E : run d (handover o1 o2 ++ h) = run (taken_over d) h).
  { cbn [handover app run step bind]. change (with_handler (with_pre (with_handler d false) None) true) with (taken_over d). destruct (run (taken_over d) h) as [[d2 e2]| | |]; reflexivity. }
  split; [exact E|]. intros H P. rewrite E. unfold taken_over. destruct d; cbn in H, P |- *. now subst.
Qed.
Print Assumptions C143_goes_on.

Lemma taken_reach name h1 d e1 o1 o2 : run (dm_new name) h1 = Ok (d, e1) -> run (dm_new name) (h1 ++ handover o1 o2) = Ok (taken_over d, e1).
Proof. intros R. rewrite run_app, R. cbn [bind handover run step]. now rewrite app_nil_r. Qed.

(** After the probe the new handler hears of packets only, no track is ever added, and packets of buffers without a track are dropped. *)
Theorem C143_no_tracks : forall name h1 d e1, run (dm_new name) h1 = Ok (d, e1) -> dm_completed d = true ->
  (forall o1 o2 h2 d' e2, run d (handover o1 o2 ++ h2) = Ok (d', e2) -> handler_events e2 = map EvPacket (delivered e2) /\ dm_tracks d' = dm_tracks d) /\
  (forall o b, (forall i, ~ In (i, b) (dm_map d)) ->
     (forall id data ts, step o (taken_over d) (OpAudio b id data ts) = Ok (taken_over d, [EvDiscardBack b])) /\
     (forall id data key dts pts, step o (taken_over d) (OpVideo b id data key dts pts) = Ok (taken_over d, [EvDiscardBack b]))).
Proof.
  intros name h1 d e1 R C. split.
  - intros o1 o2 h2 d' e2 R2. rewrite (proj1 (C143_goes_on _ _ _ _)) in R2. destruct (C63_callback_order _ _ _ _ (taken_reach _ _ _ _ o1 o2 R)) as (_ & _ & _ & _ & K).
    destruct (K h2 d' e2 C R2) as (T & _ & ps & E). split; [|exact T]. rewrite E. f_equal. clear - E. revert ps E. induction e2 as [|x t IH]; intros ps E; [now destruct ps|].
    destruct x; cbn [handler_events filter is_handler] in E; fold (handler_events t) in E; cbn [delivered flat_map app]; fold (delivered t); auto; destruct ps as [|q ps]; try discriminate E.
    injection E as -> E. f_equal. now apply IH.
  - intros o b N. pose proof (run_wf _ _ _ _ (wf_new name) (taken_reach _ _ _ _ o o R)) as W. destruct (find_track_after o (taken_over d) b W) as [(E & _)|(s & _ & J)]; [|exfalso; eapply N; exact J].
    split; intros; cbn [step]; [unfold on_audio_packet|unfold on_video_packet]; rewrite E; cbn [bind]; change (dm_completed (taken_over d)) with (dm_completed d); rewrite C; reflexivity.
Qed.
Print Assumptions C143_no_tracks.

(** The packet that was waiting for its duration at Close is the first one the new handler gets of this track; its duration spans the gap
    between the sessions. *)
Theorem C143_left_over : forall name h1 d e1, Forall sorting h1 -> run (dm_new name) h1 = Ok (d, e1) -> dm_completed d = true -> aligned e1 ->
  forall o1 o2 h2 d' e2, run d (handover o1 o2 ++ h2) = Ok (d', e2) -> aligned e2 ->
  forall i p q l, nth i (dm_packets d) [] = [p] -> of_index (Z.of_nat i) (accepted e2) = q :: l ->
  exists l', of_index (Z.of_nat i) (delivered e2) = set_duration p (i64 (pk_dts q - pk_dts p)) :: l' /\ length l' = length l.
Proof.
  intros name h1 d e1 F R C Al o1 o2 h2 d' e2 R2 Al2 i p q l Np Nq. rewrite (proj1 (C143_goes_on _ _ _ _)) in R2.
  pose proof (reach_slots _ _ _ _ F R Al C) as S. pose proof (run_re_quiet 0 (fun _ => []) (fun _ => eq_refl) h2 0%nat (taken_over d)) as Q. rewrite R2 in Q. cbn [counted] in Q.
  apply run_re_steady in Q. destruct (Q Al2 C S) as (_ & _ & Fi). destruct (Fi i) as [G _]. change (nth i (dm_packets (taken_over d)) []) with (nth i (dm_packets d) []) in G. rewrite Np, Nq in G.
  cbn [of_index filter app] in G. rewrite G, removelast_durs_cons. eexists. split; [reflexivity|].
  assert (L : forall (x : list packet) a, length (removelast (durs (a :: x))) = length x).
  { clear. induction x as [|b x IH]; intros a; [reflexivity|]. rewrite removelast_durs_cons. cbn [length]. now rewrite IH. }
  apply L.
Qed.
Print Assumptions C143_left_over.

(** So the file handler cannot take over: it panics on the first packet it is given. *)
Theorem C143_files : forall name h1 d e1, run (dm_new name) h1 = Ok (d, e1) -> dm_completed d = true ->
  forall o1 o2 h2 d' e2, run d (handover o1 o2 ++ h2) = Ok (d', e2) ->
  forall path k, fh_session path (fh_start k) e2 = match delivered e2 with [] => Ok (fh_start k) | _ => Panic end.
Proof.
  intros name h1 d e1 R C o1 o2 h2 d' e2 R2 path k. destruct (C143_no_tracks _ _ _ _ R C) as [N _]. destruct (N _ _ _ _ _ R2) as [E _]. rewrite fh_session_handler, E, fh_session_packets.
  destruct (delivered e2) as [|p t]; [reflexivity|]. cbn [fh_run]. unfold fh_on_packet. assert (M : exists s, media_string (pk_media p) = Ok s \/ media_string (pk_media p) = Panic).
  { unfold media_string. repeat (destruct (_ =? _); [eexists; left; reflexivity|]). exists ""%string. now right. }
  assert (I : forall A (i : Z), idx (@nil A) i = None) by (intros A i; unfold idx; destruct (i <? 0); [reflexivity|now destruct (Z.to_nat i)]).
  destruct M as [s [->| ->]]; [|reflexivity]. cbn [bind]. unfold fh_write, tm_get. cbn [fh_start fh_tracks fh_files]. rewrite !I. destruct (_ =? _); reflexivity.
Qed.
Print Assumptions C143_files.

(** Closed during the probe the first handler has heard nothing, and the second one hears all that one handler of both sessions would. *)
Theorem C143_during_probe : forall name h1 d e1, run (dm_new name) h1 = Ok (d, e1) -> dm_completed d = false ->
  handler_events e1 = [] /\
  forall o1 o2 h2 d' e2, run d (handover o1 o2 ++ h2) = Ok (d', e2) ->
    (dm_completed d' = true -> dm_tracks d' <> [] -> exists ps, handler_events e2 = map EvNewTrack (dm_tracks d') ++ [EvTrackComplete] ++ map EvPacket ps) /\
    (Forall sorting (h1 ++ handover o1 o2 ++ h2) -> aligned (e1 ++ e2) -> dm_completed d' = true ->
     forall i, Permutation (of_index (Z.of_nat i) (delivered e2)) (removelast (durs (of_index (Z.of_nat i) (accepted e1 ++ accepted e2))))).
Proof.
  intros name h1 d e1 R C. destruct (C63_callback_order _ _ _ _ R) as (K & _). split; [now apply K|]. specialize (K C).
  intros o1 o2 h2 d' e2 R2. assert (RR : run (dm_new name) (h1 ++ handover o1 o2 ++ h2) = Ok (d', e1 ++ e2)) by (rewrite run_app, R; cbn [bind]; rewrite R2; reflexivity).
  split.
  - intros C' T. destruct (C63_callback_order _ _ _ _ RR) as (_ & _ & X & _). destruct (X C' T) as [ps E]. rewrite handler_events_app, K in E. now exists ps.
  - intros F Al C' i. destruct (reach_balanced _ _ _ _ F RR) as (_ & _ & _ & St). destruct (St Al i) as [_ S]. destruct (S C') as (_ & P & _). rewrite accepted_app, delivered_app in P.
    rewrite <- (delivered_handler e1), K in P. exact P.
Qed.
Print Assumptions C143_during_probe.

(** Two sessions of a recorder on one demuxer: the second stream is another one, in buffer 1, besides the old one in buffer 0. A new demuxer
    would report two tracks; here the second handler gets the last packet of the first session and nothing of buffer 1. *)
Definition C143_first : list (oracle * op) := calls [OpSetHandler; OpAudio 0 G711A [1] 0; OpAudio 0 G711A [2] 200; OpAudio 0 G711A [3] 240].
Definition C143_second : list (oracle * op) := calls [OpAudio 1 G711A [7] 0; OpAudio 0 G711A [4] 0; OpAudio 1 G711A [8] 300; OpAudio 0 G711A [5] 20].
Example C143_example :
  match run (dm_new "flv") C143_first, run (dm_new "flv") (calls [OpSetHandler] ++ C143_second) with
  | Ok (d, e1), Ok (dn, en) =>
    dm_completed d = true /\ length (dm_tracks dn) = 2%nat /\ map pk_data (delivered en) = [[7]; [4]] /\
    match run d (handover o0 o0 ++ C143_second) with
    | Ok (d', e2) => length (dm_tracks d') = 1%nat /\ map pk_data (delivered e2) = [[3]; [4]] /\ map pk_duration (delivered e2) = [-240; 20] /\
        filter (fun e => match e with EvDiscardBack _ => true | _ => false end) e2 = [EvDiscardBack 1; EvDiscardBack 1] /\
        fh_session "/tmp/a" (fh_start (fun _ => [])) e2 = Panic
    | _ => False
    end
  | _, _ => False
  end.
Proof. vm_compute. repeat split; reflexivity. Qed.

(** Hence a used demuxer is not as good as a new one, not even for the same stream. *)
Theorem C143_not_new : ~ (forall name h1 d e1 h2 d' e2 dn en, Forall well_behaved h1 -> Forall well_behaved h2 -> run (dm_new name) h1 = Ok (d, e1) ->
    run d (handover o0 o0 ++ h2) = Ok (d', e2) -> run (dm_new name) (calls [OpSetHandler] ++ h2) = Ok (dn, en) -> handler_events e2 = handler_events en).
Proof.
  intros H. assert (W : Forall well_behaved C143_first) by (apply Forall_map; repeat (constructor; [split; [exact o0_ok|exact Logic.I]|]); constructor).
  destruct (run (dm_new "flv") C143_first) as [[d e1]| | |] eqn:E1; try (vm_compute in E1; discriminate E1).
  destruct (run d (handover o0 o0 ++ C143_first)) as [[d' e2]| | |] eqn:E2; try (revert E2; vm_compute in E1; injection E1 as <- <-; vm_compute; discriminate).
  destruct (run (dm_new "flv") (calls [OpSetHandler] ++ C143_first)) as [[dn en]| | |] eqn:E3; try (vm_compute in E3; discriminate E3).
  pose proof (H _ _ _ _ _ _ _ _ _ W W E1 E2 E3) as X. vm_compute in E1. injection E1 as <- <-. vm_compute in E2. injection E2 as <- <-. vm_compute in E3. injection E3 as <- <-. vm_compute in X. discriminate X.
Qed.
Print Assumptions C143_not_new.

(** * PropertiesRecover: a demuxer whose caller recovers from panics (C157). *)
From Coq Require Import List String Bool ZArith Lia.
From Verif Require Import Base NaluModel AacModel FloatModel PacketModel DemuxModel DemuxProofs LifecycleProofs RecordSafeProofs PropertiesDemux RecoverModel RecoverProofs.
Import ListNotations.
Local Open Scope list_scope.

(** ** C157 The model with recovered panics agrees with DemuxModel when no callback panics. *)
Theorem C157_agrees : forall o d a, step o d a = read_r (step_r o None d a).
Proof. exact step_agree. Qed.
Print Assumptions C157_agrees.

(** ** C157 An interrupted call: its events are those of the whole call up to the callback that panics, and it leaves the state of the whole call,
    except that a panic in OnNewTrack or OnTrackComplete leaves all packets in their lists. Also without a handler. *)
Theorem C157_cut : forall o q d a d0 e0, rewires a = false -> step o (with_handler d true) a = Ok (d0, e0) ->
  let '(e, _, c) := cut (dm_handler d) q e0 in exists d1, step_r o q d a = (d1, e, outcome c) /\ left_by o (dm_handler d) c d0 e0 e d1.
Proof. exact step_r_cut. Qed.
Print Assumptions C157_cut.

(** ** C157 A panic while the input is examined leaves the demuxer as it was and gives the block of a packet back. *)
Theorem C157_examine : forall o q d a, oracle_ok o -> live d -> dm_handler d = true -> (forall x, step o d a <> Ok x) ->
  step_r o q d a = (d, block_of a, ending (step o d a)).
Proof. exact step_r_panic. Qed.
Print Assumptions C157_examine.

(** ** C157 A session with recovered panics. *)
(** The calls that the demuxer did not refuse with a panic, and the replies to all calls. *)
Fixpoint examined (d : demuxer) (h : list (oracle * mood * op)) : list (oracle * op) :=
  match h with
  | [] => []
  | (o, q, a) :: t => match step o d a with Ok (d1, _) => (o, a) :: examined d1 t | _ => examined d t end
  end.
Fixpoint expected (d : demuxer) (h : list (oracle * mood * op)) : list (op * list event * res unit) :=
  match h with
  | [] => []
  | (o, q, a) :: t =>
    match step o d a with
    | Ok (d1, e) => let '(e', _, c) := cut true q e in (a, e', outcome c) :: expected d1 t
    | r => (a, block_of a, ending r) :: expected d t
    end
  end.
(** The last callback that was made is not one of those before the packets. *)
Definition past_tracks (x : op * list event * res unit) : Prop :=
  let '(_, e, r) := x in r = Ok tt \/ forall e' c, e = e' ++ [c] -> at_tracks (Some c) = false.
Definition call_of (x : oracle * mood * op) : oracle * op := (fst (fst x), snd x).

Lemma cut_last : forall l q e q1 c, cut true q l = (e, q1, Some c) -> exists e', e = e' ++ [c].
Proof.
  induction l as [|x l IH]; intros q e q1 c; cbn [cut]; [discriminate|]. cbn [negb]. destruct (is_handler x).
  - destruct (calm q).
    + destruct (cut true (later q) l) as [[r q2] c2] eqn:C. intros H. assert (c2 = Some c) by congruence. subst c2. destruct (IH _ _ _ _ C) as (e' & ->). exists (x :: e'). cbn [app]. congruence.
    + intros H. exists []. cbn [app]. congruence.
  - destruct (cut true q l) as [[r q2] c2] eqn:C. intros H. assert (c2 = Some c) by congruence. subst c2. destruct (IH _ _ _ _ C) as (e' & ->). exists (x :: e'). cbn [app]. congruence.
Qed.
Lemma step_keeps_handler o d a d1 e : a <> OpClose -> wf d -> dm_handler d = true -> step o d a = Ok (d1, e) -> dm_handler d1 = true.
Proof.
  intros N W H S. destruct a; cbn [step] in S; try (now destruct N); try (injection S as <- <-; first [exact H|reflexivity]).
  - pose proof (new_audio_mute d (dm_handler d) buf id timebase extra config) as M. rewrite with_handler_own, S in M. cbn [rehandle bind] in M. assert (X : d1 = with_handler d1 (dm_handler d)) by congruence. rewrite X. exact H.
  - pose proof (new_video_mute o d (dm_handler d) buf id timebase extra) as M. rewrite with_handler_own, S in M. cbn [rehandle bind] in M. assert (X : d1 = with_handler d1 (dm_handler d)) by congruence. rewrite X. exact H.
  - apply audio_step in S as [(-> & _)|(d2 & i & s & p & G & _ & _ & _ & _ & _ & _ & _ & _ & _ & P)]; auto.
    rewrite (RecordSafeProofs.process_handler _ _ _ _ _ P). destruct G as [->|(_ & _ & _ & _ & _ & ->)]; exact H.
  - apply video_step in S as [(-> & _)|(d2 & i & s & p & G & _ & _ & _ & _ & _ & _ & _ & _ & _ & P)]; auto.
    rewrite (RecordSafeProofs.process_handler _ _ _ _ _ P). destruct G as [->|(_ & _ & _ & _ & _ & ->)]; exact H.
  - apply complete_cases in S as [(_ & -> & _)|[(_ & _ & -> & _)|(_ & _ & -> & _)]]; exact H.
  - unfold try_complete_probe in S. destruct (need_more d); [injection S as <- <-; exact H|].
    apply complete_cases in S as [(_ & -> & _)|[(_ & _ & -> & _)|(_ & _ & -> & _)]]; exact H.
  - unfold find_buffer_index in S. destruct (marker_index _ _ _); injection S as <- <-; exact H.
Qed.

Theorem C157_session : forall h d, live d -> dm_handler d = true ->
  Forall (fun x => well_behaved (call_of x) /\ snd x <> OpClose) h -> Forall past_tracks (snd (run_r d h)) ->
  snd (run_r d h) = expected d h /\ exists e, run d (examined d h) = Ok (fst (run_r d h), e).
Proof.
  induction h as [|[[o q] a] h IH]; intros d L Hd F P; [split; [reflexivity|now exists []]|].
  apply Forall_cons_iff in F as [[[Fs Fh] Fc] F]. cbn [call_of fst snd] in Fs, Fh, Fc. unfold sorting in Fs. cbn [fst] in Fs. cbn [run_r examined expected] in *.
  destruct (step o d a) as [[d1 e1]| | |] eqn:S.
  2,3,4: assert (X : step_r o q d a = (d, block_of a, ending (step o d a))) by (apply step_r_panic; auto; intros x; rewrite S; discriminate);
    rewrite S in X; rewrite X in *; destruct (run_r d h) as [d2 es] eqn:R; cbn [fst snd] in *; apply Forall_cons_iff in P as [_ P];
    destruct (IH d L Hd F) as [A B]; rewrite R in *; cbn [fst snd] in *; [exact P|]; (split; [now rewrite A|exact B]).
  pose proof L as (W & Hk & Or).
  assert (L1 : live d1). { split; [eapply step_wf; eauto|]. split; [eapply step_hook; eauto|]. eapply step_origin; eauto. }
  assert (H1 : dm_handler d1 = true). { eapply step_keeps_handler; [exact Fc|exact W|exact Hd|exact S]. }
  assert (X : let '(e, _, c) := cut true q e1 in exists d2, step_r o q d a = (d2, e, outcome c) /\ left_by o true c d1 e1 e d2).
  { destruct (rewires a) eqn:Rw.
    - destruct a; try discriminate; [|now destruct Fc]. cbn [step] in S. assert (e1 = []) by congruence. subst e1. cbn [cut]. exists d1. split; [cbn [step_r step plain_r outcome]; congruence|].
      unfold left_by. cbn [at_tracks]. destruct d1. cbn in H1. now subst.
    - assert (S' : step o (with_handler d true) a = Ok (d1, e1)). { replace (with_handler d true) with d; [exact S|]. rewrite <- Hd. now destruct d. }
      pose proof (step_r_cut o q d a d1 e1 Rw S') as X. unfold reply_cut in X. rewrite Hd in X. exact X. }
  destruct (cut true q e1) as [[e' q1] c] eqn:C. destruct X as (d2 & X & Y). rewrite X in *. destruct (run_r d2 h) as [d3 es] eqn:R. cbn [fst snd] in *.
  apply Forall_cons_iff in P as [P1 P].
  assert (d2 = d1).
  { assert (T : at_tracks c = false). { destruct c as [c|]; [|reflexivity]. destruct (cut_last _ _ _ _ _ C) as (e2 & E2). destruct P1 as [P1|P1]; [discriminate|]. eapply P1; exact E2. }
    unfold left_by in Y. rewrite T in Y. rewrite Y, <- H1. now destruct d1. }
  subst d2. destruct (IH d1 L1 H1 F) as [A (e & B)]; rewrite R in *; cbn [fst snd] in *; [exact P|]. split; [now rewrite A|]. exists (e1 ++ e). cbn [run]. rewrite S. cbn [bind]. now rewrite B.
Qed.
Print Assumptions C157_session.

Definition delivered_times (e : list event) : list Z := map (fun p => Z.quot (pk_dts p) 90) (delivered e).
(** A PCM stream whose handler panics in its third callback (the packet at time 0) and again later, an empty H.264 key frame (which panics), and more packets. *)
Definition pcm (t : Z) : op := OpAudio 0 AVCodecIdPCMALAW [1; 2] (90 * t).
Definition bad : op := OpVideo 1 AVCodecIdH264 [] true 0 0.
Definition session157 : list (oracle * mood * op) :=
  [(o0, None, pcm 0); (o0, None, bad); (o0, Some 2%nat, pcm 200); (o0, None, pcm 240); (o0, None, bad); (o0, Some O, pcm 280); (o0, None, pcm 320)].
Definition started : demuxer := with_handler (dm_new "ps") true.
Example C157_example_session :
  step o0 started bad = Panic /\
  map (fun x => (delivered_times (snd (fst x)), snd x)) (snd (run_r started session157)) =
    [([], Ok tt); ([], Panic); ([0], Panic); ([200], Ok tt); ([], Ok tt); ([240], Panic); ([280], Ok tt)] /\
  map snd (examined started session157) = [pcm 0; pcm 200; pcm 240; bad; pcm 280; pcm 320] /\
  map (fun x => (delivered_times (snd (fst x)), snd x)) (expected started session157) =
    [([], Ok tt); ([], Panic); ([0], Panic); ([200], Ok tt); ([], Ok tt); ([240], Panic); ([280], Ok tt)].
Proof. repeat split; vm_compute; reflexivity. Qed.

(** ** C157 After the probe has completed, the packets before the last of every list are never delivered, and the tracks are never announced again. *)
Theorem C157_stuck : forall h d, dm_completed d = true ->
  let '(d1, rs) := run_r d h in keeps d d1 /\ Forall (fun x => existsb track_event (snd (fst x)) = false) rs.
Proof.
  induction h as [|[[o q] a] h IH]; intros d C; cbn [run_r]; [split; [now split|constructor]|]. pose proof (step_r_after o q d a C) as A. destruct (step_r o q d a) as [[d1 e] r].
  destruct A as [[C1 K1] [E1 _]]. specialize (IH d1 C1). destruct (run_r d1 h) as [d2 rs]. destruct IH as [[C2 K2] F]. split.
  - split; [exact C2|]. intros k. now rewrite K2.
  - constructor; [exact E1|exact F].
Qed.
Print Assumptions C157_stuck.
Theorem C157_ends : forall o q d a, dm_completed d = true -> let '(d1, e, _) := step_r o q d a in from_ends d e.
Proof. intros o q d a C. pose proof (step_r_after o q d a C) as A. destruct (step_r o q d a) as [[d1 e] r]. apply A. Qed.
Print Assumptions C157_ends.

(** ** C157 A probe interrupted in OnNewTrack or OnTrackComplete: the packets that it would have delivered are in the lists for ever. *)
Theorem C157_never : forall o q d a d0 e0 h, rewires a = false -> step o (with_handler d true) a = Ok (d0, e0) ->
  at_tracks (snd (cut (dm_handler d) q e0)) = true ->
  exists d1 e ls, step_r o q d a = (d1, e, Panic) /\ delivered e = [] /\ dm_packets d1 = ls /\ or_sort o (List.concat (map all_but_last ls)) = delivered e0 /\
    let '(d2, rs) := run_r d1 h in
    (forall k, removelast (nth k (dm_packets d2) []) = all_but_last (nth k ls [])) /\ Forall (fun x => existsb track_event (snd (fst x)) = false) rs.
Proof.
  intros o q d a d0 e0 h R S T. pose proof (step_r_cut o q d a d0 e0 R S) as X. unfold reply_cut in X. destruct (cut (dm_handler d) q e0) as [[e q1] c] eqn:C. cbn [snd] in T.
  destruct X as (d1 & X & Y). unfold left_by in Y. rewrite T in Y. destruct Y as (Cm & De & ls & D1 & OL & DE). exists d1, e, ls. split; [rewrite X; destruct c; [reflexivity|discriminate]|].
  split; [exact De|]. split; [now rewrite D1|]. split; [exact DE|]. assert (C1 : dm_completed d1 = true) by (now rewrite D1). pose proof (C157_stuck h d1 C1) as K. destruct (run_r d1 h) as [d2 rs].
  destruct K as [[_ K] F]. split; [|exact F]. intros k. rewrite K, D1. reflexivity.
Qed.
Print Assumptions C157_never.

(** Without a handler the probe panics in OnNewTrack; a handler set afterwards is told of no track and never gets the first two packets. Then a packet
    call without a handler (after a Close) loses a packet: it is neither delivered nor in a list nor given back. *)
Definition waiting157 (d : demuxer) : list Z := map (fun p => Z.quot (pk_dts p) 90) (List.concat (dm_packets d)).
Definition session157b : list (oracle * mood * op) :=
  [(o0, None, pcm 0); (o0, None, pcm 100); (o0, None, pcm 200); (o0, None, OpSetHandler); (o0, None, pcm 240); (o0, None, OpClose); (o0, None, pcm 280); (o0, None, OpSetHandler); (o0, None, pcm 320)].
Example C157_example_lost :
  let '(d, rs) := run_r (dm_new "ps") session157b in
  map (fun x => (delivered_times (snd (fst x)), snd x)) rs =
    [([], Ok tt); ([], Ok tt); ([], Panic); ([], Ok tt); ([200], Ok tt); ([], Ok tt); ([], Panic); ([], Ok tt); ([280], Ok tt)] /\
  waiting157 d = [0; 100; 320] /\ existsb track_event (List.concat (map (fun x => snd (fst x)) rs)) = false /\ discards (List.concat (map (fun x => snd (fst x)) rs)) = [].
Proof. vm_compute. repeat split. Qed.

(** ** C157 Without a handler, a packet call after the probe that would deliver a packet loses it. *)
Theorem C157_lost : forall o q d a d0 e0 x, wf d -> rewires a = false -> dm_handler d = false -> dm_completed d = true ->
  step o (with_handler d true) a = Ok (d0, e0) -> delivered e0 = [x] ->
  exists p n, step_r o q d a = (with_handler d0 false, [EvAdd p n], Panic) /\ accepted e0 = [p].
Proof.
  intros o q d a d0 e0 x W R Hd C S D. pose proof (C157_cut o q d a d0 e0 R S) as X. rewrite Hd in X.
  assert (E : exists p n r, e0 = EvAdd p n :: EvPacket x :: r /\ accepted e0 = [p]).
  { apply step_cases in S; [|exact W]. destruct S as [(_ & Q & _)|[(buf & s & _ & _ & _ & _ & Q)|[(buf & id & data & dts & _ & P)|(_ & P)]]].
    - apply quiet_facts in Q as (_ & _ & Q). congruence.
    - apply quiet_facts in Q as (_ & _ & Q). congruence.
    - destruct P as [(_ & ->)|(d1 & i & s & p & G & _ & _ & _ & _ & _ & _ & _ & _ & _ & P)]; [discriminate|].
      destruct G as [->|(G & _)]; [|cbn [with_handler dm_completed] in G; congruence]. pose proof (process_events _ _ _ _ _ P) as [A _].
      apply process_cases in P as (k & l & _ & _ & [(_ & _ & ->)|[(l' & q' & e' & _ & _ & _ & F & ->)|(e' & _ & Q & _)]]).
      + discriminate.
      + destruct (forward_packet_ok _ _ _ F) as (_ & [(_ & ->)|(_ & b & _ & ->)]); apply (f_equal (fun l => nth 0 l x)) in D; cbn [delivered flat_map app nth] in D; rewrite D in *; do 3 eexists; (split; [reflexivity|exact A]).
      + cbn [with_handler dm_completed] in Q. congruence.
    - unfold on_probe_complete in P. cbn [with_handler dm_completed] in P. rewrite C in P. assert (e0 = []) by congruence. subst e0. discriminate. }
  destruct E as (p & n & r & -> & A). cbn [cut is_handler negb] in X. destruct X as (d1 & X & Y). unfold left_by in Y. cbn [at_tracks] in Y. subst d1. exists p, n. split; [exact X|exact A].
Qed.
Print Assumptions C157_lost.

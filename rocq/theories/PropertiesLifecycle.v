(** * PropertiesLifecycle: C100, a demuxer before SetHandler and after Close. *)
From Verif Require Import Base RingProofs BufioModel NaluModel NaluSpec RecordModel AacModel FloatModel PacketModel DemuxModel DemuxProofs PropertiesDemux LifecycleProofs.
From Coq Require Import String List.
Import ListNotations.
Local Open Scope list_scope.

(* ---------------------------------------------------------------------------------------- *)
(** ** C100: use without a handler. *)

(** The full claim, whatever a demuxer with a handler accepts it also accepts without one, is false: after Close the packet that makes an earlier
    packet of its track complete panics, and so do the end of the probe and a probe without tracks. *)
Definition hist_closed : list op := [OpSetHandler; OpAudio 0 G711A [1] 0; OpAudio 0 G711A [2] 300; OpClose].
Theorem C100_without_handler_refuted :
  (exists d evs, run (dm_new "flv") (calls hist_closed) = Ok (d, evs) /\ step o0 d (OpAudio 0 G711A [3] 600) = Panic /\
     exists r, step o0 (with_handler d true) (OpAudio 0 G711A [3] 600) = Ok r) /\
  step o0 (dm_new "flv") OpProbeComplete = Panic /\ step o0 (dm_new "flv") OpTryComplete = Panic /\
  (exists d evs, run (dm_new "flv") (calls [OpAudio 0 G711A [1] 0]) = Ok (d, evs) /\ step o0 d (OpAudio 0 G711A [2] 300) = Panic).
Proof.
  split; [|split; [vm_compute; reflexivity|split; [vm_compute; reflexivity|]]].
  - do 2 eexists. split; [vm_compute; reflexivity|]. split; [vm_compute; reflexivity|]. eexists. vm_compute. reflexivity.
  - do 2 eexists. split; [vm_compute; reflexivity|]. vm_compute. reflexivity.
Qed.

(** Without a handler a call panics exactly when with one it would panic or call it; otherwise both do the same. *)
Theorem C100_without_handler_partial : forall o d a, dm_handler d = false -> a <> OpSetHandler ->
  let r := step o (with_handler d true) a in
  (forall d' e, step o d a = Ok (d', e) <-> exists b, r = Ok (with_handler d' b, e) /\ handler_events e = [] /\ dm_handler d' = false) /\
  (step o d a = Panic <-> r = Panic \/ exists d' e, r = Ok (d', e) /\ handler_events e <> []) /\
  (step o d a = NoFuel <-> r = NoFuel).
Proof.
  intros o d a Hd Na r. assert (A : handler_op a = false) by (destruct a; try reflexivity; congruence). pose proof (step_mute o d a A) as M. rewrite with_handler_self in M by exact Hd. fold r in M. rewrite M.
  pose proof (step_noerr o (with_handler d true) a) as Ne. fold r in Ne. destruct r as [[d1 e1]| | |] eqn:Er; cbn [muted].
  - destruct (handler_events e1) as [|x y] eqn:Eh.
    + split; [|split].
      * intros d' e. split.
        { intros E. injection E as <- <-. exists (dm_handler d1). split; [|split; [exact Eh|reflexivity]]. destruct d1. reflexivity. }
        { intros (b & E & _ & Hf). injection E as -> <-. f_equal. f_equal. now destruct d'; cbn in *; subst. }
      * split; [discriminate|]. intros [E|(d' & e & E & N)]; [discriminate|]. injection E as <- <-. congruence.
      * split; discriminate.
    + split; [|split].
      * intros d' e. split; [discriminate|]. intros (b & E & N & _). injection E as -> <-. congruence.
      * split; [|reflexivity]. intros _. right. do 2 eexists. split; [reflexivity|congruence].
      * split; discriminate.
  - exfalso. now apply Ne.
  - split; [|split]; [intros d' e; split; [discriminate|intros (b & E & _); discriminate]|split; auto|split; discriminate].
  - split; [|split]; [intros d' e; split; [discriminate|intros (b & E & _); discriminate]| |split; reflexivity]. split; [discriminate|]. intros [E|(d' & e & E & _)]; discriminate.
Qed.

(** So nothing is reported until a handler is set, and nothing after Close. *)
Theorem C100_silent : forall h d d' evs, (forall o, ~ In (o, OpSetHandler) h) -> dm_handler d = false -> run d h = Ok (d', evs) ->
  handler_events evs = [] /\ dm_handler d' = false.
Proof.
  induction h as [|[o a] h IH]; intros d d' evs N Hd; cbn [run]; [intros [= <- <-]; auto|].
  destruct (step o d a) as [[d1 e]| | |] eqn:St; cbn [bind]; try discriminate. destruct (run d1 h) as [[d2 e2]| | |] eqn:R; cbn [bind]; try discriminate. intros [= <- <-].
  assert (Na : a <> OpSetHandler) by (intros ->; apply (N o); now left). apply (proj1 (C100_without_handler_partial o d a Hd Na)) in St as (b & _ & He & Hd1).
  rewrite handler_events_app, He. eapply IH; eauto. intros o' I. apply (N o'). now right.
Qed.
Theorem C100_new_and_closed :
  (forall name h d evs, (forall o, ~ In (o, OpSetHandler) h) -> run (dm_new name) h = Ok (d, evs) -> handler_events evs = []) /\
  (forall o d h d' evs, (forall o, ~ In (o, OpSetHandler) h) -> run d ((o, OpClose) :: h) = Ok (d', evs) -> handler_events evs = []).
Proof.
  split; [intros name h d evs N R; now apply (C100_silent h (dm_new name) d evs N)|]. intros o d h d' evs N. cbn [run step bind].
  destruct (run _ h) as [[d2 e2]| | |] eqn:R; cbn [bind]; try discriminate. intros [= <- <-]. cbn [app]. eapply C100_silent; [exact N| |exact R]. reflexivity.
Qed.

(** What the setters and Close do, field by field. *)
Theorem C100_setters : forall o d, 
  let same d' := dm_tracks d' = dm_tracks d /\ dm_name d' = dm_name d /\ dm_ordered d' = dm_ordered d /\ dm_completed d' = dm_completed d /\ dm_packets d' = dm_packets d /\ dm_map d' = dm_map d in
  (exists d', step o d OpClose = Ok (d', []) /\ same d' /\ dm_handler d' = false /\ dm_pre d' = None /\ dm_probe d' = dm_probe d /\ dm_autofree d' = dm_autofree d) /\
  (exists d', step o d OpSetHandler = Ok (d', []) /\ same d' /\ dm_handler d' = true /\ dm_pre d' = dm_pre d /\ dm_probe d' = dm_probe d /\ dm_autofree d' = dm_autofree d) /\
  (forall f, exists d', step o d (OpSetPre f) = Ok (d', []) /\ same d' /\ dm_handler d' = dm_handler d /\ dm_pre d' = f /\ dm_probe d' = dm_probe d /\ dm_autofree d' = dm_autofree d) /\
  (forall n, exists d', step o d (OpSetProbe n) = Ok (d', []) /\ same d' /\ dm_handler d' = dm_handler d /\ dm_pre d' = dm_pre d /\ dm_probe d' = n /\ dm_autofree d' = dm_autofree d) /\
  (forall b, exists d', step o d (OpSetAutoFree b) = Ok (d', []) /\ same d' /\ dm_handler d' = dm_handler d /\ dm_pre d' = dm_pre d /\ dm_probe d' = dm_probe d /\ dm_autofree d' = b).
Proof. intros o d same. split; [|split; [|split; [|split]]]; intros; eexists; (split; [reflexivity|repeat split]). Qed.

(** No call returns an error, and without AutoFree nothing is released at the head of a buffer. *)
Theorem C100_no_error : forall o d a, step o d a <> Err.
Proof. exact step_noerr. Qed.
Theorem C100_no_autofree : forall name h d evs, (forall o, ~ In (o, OpSetAutoFree true) h) -> (forall o i, ~ In (o, OpDiscardHead i) h) ->
  run (dm_new name) h = Ok (d, evs) -> forall b, ~ In (EvDiscardHead b) evs.
Proof.
  intros name h. assert (G : forall d0, dm_autofree d0 = false -> (forall o, ~ In (o, OpSetAutoFree true) h) -> (forall o i, ~ In (o, OpDiscardHead i) h) -> forall d evs, run d0 h = Ok (d, evs) -> forall b, ~ In (EvDiscardHead b) evs).
  { induction h as [|[o a] h IH]; intros d0 A N1 N2 d evs; cbn [run]; [intros [= <- <-] b []|].
    destruct (step o d0 a) as [[d1 e]| | |] eqn:St; cbn [bind]; try discriminate. destruct (run d1 h) as [[d2 e2]| | |] eqn:R; cbn [bind]; try discriminate. intros [= <- <-] b I.
    assert (Ha : head_op a = false). { destruct a; try reflexivity; cbn. - destruct b0; [exfalso; apply (N1 o); now left|reflexivity]. - exfalso. apply (N2 o i). now left. }
    pose proof (step_keeps o d0 a A Ha) as K. rewrite St in K. destruct K as [K1 K2]. apply in_app_or in I as [I|I]; [now apply K2 in I|].
    eapply (IH d1 K1); eauto; [intros o' J; apply (N1 o'); now right|intros o' i J; apply (N2 o' i); now right]. }
  intros d evs N1 N2 R. now apply (G (dm_new name) eq_refl N1 N2 d evs).
Qed.
Example C100_example : exists d evs d' e, run (dm_new "flv") (calls hist_closed) = Ok (d, evs) /\ map pk_dts (delivered evs) = [0] /\
  step o0 d (OpAudio 7 G711A [3] 600) = Ok (d', e) /\ e = [EvDiscardBack 7] /\ dm_handler d' = false.
Proof.
  do 4 eexists. split; [vm_compute; reflexivity|]. split; [vm_compute; reflexivity|]. split; [vm_compute; reflexivity|]. split; reflexivity.
Qed.
Print Assumptions C100_without_handler_refuted.
Print Assumptions C100_without_handler_partial.
Print Assumptions C100_silent.
Print Assumptions C100_new_and_closed.
Print Assumptions C100_setters.
Print Assumptions C100_no_error.
Print Assumptions C100_no_autofree.

(** * PropertiesReent: C139, a handler that calls the demuxer from its callbacks. *)
From Verif Require Import Base NaluModel RecordModel AacModel FloatModel PacketModel DemuxModel DemuxProofs ReentModel ReentProofs PropertiesDemux.
From Coq Require Import String List Permutation.
Import ListNotations.
Local Open Scope list_scope.

(* ---------------------------------------------------------------------------------------- *)
(** ** C139 Calls from the callbacks *)
(** [react k] is what the handler calls during callback [k]; [run_re f] allows calls nested [f] deep. A handler that calls nothing gives
    [DemuxModel.run], so that all other properties of the demuxer are about this model too. *)
Theorem C139_quiet : forall f react h k d, (forall j, react j = []) -> run_re (S f) react k d h = ('(d', e) <- run d h;; Ok (d', e, (k + length (handler_events e))%nat)).
Proof. intros f react h k d R. exact (run_re_quiet f react R h k d). Qed.
Print Assumptions C139_quiet.

(** The order of the callbacks (C63) and the order of the packets of a track (C65) are lost when the handler inputs a packet from
    OnNewTrack: that packet pushes one out before OnTrackComplete and before the older ones. *)
Definition C139_eager : reaction := fun k => match k with O => calls [OpAudio 0 G711A [3] 1800] | _ => [] end.
Definition C139_short : list (oracle * op) := calls [OpSetHandler; OpAudio 0 G711A [1] 0; OpAudio 0 G711A [2] 900; OpProbeComplete].
Theorem C139_order_lost :
  ~ (forall f react h name d e k, (forall j, Forall sorting (react j)) -> Forall sorting h -> run_re f react 0 (dm_new name) h = Ok (d, e, k) -> dm_completed d = true -> dm_tracks d <> [] ->
       exists ps, handler_events e = map EvNewTrack (dm_tracks d) ++ [EvTrackComplete] ++ map EvPacket ps) /\
  ~ (forall f react h name d e k, (forall j, Forall sorting (react j)) -> Forall sorting h -> run_re f react 0 (dm_new name) h = Ok (d, e, k) -> aligned e -> ascending (of_index 0 (accepted e)) -> ascending (of_index 0 (delivered e))).
Proof.
  assert (R : forall j, Forall sorting (C139_eager j)) by (intros [|j]; [apply calls_sorting|constructor]).
  destruct (run_re 2 C139_eager 0 (dm_new "ps") C139_short) as [[[d e] k]| | |] eqn:E; try (exfalso; clear - E; vm_compute in E; discriminate E).
  assert (X : match run_re 2 C139_eager 0 (dm_new "ps") C139_short with Ok (d, e, k) =>
      (dm_completed d, length (dm_tracks d), map (fun x => match x with EvNewTrack _ => 1 | EvTrackComplete => 2 | EvPacket p => 1000 + pk_dts p | _ => 0 end) (handler_events e),
       map pk_dts (of_index 0 (delivered e)), map pk_dts (of_index 0 (accepted e)), forallb (fun x => match x with EvAdd p n => (0 <=? pk_index p) && (pk_index p <=? n) | _ => true end) e) | _ => (false, 0%nat, [], [], [], false) end =
      (true, 1%nat, [1; 1900; 2; 1000], [900; 0], [0; 900; 1800], true)) by (vm_compute; reflexivity).
  rewrite E in X. injection X as X1 X2 X3 X4 X5 X6. split; intros H.
  - destruct (H 2%nat C139_eager C139_short "ps"%string d e k R (calls_sorting _) E X1) as [ps Q]; [intros Y; rewrite Y in X2; discriminate X2|].
    destruct (dm_tracks d) as [|s [|]]; try discriminate X2. rewrite Q in X3. cbn in X3. discriminate X3.
  - specialize (H 2%nat C139_eager C139_short "ps"%string d e k R (calls_sorting _) E).
    assert (Al : aligned e). { apply Forall_forall. intros x I. rewrite forallb_forall in X6. apply X6 in I. destruct x; auto. lia. }
    destruct (of_index 0 (accepted e)) as [|a [|b [|c [|]]]]; try discriminate X5. destruct (of_index 0 (delivered e)) as [|x [|y [|]]]; try discriminate X4. cbn in X4, X5. injection X4 as D1 D2. injection X5 as A1 A2 A3.
    assert (As : ascending [a; b; c]) by (repeat constructor; unfold dts_lt; lia). specialize (H Al As). inversion H as [|? ? _ F]. apply Forall_inv in F. unfold dts_lt in F. lia.
Qed.
Print Assumptions C139_order_lost.

(** No packet is lost or duplicated, whatever the handler calls from whichever callback, however deep. *)
Theorem C139_conservation : forall f react name h d e k, (forall j, Forall sorting (react j)) -> Forall sorting h -> run_re f react 0 (dm_new name) h = Ok (d, e, k) ->
  Permutation (map nodur (accepted e)) (map nodur (delivered e) ++ map nodur (List.concat (dm_packets d))) /\
  (dm_completed d = true -> Forall (fun l => (length l <= 1)%nat) (dm_packets d)).
Proof.
  intros f react name h d e k R F E. destruct (run_re_good f react R h _ _ _ _ _ F E) as [A _ _ _ S]. cbn [app dm_new dm_packets List.concat] in A. rewrite map_app in A.
  split; [exact A|]. apply S; [intros _; reflexivity|]. intros C. discriminate C.
Qed.
Print Assumptions C139_conservation.

(** After the probe no order is lost: what a track had waiting and then received leaves in that order, each packet with the distance to
    the next one as its duration, and the last one waits; again for every handler. *)
Theorem C139_in_order : forall name h d evs, Forall sorting h -> run (dm_new name) h = Ok (d, evs) -> dm_completed d = true -> aligned evs ->
  forall f react h' k d' e k', run_re f react k d h' = Ok (d', e, k') -> aligned e -> forall i,
  let received := nth i (dm_packets d) [] ++ of_index (Z.of_nat i) (accepted e) in
  of_index (Z.of_nat i) (delivered e) = removelast (durs received) /\ nth i (dm_packets d') [] = only_last received.
Proof.
  intros name h d evs F R C Al f react h' k d' e k' E Al' i. destruct (run_re_steady f react h' _ _ _ _ _ E Al' C (reach_slots _ _ _ _ F R Al C)) as (_ & _ & Q). exact (Q i).
Qed.
Print Assumptions C139_in_order.

(** Close from callback [j] of a call. [n] callbacks belong to the call: closing in the last one is harmless, closing in an earlier one
    is a nil pointer panic in the next one, and the callbacks of other calls do not matter. *)
Theorem C139_close : forall f oc j k o d a d' e, step o d a = Ok (d', e) ->
  let n := length (handler_events e) in let r := step_re (S (S f)) (closer oc j) k o d a in
  ((j < k \/ k + n <= j)%nat -> r = Ok (d', e, (k + n)%nat)) /\
  ((k <= j /\ S j = k + n)%nat -> r = Ok (with_pre (with_handler d' false) None, e, (k + n)%nat)) /\
  ((k <= j /\ S j < k + n)%nat -> r = Panic).
Proof.
  intros f oc j k o d a d' e S. cbv zeta. rewrite (step_re_close f oc j k o d a d' e S). unfold after_close. repeat split; intros H; nat_cases; try lia; reflexivity.
Qed.
Print Assumptions C139_close.

(** The Go stack: a handler that calls the demuxer during its first [n] callbacks only is never more than [n] calls deep. *)
Theorem C139_depth : forall react n, (forall j, (n <= j)%nat -> react j = []) -> forall f h k d, (n < f)%nat -> run_re f react k d h = run_re (S n) react k d h.
Proof. intros react n R f h k d L. exact (run_re_depth react n R f h k d L). Qed.
Print Assumptions C139_depth.
(** One that inputs a packet during every callback never comes back. *)
Definition C139_loop : reaction := fun _ => calls [OpAudio 0 G711A [7] 900].
Lemma C139_loop_step d : run (dm_new "ps") (calls [OpSetHandler; OpAudio 0 G711A [1] 0; OpProbeComplete]) = Ok d -> 
  forall f k x, step_re f C139_loop k o0 (with_packets (fst d) [[x]]) (OpAudio 0 G711A [7] 900) = NoFuel.
Proof.
  intros E f. vm_compute in E. injection E as <-. cbn [fst]. induction f as [|f IH]; intros k x; [reflexivity|]. cbn [step_re].
  rewrite step_with_eq. cbn [op_front].
  set (d0 := with_packets _ _). assert (F : audio_front o0 d0 0 G711A [7] 900 = Ok (Packet d0 (set_buffer (init_audio pkt_zero [7] 900 G711A 0 90000) 0))) by reflexivity. rewrite F. cbn [bind]. clear F.
  set (p := set_buffer _ 0). rewrite process_re_eq. assert (G : decide o0 d0 p = Ok (Forward (with_packets d0 [[p]]) (set_duration x (i64 (pk_dts p - pk_dts x))))) by reflexivity. rewrite G. cbn [bind]. clear G.
  assert (N : nested (step_re f C139_loop) (S k) (with_packets d0 [[p]]) (C139_loop k) = NoFuel).
  { pose proof (IH (S k) p) as I. unfold C139_loop at 2. cbn [calls map nested]. match goal with |- bind ?x _ = _ => assert (Ex : x = NoFuel) by exact I; rewrite Ex end. reflexivity. }
  unfold forward_packet_re, notify. replace (dm_handler (with_packets d0 [[p]])) with true by reflexivity. cbn [negb]. rewrite N. reflexivity.
Qed.
Theorem C139_endless : exists name h d evs a, run (dm_new name) h = Ok (d, evs) /\ (exists d' e, step o0 d a = Ok (d', e)) /\ forall f k, step_re f (fun _ => [(o0, a)]) k o0 d a = NoFuel.
Proof.
  exists "ps"%string, (calls [OpSetHandler; OpAudio 0 G711A [1] 0; OpProbeComplete]).
  destruct (run (dm_new "ps") (calls [OpSetHandler; OpAudio 0 G711A [1] 0; OpProbeComplete])) as [[d evs]| | |] eqn:E; try (exfalso; clear - E; vm_compute in E; discriminate E).
  exists d, evs, (OpAudio 0 G711A [7] 900). split; [reflexivity|]. pose proof (C139_loop_step _ E) as L. cbn [fst] in L. split.
  - clear L. vm_compute in E. injection E as <- <-. do 2 eexists. vm_compute. reflexivity.
  - intros f k. assert (P : exists x, dm_packets d = [[x]]) by (clear L; vm_compute in E; injection E as <- <-; eexists; reflexivity). destruct P as [x P]. specialize (L f k x). rewrite <- P in L. destruct d. exact L.
Qed.
Print Assumptions C139_endless.

(** The handler inputs the next packet from OnPacket, twice: callbacks 2 and 3 nest. Order and durations are kept. A handler that closes
    the demuxer in OnTrackComplete panics if a packet follows. *)
Definition C139_pull : reaction := fun k => match k with 2%nat => calls [OpAudio 0 G711A [4] 2700] | 3%nat => calls [OpAudio 0 G711A [5] 3700] | _ => [] end.
Example C139_example :
  match run_re 3 C139_pull 0 (dm_new "ps") (C139_short ++ calls [OpAudio 0 G711A [3] 1800; OpAudio 0 G711A [6] 5000]) with
  | Ok (d, e, k) => (map (fun p => (pk_dts p, pk_duration p)) (delivered e), map (map pk_data) (dm_packets d), k)
  | _ => ([], [], 0%nat) end = ([(0, 900); (900, 1800); (2700, 1000); (3700, -1900); (1800, 3200)], [[[6]]], 7%nat) /\
  run_re 2 C139_pull 0 (dm_new "ps") (C139_short ++ calls [OpAudio 0 G711A [3] 1800]) = NoFuel /\
  run_re 2 (closer o0 1) 0 (dm_new "ps") C139_short = Panic /\
  (exists d e, run_re 2 (closer o0 2) 0 (dm_new "ps") C139_short = Ok (d, e, 3%nat) /\ dm_handler d = false).
Proof. split; [vm_compute; reflexivity|]. split; [vm_compute; reflexivity|]. split; [vm_compute; reflexivity|]. do 2 eexists. split; vm_compute; reflexivity. Qed.

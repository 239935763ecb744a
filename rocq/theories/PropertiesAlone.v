(** * PropertiesAlone: C141, after the probe the streams do not influence each other. *)
From Verif Require Import Base NaluModel RecordModel AacModel FloatModel PacketModel DemuxModel DemuxProofs DeliverySpec DeliveryProofs TrackSpec TrackProofs ArrivalSpec ArrivalProofs ReentProofs AloneSpec AloneProofs PropertiesDemux.
From Coq Require Import String List.
Import ListNotations.
Local Open Scope list_scope.

(* ---------------------------------------------------------------------------------------- *)
(** ** C141 The packets of the other buffers do not matter *)
Lemma reach_settled name h d evs i b : Forall well_behaved h -> run (dm_new name) h = Ok (d, evs) -> dm_completed d = true -> aligned evs ->
  track_of i b d -> In (Z.of_nat i) (map pk_index (accepted evs)) -> settled i b d.
Proof.
  intros F R C Al T I. assert (Fs : Forall sorting h) by (eapply Forall_impl; [|exact F]; intros x [X _]; exact X).
  destruct (reach_live _ _ _ _ F R) as (W & H & Lo). pose proof (reach_slots _ _ _ _ Fs R Al C) as Sl. destruct (reach_listed _ _ _ _ R) as [_ L]. apply (L Al) in I.
  split; [exact W|]. split; [exact C|]. split; [exact H|]. split; [exact T|]. split; [unfold zlen in I; lia|].
  intros k p J. destruct (Sl k) as [_ Ix]. rewrite Forall_forall in Ix. specialize (Ix p J). split; [|rewrite Ix; lia].
  rewrite Forall_forall in Lo. assert (O : origin (dm_map d) p); [|apply map_find_some; exact O]. apply (Lo p). apply in_concat. exists (nth k (dm_packets d) []). split; [|exact J]. apply nth_In. destruct (Nat.lt_ge_cases k (length (dm_packets d))) as [|X]; [assumption|]. rewrite nth_overflow in J by exact X. destruct J.
Qed.

(** After the probe, for a track that has had a packet and shares its buffer with no other track: without the packets of all other buffers
    the same happens to the packets and blocks of its buffer, and the same packet waits at the end. *)
Theorem C141_alone : forall name h d evs, Forall well_behaved h -> run (dm_new name) h = Ok (d, evs) -> dm_completed d = true -> aligned evs ->
  forall i b, In (Z.of_nat i, b) (dm_map d) -> (forall j, In (j, b) (dm_map d) -> j = Z.of_nat i) -> In (Z.of_nat i) (map pk_index (accepted evs)) ->
  forall h' d1 e1, Forall op_hook_ok h' -> run d h' = Ok (d1, e1) ->
  exists d2 e2, run d (only b h') = Ok (d2, e2) /\ mine b e2 = mine b e1 /\ nth i (dm_packets d2) [] = nth i (dm_packets d1) [] /\
    dm_tracks d2 = dm_tracks d1 /\ dm_map d2 = dm_map d1 /\ dm_handler d2 = dm_handler d1.
Proof.
  intros name h d evs F R C Al i b I U N h' d1 e1 Fh R1. pose proof (reach_settled _ _ _ _ i b F R C Al (conj I U) N) as S.
  destruct (run_only i b h' d d1 e1 (dm_packets d) S Fh R1 eq_refl) as (_ & ls & e2 & R2 & M & Nl & _); [apply S|]. rewrite same_packets in R2.
  exists (with_packets d1 ls), e2. repeat split; auto.
Qed.
Print Assumptions C141_alone.

(** So two continuations that differ only in the packets of the other buffers cannot be told apart from this one. *)
Theorem C141_indistinguishable : forall name h d evs, Forall well_behaved h -> run (dm_new name) h = Ok (d, evs) -> dm_completed d = true -> aligned evs ->
  forall i b, In (Z.of_nat i, b) (dm_map d) -> (forall j, In (j, b) (dm_map d) -> j = Z.of_nat i) -> In (Z.of_nat i) (map pk_index (accepted evs)) ->
  forall h1 h2 d1 e1 d2 e2, Forall op_hook_ok h1 -> Forall op_hook_ok h2 -> run d h1 = Ok (d1, e1) -> run d h2 = Ok (d2, e2) -> only b h1 = only b h2 ->
  mine b e1 = mine b e2 /\ nth i (dm_packets d1) [] = nth i (dm_packets d2) [].
Proof.
  intros name h d evs F R C Al i b I U N h1 h2 d1 e1 d2 e2 F1 F2 R1 R2 E.
  destruct (C141_alone _ _ _ _ F R C Al i b I U N _ _ _ F1 R1) as (x1 & y1 & Q1 & M1 & N1 & _). destruct (C141_alone _ _ _ _ F R C Al i b I U N _ _ _ F2 R2) as (x2 & y2 & Q2 & M2 & N2 & _).
  rewrite E, Q2 in Q1. injection Q1 as <- <-. split; congruence.
Qed.
Print Assumptions C141_indistinguishable.

(** In terms of packets: the packets of the buffer that are delivered. *)
Lemma mine_delivered b e : filter (fun p => pk_buffer p =? b) (delivered e) = flat_map (fun x => match x with EvPacket p => [p] | _ => [] end) (mine b e).
Proof.
  induction e as [|x t IH]; [reflexivity|]. change (x :: t) with ([x] ++ t). rewrite delivered_app, mine_app, filter_app, flat_map_app, IH. f_equal.
  destruct x; try reflexivity; cbn [mine flat_map delivered app filter]; destruct (_ =? _); reflexivity.
Qed.
Theorem C141_delivered : forall name h d evs, Forall well_behaved h -> run (dm_new name) h = Ok (d, evs) -> dm_completed d = true -> aligned evs ->
  forall i b, In (Z.of_nat i, b) (dm_map d) -> (forall j, In (j, b) (dm_map d) -> j = Z.of_nat i) -> In (Z.of_nat i) (map pk_index (accepted evs)) ->
  forall h' d1 e1, Forall op_hook_ok h' -> run d h' = Ok (d1, e1) ->
  exists d2 e2, run d (only b h') = Ok (d2, e2) /\ filter (fun p => pk_buffer p =? b) (delivered e2) = filter (fun p => pk_buffer p =? b) (delivered e1).
Proof.
  intros name h d evs F R C Al i b I U N h' d1 e1 Fh R1. destruct (C141_alone _ _ _ _ F R C Al i b I U N h' d1 e1 Fh R1) as (d2 & e2 & R2 & M & _). exists d2, e2. split; [exact R2|]. now rewrite !mine_delivered, M.
Qed.
Print Assumptions C141_delivered.

(** During the probe the other streams do matter (they end it); after the probe they matter to a track that has had no packet. *)
Definition C141_probe : list (oracle * op) :=
  calls [OpSetHandler; OpAudio 0 G711A [1] 0; OpAudio 1 G711A [2] 0; OpAudio 0 G711A [3] 900; OpAudio 1 G711A [4] 90000; OpAudio 0 G711A [5] 1800].
Definition C141_announce : list (oracle * op) := calls [OpSetHandler; OpNewVideo 0 UtilModel.AVCodecIdVP9 1000 [1]; OpNewAudio 1 G711A 1000 None audio_config_zero; OpProbeComplete].
Definition C141_late : list (oracle * op) := calls [OpAudio 1 G711A [2] 5; OpVideo 0 UtilModel.AVCodecIdVP9 [1] true 10 10; OpAudio 1 G711A [3] 15].
Theorem C141_conditions_needed :
  ~ (forall name h b d1 e1 d2 e2, Forall well_behaved h -> run (dm_new name) h = Ok (d1, e1) -> run (dm_new name) (only b h) = Ok (d2, e2) ->
       map pk_data (filter (fun p => pk_buffer p =? b) (delivered e2)) = map pk_data (filter (fun p => pk_buffer p =? b) (delivered e1))) /\
  ~ (forall name h d evs h' d1 e1 d2 e2 b, Forall well_behaved h -> Forall well_behaved h' -> run (dm_new name) h = Ok (d, evs) -> dm_completed d = true -> run d h' = Ok (d1, e1) -> run d (only b h') = Ok (d2, e2) ->
       length (filter (fun p => pk_buffer p =? b) (delivered e2)) = length (filter (fun p => pk_buffer p =? b) (delivered e1))).
Proof.
  assert (Wb : forall l, Forall (fun a => match a with OpSetPre _ => False | _ => True end) l -> Forall well_behaved (calls l)).
  { intros l F. apply Forall_map. eapply Forall_impl; [|exact F]. intros a Q. split; [exact o0_ok|]. destruct a; try exact Logic.I. destruct Q. }
  assert (W1 : Forall well_behaved C141_probe) by (apply Wb; repeat constructor). assert (W2 : Forall well_behaved C141_announce) by (apply Wb; repeat constructor). assert (W3 : Forall well_behaved C141_late) by (apply Wb; repeat constructor).
  split; intros H.
  - destruct (run (dm_new "ps") C141_probe) as [[d1 e1]| | |] eqn:E1; try (exfalso; clear - E1; vm_compute in E1; discriminate E1).
    destruct (run (dm_new "ps") (only 0 C141_probe)) as [[d2 e2]| | |] eqn:E2; try (exfalso; clear - E2; vm_compute in E2; discriminate E2).
    specialize (H "ps"%string C141_probe 0 d1 e1 d2 e2 W1 E1 E2).
    assert (X : match run (dm_new "ps") C141_probe, run (dm_new "ps") (only 0 C141_probe) with Ok (_, a), Ok (_, c) => (map pk_data (filter (fun p => pk_buffer p =? 0) (delivered a)), map pk_data (filter (fun p => pk_buffer p =? 0) (delivered c))) | _, _ => ([], []) end = ([[1]; [3]], [])) by (vm_compute; reflexivity).
    rewrite E1, E2 in X. injection X as X1 X2. rewrite X1, X2 in H. discriminate H.
  - destruct (run (dm_new "flv") C141_announce) as [[d evs]| | |] eqn:E; try (exfalso; clear - E; vm_compute in E; discriminate E).
    destruct (run d C141_late) as [[d1 e1]| | |] eqn:E1; [|exfalso; assert (X : match run (dm_new "flv") C141_announce with Ok (d, _) => match run d C141_late with Ok _ => true | _ => false end | _ => false end = true) by (vm_compute; reflexivity); rewrite E, E1 in X; discriminate X..].
    destruct (run d (only 1 C141_late)) as [[d2 e2]| | |] eqn:E2; [|exfalso; assert (X : match run (dm_new "flv") C141_announce with Ok (d, _) => match run d (only 1 C141_late) with Ok _ => true | _ => false end | _ => false end = true) by (vm_compute; reflexivity); rewrite E, E2 in X; discriminate X..].
    assert (X : match run (dm_new "flv") C141_announce with Ok (d, _) => match run d C141_late, run d (only 1 C141_late) with Ok (_, a), Ok (_, c) =>
        (dm_completed d, length (filter (fun p => pk_buffer p =? 1) (delivered a)), length (filter (fun p => pk_buffer p =? 1) (delivered c))) | _, _ => (false, 0%nat, 0%nat) end | _ => (false, 0%nat, 0%nat) end = (true, 1%nat, 0%nat)) by (vm_compute; reflexivity).
    rewrite E, E1, E2 in X. injection X as X0 X1 X2.
    specialize (H "flv"%string C141_announce d evs C141_late d1 e1 d2 e2 1 W2 W3 E X0 E1 E2). rewrite X1, X2 in H. discriminate H.
Qed.
Print Assumptions C141_conditions_needed.

(** The probe above, and then packets of both buffers: those of buffer 0 do as well without the others. *)
Definition C141_rest : list (oracle * op) := calls [OpSetAutoFree true; OpAudio 0 G711A [6] 2700; OpAudio 1 G711A [7] 99000; OpAudio 1 G711A [8] 99900; OpAudio 0 G711A [9] 3600; OpProbeComplete].
Example C141_example :
  match run (dm_new "ps") C141_probe with
  | Ok (d, evs) => dm_completed d = true /\ dm_map d = [(0, 0); (1, 1)] /\ map pk_index (accepted evs) = [0; 1; 0; 1; 0] /\ length (only 0 C141_rest) = 4%nat /\
      match run d C141_rest, run d (only 0 C141_rest) with
      | Ok (_, e1), Ok (_, e2) => map (fun p => (pk_buffer p, pk_dts p)) (delivered e1) = [(0, 1800); (1, 90000); (1, 99000); (0, 2700)] /\ length (mine 0 e1) = 6%nat /\ mine 0 e1 = mine 0 e2 /\
          map (fun p => (pk_buffer p, pk_dts p)) (delivered e2) = [(0, 1800); (0, 2700)]
      | _, _ => False
      end
  | _ => False
  end.
Proof. vm_compute. repeat split; reflexivity. Qed.
Print Assumptions C141_example.

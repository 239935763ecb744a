(** * PropertiesRelabel: C140, the demuxer sees only differences of times and equality of buffer numbers. *)
From Verif Require Import Base NaluModel RecordModel AacModel FloatModel PacketModel DemuxModel DemuxProofs HandlerModel RelabelSpec RelabelProofs PropertiesDemux.
From Coq Require Import String List Permutation.
Import ListNotations.
Local Open Scope list_scope.

(* ---------------------------------------------------------------------------------------- *)
(** ** C140 The same session with other times and other buffer numbers *)
(** The relabelled calls give the relabelled result, be it a success, an error or a panic, from every state. *)
Theorem C140_relabel : forall r d h, relabel_ok r -> run (rl_dm r d) (map (rl_call r) h) = rl_res r (run d h).
Proof. intros r d h H. exact (rl_run r H h d). Qed.
Print Assumptions C140_relabel.

(** A choice of the runtime that sort.Slice can make becomes one it can make for the relabelled packets. *)
Theorem C140_choices : forall r h, relabel_ok r -> Forall sorting h -> Forall sorting (map (rl_call r) h).
Proof. intros r h H F. apply Forall_map. eapply Forall_impl; [|exact F]. intros [o a] O. exact (rl_oracle_ok r H o O). Qed.
Print Assumptions C140_choices.

(** From the start: the same outcome; on success the same tracks, and callback by callback the same packets with their times moved; in
    particular bytes, durations, key flags and stream indices are the same. *)
Lemma rl_delivered r e : delivered (map (rl_event r) e) = map (rl_packet r) (delivered e).
Proof. induction e as [|x t IH]; [reflexivity|]. unfold delivered in *. destruct x; cbn [map rl_event flat_map app]; rewrite IH; reflexivity. Qed.
Lemma rl_handler r e : handler_events (map (rl_event r) e) = map (rl_event r) (handler_events e).
Proof. unfold handler_events. induction e as [|x t IH]; [reflexivity|]. destruct x; cbn [map rl_event filter is_handler]; rewrite IH; reflexivity. Qed.
Theorem C140_from_start : forall r name h, relabel_ok r ->
  match run (dm_new name) h with
  | Ok (d, e) => exists d' e', run (dm_new name) (map (rl_call r) h) = Ok (d', e') /\
      dm_tracks d' = dm_tracks d /\ dm_completed d' = dm_completed d /\ dm_probe d' = dm_probe d /\
      handler_events e' = map (rl_event r) (handler_events e) /\ delivered e' = map (rl_packet r) (delivered e) /\
      map pk_data (delivered e') = map pk_data (delivered e) /\ map pk_duration (delivered e') = map pk_duration (delivered e) /\
      map pk_key (delivered e') = map pk_key (delivered e) /\ map pk_index (delivered e') = map pk_index (delivered e) /\
      map pk_dts (delivered e') = map (fun p => pk_dts p + rl_dts r) (delivered e) /\ map pk_buffer (delivered e') = map (fun p => rl_buf r (pk_buffer p)) (delivered e)
  | Err => run (dm_new name) (map (rl_call r) h) = Err
  | Panic => run (dm_new name) (map (rl_call r) h) = Panic
  | NoFuel => run (dm_new name) (map (rl_call r) h) = NoFuel
  end.
Proof.
  intros r name h H. pose proof (rl_run r H h (dm_new name)) as E. change (rl_dm r (dm_new name)) with (dm_new name) in E. rewrite E. destruct (run (dm_new name) h) as [[d e]| | |]; cbn [rl_res]; try reflexivity.
  do 2 eexists. split; [reflexivity|]. split; [reflexivity|]. split; [reflexivity|]. split; [reflexivity|]. split; [apply rl_handler|]. rewrite !rl_delivered. split; [reflexivity|]. rewrite !map_map. repeat split; reflexivity.
Qed.
Print Assumptions C140_from_start.

(** What a FileHandler writes is the same to the byte. *)
Theorem C140_files : forall r name h d e path k d' e', relabel_ok r -> run (dm_new name) h = Ok (d, e) -> run (dm_new name) (map (rl_call r) h) = Ok (d', e') ->
  fh_session path k e' = fh_session path k e.
Proof.
  intros r name h d e path k d' e' H R R'. pose proof (rl_run r H h (dm_new name)) as E. change (rl_dm r (dm_new name)) with (dm_new name) in E. rewrite R, R' in E. cbn [rl_res] in E. injection E as _ ->. apply rl_session.
Qed.
Print Assumptions C140_files.

(** The amount must be the same for all tracks: moving the sound alone changes the order of the packets of the probe. *)
Definition C140_calls (sound : Z) : list (oracle * op) :=
  calls [OpSetHandler; OpAudio 0 G711A [1] (0 + sound); OpAudio 1 G711A [2] 500; OpAudio 0 G711A [3] (900 + sound); OpAudio 1 G711A [4] 1400; OpProbeComplete].
Theorem C140_one_track_matters :
  ~ (forall c d e d' e', run (dm_new "ps") (C140_calls 0) = Ok (d, e) -> run (dm_new "ps") (C140_calls c) = Ok (d', e') -> map pk_data (delivered e') = map pk_data (delivered e)).
Proof.
  intros H. destruct (run (dm_new "ps") (C140_calls 0)) as [[d e]| | |] eqn:E; try (exfalso; clear - E; vm_compute in E; discriminate E).
  destruct (run (dm_new "ps") (C140_calls 1000)) as [[d' e']| | |] eqn:E'; try (exfalso; clear - E'; vm_compute in E'; discriminate E').
  specialize (H 1000 d e d' e' eq_refl E').
  assert (X : match run (dm_new "ps") (C140_calls 0), run (dm_new "ps") (C140_calls 1000) with Ok (_, a), Ok (_, b) => (map pk_data (delivered a), map pk_data (delivered b)) | _, _ => ([], []) end = ([[1]; [2]], [[2]; [1]])) by (vm_compute; reflexivity).
  rewrite E, E' in X. injection X as X1 X2. rewrite X1, X2 in H. discriminate H.
Qed.
Print Assumptions C140_one_track_matters.

(** Two tracks, 90 s later, with the buffers exchanged. *)
Definition C140_move : relabel := {| rl_dts := 90000; rl_pts := 90000; rl_buf := fun b => 1 - b; rl_unbuf := fun b => 1 - b |}.
Example C140_example :
  relabel_ok C140_move /\
  match run (dm_new "ps") (C140_calls 0), run (dm_new "ps") (map (rl_call C140_move) (C140_calls 0)) with
  | Ok (_, a), Ok (_, b) => map (fun p => (pk_index p, pk_buffer p, pk_dts p, pk_duration p, pk_data p)) (delivered a) = [(0, 0, 0, 900, [1]); (1, 1, 500, 900, [2])] /\
      map (fun p => (pk_index p, pk_buffer p, pk_dts p, pk_duration p, pk_data p)) (delivered b) = [(0, 1, 90000, 900, [1]); (1, 0, 90500, 900, [2])]
  | _, _ => False
  end.
Proof. split; [split; intros b; cbn [rl_buf rl_unbuf C140_move]; lia|]. vm_compute. split; reflexivity. Qed.
Print Assumptions C140_example.

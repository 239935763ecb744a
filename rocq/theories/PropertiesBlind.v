(** * PropertiesBlind: C142, the demuxer does not look at the bytes of known streams. *)
From Verif Require Import Base UtilModel NaluModel RecordModel AacModel FloatModel PacketModel DemuxModel DemuxProofs BlindSpec BlindProofs PropertiesDemux.
From Coq Require Import String List.
Import ListNotations.
Local Open Scope list_scope.

(* ---------------------------------------------------------------------------------------- *)
(** ** C142 The same session with other bytes *)
(** After the probe: whatever the bytes are replaced with, the same happens to the packets with the new bytes. *)
Theorem C142_after : forall phi name h d evs h', run (dm_new name) h = Ok (d, evs) -> dm_completed d = true -> blind_hook phi (dm_pre d) -> Forall (blind_call phi) h' ->
  run (bl_dm phi d) (map (bl_call phi) h') = bl_res phi (run d h').
Proof. intros phi name h d evs h' R C H F. apply bl_run; auto; [exact (run_wf _ _ _ _ (wf_new name) R)|now left]. Qed.
Print Assumptions C142_after.
(** Before that, for packets of tracks that have been found: the same if the lengths stay the same. *)
Theorem C142_found : forall phi name h d evs h', (forall l, zlen (phi l) = zlen l) -> run (dm_new name) h = Ok (d, evs) -> blind_hook phi (dm_pre d) -> Forall (blind_call phi) h' -> Forall (for_track d) h' ->
  run (bl_dm phi d) (map (bl_call phi) h') = bl_res phi (run d h').
Proof. intros phi name h d evs h' L R H F K. apply bl_run; auto; [exact (run_wf _ _ _ _ (wf_new name) R)|now right]. Qed.
Print Assumptions C142_found.

(** Hence, with [blank] bytes: two continuations that differ in the bytes alone have the same outcome, the same callbacks in the same
    order, and packets that differ in the bytes alone. *)
Definition blank (l : list Z) : list Z := repeat 0 (length l).
Lemma blank_len l : zlen (blank l) = zlen l.
Proof. unfold zlen, blank. now rewrite repeat_length. Qed.
Theorem C142_two : forall name h d evs h1 h2, run (dm_new name) h = Ok (d, evs) -> blind_hook blank (dm_pre d) -> Forall (blind_call blank) h1 -> Forall (blind_call blank) h2 ->
  Forall (for_track d) h1 -> Forall (for_track d) h2 -> map (bl_call blank) h1 = map (bl_call blank) h2 -> bl_res blank (run d h1) = bl_res blank (run d h2).
Proof. intros name h d evs h1 h2 R H F1 F2 K1 K2 E. rewrite <- (C142_found blank name h d evs h1), <- (C142_found blank name h d evs h2); auto using blank_len. now rewrite E. Qed.
Print Assumptions C142_two.
(** After the probe they may differ in the lengths too. *)
Definition gone (l : list Z) : list Z := [].
Theorem C142_two_after : forall name h d evs h1 h2, run (dm_new name) h = Ok (d, evs) -> dm_completed d = true -> blind_hook gone (dm_pre d) -> Forall (blind_call gone) h1 -> Forall (blind_call gone) h2 ->
  map (bl_call gone) h1 = map (bl_call gone) h2 -> bl_res gone (run d h1) = bl_res gone (run d h2).
Proof. intros name h d evs h1 h2 R C H F1 F2 E. rewrite <- (C142_after gone name h d evs h1), <- (C142_after gone name h d evs h2); auto. now rewrite E. Qed.
Print Assumptions C142_two_after.
(** What a handler gets. *)
Theorem C142_callbacks : forall phi e, handler_events (map (bl_event phi) e) = map (bl_event phi) (handler_events e) /\ delivered (map (bl_event phi) e) = map (bl_packet phi) (delivered e) /\
  map pk_data (delivered (map (bl_event phi) e)) = map (fun p => phi (pk_data p)) (delivered e) /\ map pk_duration (delivered (map (bl_event phi) e)) = map pk_duration (delivered e).
Proof.
  intros phi e. assert (D : delivered (map (bl_event phi) e) = map (bl_packet phi) (delivered e)).
  { induction e as [|x t IH]; [reflexivity|]. unfold delivered in *. destruct x; cbn [map bl_event flat_map app]; rewrite IH; reflexivity. }
  split; [|split; [exact D|]; rewrite D, !map_map; split; reflexivity].
  unfold handler_events. clear D. induction e as [|x t IH]; [reflexivity|]. destruct x; cbn [map bl_event filter is_handler]; rewrite IH; reflexivity.
Qed.
Print Assumptions C142_callbacks.

(** An insertion sort does not look at the bytes, like every sort that only compares Dts. *)
Lemma insert_blind phi p l : insert (bl_packet phi p) (map (bl_packet phi) l) = map (bl_packet phi) (insert p l).
Proof. induction l as [|q t IH]; cbn [map insert]; [reflexivity|]. change (pk_dts (bl_packet phi p)) with (pk_dts p). change (pk_dts (bl_packet phi q)) with (pk_dts q). destruct (_ <=? _); cbn [map]; [reflexivity|]. now rewrite IH. Qed.
Lemma o0_blind phi : blind_sort phi o0.
Proof. intros l. cbn [o0 or_sort]. unfold isort. induction l as [|p t IH]; cbn [map fold_right]; [reflexivity|]. now rewrite IH, insert_blind. Qed.
Lemma calls_blind phi l : Forall (fun a => match a with OpSetPre _ => False | _ => True end) l -> Forall (blind_call phi) (calls l).
Proof. intros F. apply Forall_map. eapply Forall_impl; [|exact F]. intros a Q. split; [apply o0_blind|]. destruct a; try exact Logic.I. destruct Q. Qed.

(** The conditions are needed: the bytes of the first packet decide on a new track, and lengths on the sampling rate of PCM. *)
Definition C142_first : list (oracle * op) := calls [OpSetHandler; OpVideo 0 AVCodecIdH264 sps_end true 0 0].
Definition C142_pcm : list (oracle * op) := calls [OpSetHandler; OpNewAudio 0 AVCodecIdPCMS16LE 1000 None audio_config_zero].
Definition C142_sound : list (oracle * op) := calls [OpAudio 0 AVCodecIdPCMS16LE (repeat 7 640) 0; OpAudio 0 AVCodecIdPCMS16LE (repeat 7 640) 20; OpProbeComplete].
Theorem C142_conditions_needed :
  ~ (forall phi name h, (forall l, zlen (phi l) = zlen l) -> Forall (blind_call phi) h -> run (dm_new name) (map (bl_call phi) h) = bl_res phi (run (dm_new name) h)) /\
  ~ (forall phi name h d evs h', run (dm_new name) h = Ok (d, evs) -> blind_hook phi (dm_pre d) -> Forall (blind_call phi) h' -> Forall (for_track d) h' -> run (bl_dm phi d) (map (bl_call phi) h') = bl_res phi (run d h')).
Proof.
  split; intros H.
  - assert (F : Forall (blind_call blank) C142_first) by (apply calls_blind; repeat constructor). specialize (H blank "ps"%string C142_first blank_len F).
    apply (f_equal (fun x => match x with Ok _ => 1 | Panic => 2 | _ => 3 end)) in H. vm_compute in H. discriminate H.
  - destruct (run (dm_new "flv") C142_pcm) as [[d evs]| | |] eqn:E; try (exfalso; clear - E; vm_compute in E; discriminate E).
    assert (X : match run (dm_new "flv") C142_pcm with Ok (d, _) => (dm_map d, match dm_pre d with None => true | _ => false end) | _ => ([], false) end = ([(0, 0)], true)) by (vm_compute; reflexivity).
    rewrite E in X. injection X as X1 X2.
    assert (F : Forall (blind_call gone) C142_sound) by (apply calls_blind; repeat constructor). assert (P : blind_hook gone (dm_pre d)) by (destruct (dm_pre d); [discriminate X2|exact Logic.I]).
    specialize (H gone "flv"%string C142_pcm d evs C142_sound E P F).
    assert (K : Forall (for_track d) C142_sound) by (constructor; [|constructor; [|constructor; [exact Logic.I|constructor]]]; exists 0; rewrite X1; now left). specialize (H K).
    apply (f_equal (fun x => match x with Ok (d, _) => Some (map (fun s => ac_sample_rate (st_audio s)) (dm_tracks d)) | _ => None end)) in H.
    assert (Y : match run (dm_new "flv") C142_pcm with Ok (d, _) =>
       (match run (bl_dm gone d) (map (bl_call gone) C142_sound) with Ok (d, _) => Some (map (fun s => ac_sample_rate (st_audio s)) (dm_tracks d)) | _ => None end,
        match bl_res gone (run d C142_sound) with Ok (d, _) => Some (map (fun s => ac_sample_rate (st_audio s)) (dm_tracks d)) | _ => None end) | _ => (None, None) end = (Some [8000], Some [16000])) by (vm_compute; reflexivity).
    rewrite E in Y. pose proof (f_equal fst Y) as Y1. pose proof (f_equal snd Y) as Y2. cbn [fst snd] in Y1, Y2. cbv beta in H. rewrite Y1, Y2 in H. discriminate H.
Qed.
Print Assumptions C142_conditions_needed.

(** The PCM session, with other sound. *)
Example C142_example : let other := map (fun x => Z.lxor x 255) in
  (forall l, zlen (other l) = zlen l) /\
  match run (dm_new "flv") C142_pcm with
  | Ok (d, _) => match run (bl_dm other d) (map (bl_call other) C142_sound), run d C142_sound with
      | Ok (d1, e1), Ok (d2, e2) => dm_tracks d1 = dm_tracks d2 /\ map (fun p => (pk_dts p, pk_duration p, pk_data p)) (delivered e1) = [(0, 20, repeat 248 640)] /\
          map (fun p => (pk_dts p, pk_duration p, pk_data p)) (delivered e2) = [(0, 20, repeat 7 640)]
      | _, _ => False
      end
  | _ => False
  end.
Proof. split; [intros l; unfold zlen; now rewrite map_length|]. vm_compute. repeat split; reflexivity. Qed.
Print Assumptions C142_example.

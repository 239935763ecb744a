(** * Proofs about recordings whose caller recovers from panics. *)
From Coq Require Import String.
From Verif Require UtilModel.
From Verif Require Import Base RingProofs AacModel PacketModel PacketProofs DemuxModel DemuxProofs HandlerModel HandlerSpec HandlerProofs HandlerFaultModel HandlerFaultProofs HandlerRecoverSpec HandlerRecoverModel HandlerRecoverProofs.
From Verif Require Import RecoverModel RecoverProofs RecordRecoverModel.
From Coq Require Import List.
Import ListNotations.
Local Open Scope list_scope.

(** ** The tracks of a demuxer *)
Definition sound (d : demuxer) : Prop := wf d /\ Forall (fun s => av (st_media s)) (dm_tracks d).
Lemma sound_new name : sound (dm_new name).
Proof. split; [apply wf_new|constructor]. Qed.
Lemma sound_same d d' : sound d -> Forall2 same_track (dm_tracks d) (dm_tracks d') -> dm_map d' = dm_map d -> sound d'.
Proof. intros [W A] F M. split; [eapply wf_same; eauto|eapply same_av; eauto]. Qed.
Lemma sound_grow d s buf : sound d -> st_index s = zlen (dm_tracks d) -> av (st_media s) -> sound (grow d s buf).
Proof. intros [W A] I M. split; [now apply wf_grow|now apply av_grow]. Qed.
Lemma sound_eq d d' : sound d -> dm_tracks d' = dm_tracks d -> dm_map d' = dm_map d -> sound d'.
Proof. intros S T M. eapply sound_same; eauto. rewrite T. apply Forall2_same_refl. Qed.

Lemma create_audio_sound d buf id tb extra c d1 t : sound d -> create_audio_track d buf id tb extra c = Ok (d1, t) -> sound d1 /\ dm_completed d1 = dm_completed d.
Proof. intros [W A] E. apply create_audio_cases in E; [|exact W]. destruct E as [[-> _]|(_ & s & I & _ & _ & M & -> & _)]; [split; [split; assumption|reflexivity]|]. split; [|reflexivity]. apply sound_grow; auto; [now split|now left]. Qed.
Lemma create_video_sound o d buf id tb extra d1 t : sound d -> create_video_track o d buf id tb extra = Ok (d1, t) -> sound d1 /\ dm_completed d1 = dm_completed d.
Proof. intros [W A] E. apply create_video_cases in E; [|exact W]. destruct E as [[-> _]|(_ & s & I & _ & _ & M & -> & _)]; [split; [split; assumption|reflexivity]|]. split; [|reflexivity]. apply sound_grow; auto; [now split|now right]. Qed.
Lemma audio_track_sound o d buf id data d1 t : sound d -> audio_track o d buf id data = Ok (d1, t) -> sound d1 /\ dm_completed d1 = dm_completed d.
Proof.
  intros S. unfold audio_track. destruct (find_track o d buf) as [[s|]| | |]; cbn [bind]; try discriminate; [intros E; assert (d1 = d) by congruence; now subst|].
  destruct (dm_completed d) eqn:C; [intros E; assert (d1 = d) by congruence; now subst|]. destruct (extract_audio_extra_data id data) as [[[x y] z]| | |]; try discriminate; [|intros E; assert (d1 = d) by congruence; now subst].
  destruct (get_timebase _) as [tb| | |]; cbn [bind]; try discriminate. intros E. rewrite <- C. eapply create_audio_sound; eauto.
Qed.
Lemma video_track_sound o d buf id data key d1 t : sound d -> video_track o d buf id data key = Ok (d1, t) -> sound d1 /\ dm_completed d1 = dm_completed d.
Proof.
  intros S. unfold video_track. destruct (find_track o d buf) as [[s|]| | |]; cbn [bind]; try discriminate; [intros E; assert (d1 = d) by congruence; now subst|].
  destruct (_ && _); [|intros E; assert (d1 = d) by congruence; now subst]. destruct (if key then _ else _) as [extra| | |]; cbn [bind]; try discriminate.
  destruct (match extra with Some e => Ok (Some e) | None => _ end) as [[e|]| | |]; cbn [bind]; try discriminate; [|intros E; assert (d1 = d) by congruence; now subst].
  destruct (get_timebase _) as [tb| | |]; cbn [bind]; try discriminate. intros E. eapply create_video_sound; eauto.
Qed.

(** ** A call before the probe is complete: nothing is called back, or the probe is completed *)
Definition before (o : oracle) (x : mood -> reply) : Prop :=
  (exists d1 e r, (forall q, x q = (d1, e, r)) /\ handler_events e = [] /\ dm_completed d1 = false /\ sound d1) \/
  (exists d2 pre, sound d2 /\ dm_completed d2 = false /\ handler_events pre = [] /\ forall q, x q = (let '(d3, e, r) := complete_r o q d2 in (d3, pre ++ e, r))).
Lemma before_still o x d1 e r : (forall q, x q = (d1, e, r)) -> handler_events e = [] -> dm_completed d1 = false -> sound d1 -> before o x.
Proof. intros. left. eauto 10. Qed.
Lemma process_before o d p : sound d -> dm_completed d = false -> before o (fun q => process_r o q d p).
Proof.
  intros S C. unfold process_r. cbv zeta. set (n := zlen (dm_packets d)). set (packets := if pk_index p <? n then dm_packets d else dm_packets d ++ [[]]). set (k := if pk_index p <? n then pk_index p else n).
  destruct (idx packets k) as [l|]; [|now apply (before_still o _ d [] Panic)]. destruct (zlen (l ++ [p]) - 2 <? 0).
  - eapply before_still; [reflexivity|reflexivity|exact C|]. eapply sound_eq; [exact S|reflexivity|reflexivity].
  - destruct (idx (l ++ [p]) (zlen (l ++ [p]) - 2)) as [x|]; [|now apply (before_still o _ d [] Panic)]. rewrite C. destruct (_ <=? _).
    + right. exists (with_packets d (set_nth (Z.to_nat k) (set_nth (Z.to_nat (zlen (l ++ [p]) - 2)) (set_duration x (i64 (pk_dts p - pk_dts x))) (l ++ [p])) packets)), [EvAdd p n]. split; [|split; [|split; [reflexivity|]]]; [eapply sound_eq; [exact S|reflexivity|reflexivity]|exact C|].
      intros q. destruct (complete_r o q _) as [[d3 e] r]. reflexivity.
    + eapply before_still; [reflexivity|reflexivity|exact C|]. eapply sound_eq; [exact S|reflexivity|reflexivity].
Qed.
Lemma plain_before o d x : sound d -> dm_completed d = false -> (forall d1 e, x = Ok (d1, e) -> handler_events e = [] /\ dm_completed d1 = false /\ sound d1) -> before o (fun _ => plain_r d x).
Proof.
  intros S C H. destruct x as [[d1 e]| | |]; cbn [plain_r]; [|now apply (before_still o _ d [] Err)|now apply (before_still o _ d [] Panic)|now apply (before_still o _ d [] NoFuel)].
  destruct (H _ _ eq_refl) as (A & B & D). eapply before_still; eauto.
Qed.
Lemma step_before o d a : sound d -> dm_completed d = false -> before o (fun q => step_r o q d a).
Proof.
  intros S C. destruct a; cbn [step_r]; try (apply plain_before; auto; cbn [step]; intros d1 e E).
  - split; [eapply new_audio_events; eauto|]. unfold on_new_audio_track in E. destruct (match tm_find_type (dm_tracks d) AVMediaTypeAudio with None => _ | Some _ => _ end) as [[d2 t]| | |] eqn:M; cbn [bind] in E; try discriminate. assert (d2 = d1) by congruence. subst d2.
    assert (X : (d1 = d) \/ create_audio_track d buf id timebase extra config = Ok (d1, t)) by (destruct (tm_find_type _ _); [destruct (_ =? _)%string|]; auto; left; congruence).
    destruct X as [->|X]; [auto|]. apply create_audio_sound in X as [X1 X2]; auto. rewrite X2. auto.
  - split; [eapply new_video_events; eauto|]. unfold on_new_video_track in E. destruct (match tm_find_type (dm_tracks d) AVMediaTypeVideo with None => _ | Some _ => _ end) as [[d2 t]| | |] eqn:M; cbn [bind] in E; try discriminate. assert (d2 = d1) by congruence. subst d2.
    assert (X : (d1 = d) \/ create_video_track o d buf id timebase extra = Ok (d1, t)) by (destruct (tm_find_type _ _); [destruct (_ =? _)%string|]; auto; left; congruence).
    destruct X as [->|X]; [auto|]. apply create_video_sound in X as [X1 X2]; auto. rewrite X2. auto.
  - unfold audio_r. destruct (audio_track o d buf id data) as [[d1 [s|]]| | |] eqn:E; try (eapply before_still; [reflexivity|reflexivity|exact C|exact S]).
    + apply audio_track_sound in E as [E1 E2]; auto. apply process_before; congruence.
    + apply audio_track_sound in E as [E1 E2]; auto. eapply before_still; [reflexivity|reflexivity|congruence|exact E1].
  - unfold video_r. destruct (video_track o d buf id data key) as [[d1 [s|]]| | |] eqn:E; try (eapply before_still; [reflexivity|reflexivity|exact C|exact S]).
    + apply video_track_sound in E as [E1 E2]; auto. apply process_before; congruence.
    + apply video_track_sound in E as [E1 E2]; auto. eapply before_still; [reflexivity|reflexivity|congruence|exact E1].
  - right. exists d, []. split; [exact S|]. split; [exact C|]. split; [reflexivity|]. intros q. destruct (complete_r o q d) as [[d3 e] r]. reflexivity.
  - destruct (need_more d); [eapply before_still; [reflexivity|reflexivity|exact C|exact S]|]. right. exists d, []. split; [exact S|]. split; [exact C|]. split; [reflexivity|]. intros q. destruct (complete_r o q d) as [[d3 e] r]. reflexivity.
  - assert (d1 = with_probe d n /\ e = []) as [-> ->] by (split; congruence). repeat split; auto; apply S.
  - assert (d1 = with_handler d true /\ e = []) as [-> ->] by (split; congruence). repeat split; auto; apply S.
  - assert (d1 = with_pre d f /\ e = []) as [-> ->] by (split; congruence). repeat split; auto; apply S.
  - assert (d1 = with_autofree d b /\ e = []) as [-> ->] by (split; congruence). repeat split; auto; apply S.
  - assert (d1 = with_pre (with_handler d false) None /\ e = []) as [-> ->] by (split; congruence). repeat split; auto; apply S.
  - unfold find_buffer_index in E. destruct (marker_index _ _ _); match type of E with Ok (?a, ?b) = Ok (_, _) => assert (d1 = a /\ e = b) as [-> ->] by (split; congruence) end; repeat split; auto; apply S.
  - assert (d1 = d /\ e = [EvDiscardBack i]) as [-> ->] by (split; congruence). repeat split; auto; apply S.
  - assert (d1 = d /\ e = [EvDiscardHead i]) as [-> ->] by (split; congruence). repeat split; auto; apply S.
Qed.

(** ** A call after the probe *)
Lemma process_tracks o q d p : dm_completed d = true -> let '(d1, _, _) := process_r o q d p in dm_tracks d1 = dm_tracks d /\ dm_map d1 = dm_map d.
Proof.
  intros C. unfold process_r. cbv zeta. destruct (idx _ _) as [l|]; [|auto]. destruct (_ <? 0); [auto|]. destruct (idx _ _) as [x|]; [|auto]. rewrite C. destruct (forward_r q _ _) as [e r]. auto.
Qed.
Lemma step_tracks o q d a : dm_completed d = true -> let '(d1, _, _) := step_r o q d a in dm_tracks d1 = dm_tracks d /\ dm_map d1 = dm_map d.
Proof.
  intros C. destruct a; cbn [step_r step]; try (cbn [plain_r]; auto; fail).
  - unfold on_new_audio_track, create_audio_track, add_track. rewrite C. destruct (tm_find_type _ _); [destruct (_ =? _)%string|]; cbn [bind plain_r]; auto;
      (destruct (_ && _); [destruct extra as [x|]; [destruct (parse_asc x)|]|]; cbn [bind plain_r]; auto).
  - unfold on_new_video_track, create_video_track, add_track. rewrite C. destruct (tm_find_type _ _); [destruct (_ =? _)%string|]; cbn [bind plain_r]; auto;
      (destruct (generate_video_codec_data _ _ _ _); cbn [bind plain_r]; auto).
  - unfold audio_r. destruct (audio_track o d buf id data) as [[d1 [s|]]| | |] eqn:E; auto; apply audio_track_after in E; auto; cbn [fst] in E; subst d1; auto. now apply process_tracks.
  - unfold video_r. destruct (video_track o d buf id data key) as [[d1 [s|]]| | |] eqn:E; auto; apply video_track_after in E; auto; cbn [fst] in E; subst d1; auto. now apply process_tracks.
  - unfold complete_r. rewrite C. auto.
  - destruct (need_more d); auto. unfold complete_r. rewrite C. auto.
  - unfold find_buffer_index. destruct (marker_index _ _ _); cbn [plain_r]; auto.
Qed.
Lemma packets_only e : existsb track_event e = false -> handler_events e = map EvPacket (delivered e).
Proof.
  induction e as [|x e IH]; intros H; [reflexivity|]. cbn [existsb] in H. apply orb_false_iff in H as [H1 H2]. specialize (IH H2). destruct x; try discriminate; cbn [handler_events filter is_handler delivered flat_map app map]; try exact IH. now f_equal.
Qed.
Lemma step_after o q d a : sound d -> dm_completed d = true -> let '(d1, e, _) := step_r o q d a in sound d1 /\ dm_completed d1 = true /\ dm_tracks d1 = dm_tracks d /\ handler_events e = map EvPacket (delivered e).
Proof.
  intros S C. pose proof (step_tracks o q d a C) as T. pose proof (step_r_after o q d a C) as A. destruct (step_r o q d a) as [[d1 e] r]. destruct T as [T M]. destruct A as [[K _] [E _]].
  split; [eapply sound_eq; eauto|]. split; [exact K|]. split; [exact T|]. now apply packets_only.
Qed.

(** ** Completing the probe *)
Lemma forward_handler q d p e r : forward_r q d p = (e, r) -> handler_events e = if dm_handler d then [EvPacket p] else [].
Proof.
  unfold forward_r, callback. destruct (dm_handler d); cbn [negb].
  - destruct (calm q); [destruct (dm_autofree d); [destruct (map_find _ _)|]|]; intros E; match type of E with (?a, _) = _ => assert (e = a) as -> by congruence end; reflexivity.
  - intros E. assert (e = []) as -> by congruence. reflexivity.
Qed.
Lemma forward_all_packets d l : forall q e r, forward_all_r q d l = (e, r) -> exists ps, handler_events e = map EvPacket ps.
Proof.
  induction l as [|p l IH]; intros q e r; cbn [forward_all_r]; [intros E; assert (e = []) as -> by congruence; now exists []|].
  destruct (forward_r q d p) as [e1 r1] eqn:F. apply forward_handler in F. assert (X : exists ps, handler_events e1 = map EvPacket ps) by (rewrite F; destruct (dm_handler d); [now exists [p]|now exists []]). destruct X as [ps X].
  destruct r1 as [u| | |]; try (intros E; assert (e = e1) as -> by congruence; now exists ps).
  destruct (forward_all_r (later q) d l) as [e2 r2] eqn:F2. apply IH in F2 as [ps2 F2]. intros E. assert (e = e1 ++ e2) as -> by congruence. exists (ps ++ ps2). now rewrite handler_events_app, X, F2, map_app.
Qed.
(** How many of the callbacks for [n] tracks are made, and what is left of the mood. *)
Lemma new_tracks_shape d ts : forall q, dm_handler d = true ->
  new_tracks_r q d ts = match q with
                        | Some j => if (j <? length ts)%nat then (map EvNewTrack (firstn (S j) ts), Some O, Panic) else (map EvNewTrack ts, Some (j - length ts)%nat, Ok tt)
                        | None => (map EvNewTrack ts, None, Ok tt)
                        end.
Proof.
  induction ts as [|s ts IH]; intros q H; cbn [new_tracks_r].
  - destruct q as [j|]; [|reflexivity]. replace (j <? length (@nil stream))%nat with false by (symmetry; apply Nat.ltb_ge; cbn; lia). cbn. now rewrite Nat.sub_0_r.
  - unfold callback. rewrite H. cbn [negb]. destruct q as [[|j]|]; cbn [calm].
    + reflexivity.
    + cbn [later]. rewrite IH by exact H. change (S j <? length (s :: ts))%nat with (j <? length ts)%nat. destruct (j <? length ts)%nat; reflexivity.
    + cbn [later]. rewrite IH by exact H. reflexivity.
Qed.
Definition announced (q : mood) (ts : list stream) (l : list event) : Prop :=
  match q with
  | Some j => if (j <? length ts)%nat then l = map EvNewTrack (firstn (S j) ts) else if (j =? length ts)%nat then l = map EvNewTrack ts ++ [EvTrackComplete] else exists ps, l = map EvNewTrack ts ++ [EvTrackComplete] ++ map EvPacket ps
  | None => exists ps, l = map EvNewTrack ts ++ [EvTrackComplete] ++ map EvPacket ps
  end.
Lemma complete_shape o q d : sound d -> dm_completed d = false -> let '(d1, e, _) := complete_r o q d in
  sound d1 /\ dm_completed d1 = true /\ dm_tracks d1 = match dm_tracks d with [] => [] | _ => prepare_tracks o (dm_packets d) (dm_tracks d) end /\
  if dm_handler d then match dm_tracks d with [] => handler_events e = [EvTrackNotFind] | _ => announced q (dm_tracks d1) (handler_events e) end else handler_events e = [].
Proof.
  intros S C. unfold complete_r. rewrite C. cbv zeta. change (dm_tracks (with_completed d)) with (dm_tracks d). destruct (dm_tracks d) as [|t0 ts0] eqn:T.
  - unfold callback. change (dm_handler (with_completed d)) with (dm_handler d). assert (sound (with_completed d)) by (eapply sound_eq; [exact S|reflexivity|reflexivity]). destruct (dm_handler d); cbn [negb]; repeat split; auto; try apply H; exact T.
  - rewrite <- T. change (dm_packets (with_completed d)) with (dm_packets d). set (ts := prepare_tracks o (dm_packets d) (dm_tracks d)). set (d2 := with_tracks (with_completed d) ts (dm_map (with_completed d))).
    assert (S2 : sound d2) by (eapply sound_same; [exact S|apply prepare_same|reflexivity]).
    assert (S3 : sound (with_packets d2 (map only_last (dm_packets d2)))) by (eapply sound_eq; [exact S2|reflexivity|reflexivity]).
    destruct (dm_handler d) eqn:Hd.
    + rewrite new_tracks_shape by exact Hd.
      assert (Tail : forall q1, match q1 with Some O => False | _ => True end -> let '(d1, e, _) :=
        (let '(e2, r2) := callback d2 q1 EvTrackComplete in match r2 with Ok _ =>
           let '(e3, r3) := forward_all_r (later q1) (with_packets d2 (map only_last (dm_packets d2))) (or_sort o (List.concat (map all_but_last (dm_packets d2)))) in (with_packets d2 (map only_last (dm_packets d2)), map EvNewTrack ts ++ e2 ++ e3, r3)
         | _ => (d2, map EvNewTrack ts ++ e2, r2) end) in
        sound d1 /\ dm_completed d1 = true /\ dm_tracks d1 = ts /\ exists ps, handler_events e = map EvNewTrack ts ++ [EvTrackComplete] ++ map EvPacket ps).
      { intros q1 Hq. unfold callback. change (dm_handler d2) with (dm_handler d). rewrite Hd. cbn [negb]. replace (calm q1) with true by (destruct q1 as [[|j]|]; [contradiction|reflexivity|reflexivity]).
        destruct (forward_all_r (later q1) _ _) as [e3 r3] eqn:F. apply forward_all_packets in F as [ps F]. split; [exact S3|]. split; [reflexivity|]. split; [reflexivity|]. exists ps. rewrite !handler_events_app, handler_new_tracks, F. reflexivity. }
      destruct q as [j|].
      * destruct (j <? length ts)%nat eqn:Lj.
        -- split; [exact S2|]. split; [reflexivity|]. split; [reflexivity|]. cbn [announced]. change (dm_tracks d2) with ts. rewrite Lj. now rewrite handler_new_tracks.
        -- destruct (j =? length ts)%nat eqn:Ej.
           ++ apply Nat.eqb_eq in Ej. subst j. rewrite Nat.sub_diag. unfold callback. change (dm_handler d2) with (dm_handler d). rewrite Hd. cbn [negb calm].
              split; [exact S2|]. split; [reflexivity|]. split; [reflexivity|]. cbn [announced]. change (dm_tracks d2) with ts. rewrite Lj, Nat.eqb_refl. now rewrite handler_events_app, handler_new_tracks.
           ++ apply Nat.ltb_ge in Lj. pose proof (proj1 (Nat.eqb_neq _ _) Ej). specialize (Tail (Some (j - length ts)%nat)). assert (Hq : match Some (j - length ts)%nat with Some O => False | _ => True end) by (destruct (j - length ts)%nat eqn:X; [lia|exact Logic.I]). specialize (Tail Hq).
              cbv iota in Tail |- *. destruct (let '(e2, r2) := callback d2 (Some (j - length ts)%nat) EvTrackComplete in _) as [[d1 e] r]. destruct Tail as (A & B & T1 & P). split; [exact A|]. split; [exact B|]. split; [exact T1|].
              cbn [announced]. rewrite T1. replace (j <? length ts)%nat with false by (symmetry; apply Nat.ltb_ge; lia). rewrite Ej. exact P.
      * specialize (Tail None Logic.I). destruct (let '(e2, r2) := callback d2 None EvTrackComplete in _) as [[d1 e] r]. destruct Tail as (A & B & T1 & P). split; [exact A|]. split; [exact B|]. split; [exact T1|]. cbn [announced]. rewrite T1. exact P.
    + assert (Ne : ts <> []) by (intros X; pose proof (prepare_same o (dm_packets d) (dm_tracks d)) as Sm; fold ts in Sm; rewrite X in Sm; inversion Sm; congruence).
      destruct ts as [|s ts1] eqn:Ets; [congruence|]. cbn [new_tracks_r]. unfold callback. change (dm_handler d2) with (dm_handler d). rewrite Hd. cbn [negb]. split; [exact S2|]. split; [reflexivity|]. split; reflexivity.
Qed.

(** ** The handler decides where the call ends *)
Lemma first_fail_opens path flt ts X : forall h k, Forall (fun s => exists m, UtilModel.media_string (st_media s) = Ok m) ts ->
  (exists j, (j < length ts)%nat /\ flt (k + j)%nat <> None /\ (forall i, (i < j)%nat -> flt (k + i)%nat = None) /\ first_fail path flt (map EvNewTrack ts ++ X) h k = Some j) \/
  ((forall i, (i < length ts)%nat -> flt (k + i)%nat = None) /\ exists h1 k1, first_fail path flt (map EvNewTrack ts ++ X) h k = option_map (fun n => (length ts + n)%nat) (first_fail path flt X h1 k1)).
Proof.
  induction ts as [|s ts IH]; intros h k F.
  - right. split; [cbn; lia|]. exists h, k. cbn [map app length Nat.add]. now destruct (first_fail path flt X h k).
  - apply Forall_cons_iff in F as [[m M] F]. cbn [map app first_fail fx_event]. unfold fx_new_track. assert (exists n, file_name path s = Ok n) as [n En] by (unfold file_name; rewrite M; cbn [bind]; eauto). rewrite En.
    destruct (flt k) as [z|] eqn:Ef.
    + left. exists O. rewrite Nat.add_0_r. repeat split; [cbn; lia|congruence|lia].
    + destruct (IH {| fh_tracks := tm_add (fh_tracks h) s; fh_files := fh_files h ++ [(n, 0)]; fh_disk := fh_disk h |} (S k) F) as [(j & Lj & Fj & Fi & E)|(Fi & h1 & k1 & E)].
      * left. exists (S j). split; [cbn; lia|]. split; [now replace (k + S j)%nat with (S k + j)%nat by lia|]. split; [|cbn [fh_tracks fh_files fh_disk] in *; now rewrite E].
        intros [|i] Li; [now rewrite Nat.add_0_r|]. replace (k + S i)%nat with (S k + i)%nat by lia. apply Fi. lia.
      * right. split; [intros [|i] Li; [now rewrite Nat.add_0_r|]; cbn [length] in Li; replace (k + S i)%nat with (S k + i)%nat by lia; apply Fi; lia|]. exists h1, k1. cbn [fh_tracks fh_files fh_disk] in *. rewrite E.
        now destruct (first_fail path flt X h1 k1).
Qed.

(** ** The shape of all callbacks *)
Definition called (flt : faults) (d : demuxer) (E : list event) : Prop :=
  if dm_completed d then
    (dm_tracks d = [] /\ exists ps, E = EvTrackNotFind :: map EvPacket ps) \/
    exists n m ps, (m <= n <= S m)%nat /\ (n <= length (dm_tracks d))%nat /\ (forall j, (j < m)%nat -> flt j = None) /\ (n = S m -> flt m <> None) /\
      (m = n -> m = length (dm_tracks d) \/ m = O) /\
      exists tc, E = map EvNewTrack (firstn n (dm_tracks d)) ++ tc ++ map EvPacket ps /\ (tc = [] \/ tc = [EvTrackComplete])
  else E = [].
Lemma called_more flt d E d1 ps : called flt d E -> dm_completed d = true -> dm_completed d1 = true -> dm_tracks d1 = dm_tracks d -> called flt d1 (E ++ map EvPacket ps).
Proof.
  unfold called. intros H C C1 T. rewrite C in H. rewrite C1, T. destruct H as [(T0 & ps0 & ->)|(n & m & ps0 & H1 & H2 & H3 & H4 & H5 & tc & -> & Tc)].
  - left. split; [exact T0|]. exists (ps0 ++ ps). now rewrite map_app.
  - right. exists n, m, (ps0 ++ ps). repeat (split; [assumption|]). exists tc. split; [|exact Tc]. now rewrite map_app, <- !app_assoc.
Qed.

Definition state_of (path : string) (flt : faults) (k0 : disk) (E : list event) (h : file_handler) (k : nat) : Prop := fst (rx_session path flt E (fh_start k0) 0) = (h, k).
Lemma state_app path flt k0 E h k e h1 k1 r : state_of path flt k0 E h k -> rx_session path flt e h k = (h1, k1, r) -> state_of path flt k0 (E ++ e) h1 k1.
Proof. unfold state_of. intros S R. rewrite rx_app. destruct (rx_session path flt E (fh_start k0) 0) as [[h0 k00] r0]. cbn [fst] in S. injection S as -> ->. rewrite R. reflexivity. Qed.

Lemma step_called path flt k0 d h k o a E : sound d -> called flt d E -> state_of path flt k0 E h k ->
  let '((d1, h1, k1), e, _) := rec_step_r path flt (d, h, k) o a in sound d1 /\ called flt d1 (E ++ handler_events e) /\ state_of path flt k0 (E ++ handler_events e) h1 k1.
Proof.
  intros Sd Cl St. unfold rec_step_r. cbv zeta. set (q := first_fail path flt (handler_events (snd (fst (step_r o None d a)))) h k).
  assert (Core : let '(d1, e, _) := step_r o q d a in sound d1 /\ called flt d1 (E ++ handler_events e)).
  { destruct (dm_completed d) eqn:C.
    - pose proof (step_after o q d a Sd C) as A. destruct (step_r o q d a) as [[d1 e] r]. destruct A as (A1 & A2 & A3 & A4). split; [exact A1|]. rewrite A4. eapply called_more; eauto.
    - assert (E = []) as -> by (unfold called in Cl; rewrite C in Cl; exact Cl). cbn [app]. destruct (step_before o d a Sd C) as [(d1 & e & r & Eq & He & C1 & S1)|(d2 & pre & S2 & C2 & Hp & Eq)].
      + rewrite (Eq q). split; [exact S1|]. unfold called. rewrite C1. exact He.
      + assert (h = fh_start k0 /\ k = 0%nat) as [-> ->] by (unfold state_of in St; cbn in St; split; congruence).
        rewrite (Eq q). pose proof (complete_shape o q d2 S2 C2) as P. pose proof (complete_shape o None d2 S2 C2) as P0. unfold q in *. clear q. rewrite (Eq None) in *. destruct (complete_r o None d2) as [[d0 e0] r0]. cbn [fst snd] in *.
        rewrite handler_events_app, Hp in *. cbn [app] in *. set (q := first_fail path flt (handler_events e0) (fh_start k0) 0) in *.
        destruct (complete_r o q d2) as [[d1 e] r]. rewrite handler_events_app, Hp. cbn [app]. destruct P as (P1 & P2 & P3 & P4), P0 as (Q1 & Q2 & Q3 & Q4). split; [exact P1|]. unfold called. rewrite P2.
        assert (Et : dm_tracks d1 = dm_tracks d0) by congruence.
        destruct (dm_handler d2).
        * destruct (dm_tracks d2) as [|t0 ts0].
          -- left. split; [exact P3|]. exists []. exact P4.
          -- cbn [announced] in Q4. destruct Q4 as [ps Q4]. right.
             assert (M : Forall (fun s => exists m, UtilModel.media_string (st_media s) = Ok m) (dm_tracks d0)) by (eapply Forall_impl; [|apply Q1]; intros s X; now apply av_media).
             destruct (first_fail_opens path flt (dm_tracks d0) ([EvTrackComplete] ++ map EvPacket ps) (fh_start k0) 0 M) as [(j & Lj & Fj & Fi & Ef)|(Fi & h1 & k1 & Ef)]; rewrite <- Q4 in Ef; fold q in Ef; rewrite Ef in P4; cbn [Nat.add] in *.
             ++ cbn [announced] in P4. rewrite Et in P4. rewrite (proj2 (Nat.ltb_lt _ _) Lj) in P4. exists (S j), j, []. split; [lia|]. split; [rewrite Et; lia|]. split; [exact Fi|]. split; [auto|]. split; [lia|]. exists []. split; [|auto]. rewrite P4, Et. cbn [map app]. now rewrite app_nil_r.
             ++ assert (X : exists ps, handler_events e = map EvNewTrack (dm_tracks d0) ++ [EvTrackComplete] ++ map EvPacket ps).
                { rewrite Et in P4. cbn [app first_fail fx_event fx_of] in P4. destruct (first_fail path flt (map EvPacket ps) h1 k1) as [i|]; cbn [option_map announced] in P4; [|exact P4].
                  replace (length (dm_tracks d0) + S i <? length (dm_tracks d0))%nat with false in P4 by (symmetry; apply Nat.ltb_ge; lia). replace (length (dm_tracks d0) + S i =? length (dm_tracks d0))%nat with false in P4 by (symmetry; apply Nat.eqb_neq; lia). exact P4. }
                destruct X as [ps1 X]. exists (length (dm_tracks d0)), (length (dm_tracks d0)), ps1. split; [lia|]. split; [rewrite Et; lia|]. split; [exact Fi|]. split; [lia|]. split; [rewrite Et; auto|]. exists [EvTrackComplete]. split; [|auto]. now rewrite X, Et, firstn_all.
        * right. exists O, O, []. split; [lia|]. split; [lia|]. split; [lia|]. split; [lia|]. split; [auto|]. exists []. split; [exact P4|auto]. }
  destruct (step_r o q d a) as [[d1 e] r]. destruct (rx_session path flt (handler_events e) h k) as [[h1 k1] rs] eqn:R. destruct Core as [A B]. split; [exact A|]. split; [exact B|]. eapply state_app; eauto.
Qed.
Lemma run_called path flt k0 l : forall d h k E, sound d -> called flt d E -> state_of path flt k0 E h k ->
  let '((d1, h1, k1), log) := rec_run_r path flt (d, h, k) l in sound d1 /\ called flt d1 (E ++ handler_events (events_of log)) /\ state_of path flt k0 (E ++ handler_events (events_of log)) h1 k1.
Proof.
  induction l as [|[o a] l IH]; intros d h k E Sd C St; cbn [rec_run_r]; [cbn; rewrite app_nil_r; auto|].
  pose proof (step_called path flt k0 d h k o a E Sd C St) as P. destruct (rec_step_r path flt (d, h, k) o a) as [[[[d1 h1] k1] e] r]. destruct P as (S1 & C1 & St1).
  specialize (IH d1 h1 k1 _ S1 C1 St1). destruct (rec_run_r path flt (d1, h1, k1) l) as [[[d2 h2] k2] es]. unfold events_of in *. cbn [map List.concat fst snd]. rewrite handler_events_app, app_assoc. exact IH.
Qed.

(** ** A call ends at its first failing callback *)
Definition ends_at (q : mood) (e0 : list event) (r0 : res unit) (e : list event) (r : res unit) : Prop :=
  match q with
  | Some n => if (n <? length (handler_events e0))%nat then handler_events e = firstn (S n) (handler_events e0) /\ r = Panic else e = e0 /\ r = r0
  | None => e = e0 /\ r = r0
  end.
Lemma ends_none e r : ends_at None e r e r.
Proof. now split. Qed.
Lemma ends_quiet q e r : handler_events e = [] -> ends_at q e r e r.
Proof. intros H. unfold ends_at. destruct q as [n|]; [|now split]. rewrite H. replace (n <? length (@nil event))%nat with false by (symmetry; apply Nat.ltb_ge; cbn; lia). now split. Qed.
Lemma forward_ends q d p : let '(e, r) := forward_r q d p in let '(e0, r0) := forward_r None d p in ends_at q e0 r0 e r.
Proof.
  unfold forward_r, callback. destruct (dm_handler d); cbn [negb calm].
  - destruct q as [[|n]|]; cbn [calm]; destruct (dm_autofree d); [destruct (map_find _ _)| |destruct (map_find _ _)| |destruct (map_find _ _)|]; cbn; auto.
  - now apply ends_quiet.
Qed.
Lemma forward_all_ends d l : forall q, let '(e, r) := forward_all_r q d l in let '(e0, r0) := forward_all_r None d l in ends_at q e0 r0 e r.
Proof.
  induction l as [|p l IH]; intros q; cbn [forward_all_r]; [now apply ends_quiet|]. pose proof (forward_ends q d p) as F. destruct (forward_r q d p) as [e1 r1] eqn:E1. destruct (forward_r None d p) as [e10 r10] eqn:E10.
  pose proof (forward_handler _ _ _ _ _ E10) as H0. cbn [later]. specialize (IH (later q)). destruct (forward_all_r (later q) d l) as [e2 r2]. destruct (forward_all_r None d l) as [e20 r20].
  destruct q as [n|].
  - cbn [ends_at] in F. rewrite H0 in F. destruct (dm_handler d) eqn:Hd.
    + destruct n as [|n]; cbn [length Nat.ltb Nat.leb] in F.
      * destruct F as [F ->]. cbn [ends_at]. assert (X : handler_events e1 = [EvPacket p]) by exact F. destruct r10 as [u| | |].
        -- rewrite handler_events_app, H0. cbn [app length Nat.ltb Nat.leb firstn]. now split.
        -- rewrite H0. now split.
        -- rewrite H0. now split.
        -- rewrite H0. now split.
      * destruct F as [-> ->]. destruct r10 as [u| | |]; try (cbn [ends_at]; rewrite H0; now split). cbn [later ends_at] in IH |- *. rewrite !handler_events_app, H0. cbn [app length]. change (S n <? S (length (handler_events e20)))%nat with (n <? length (handler_events e20))%nat.
        destruct (n <? length (handler_events e20))%nat; destruct IH as [IH ->]; [|subst; now split]. rewrite IH. now split.
    + cbn [length] in F. replace (n <? 0)%nat with false in F by (symmetry; apply Nat.ltb_ge; lia). destruct F as [-> ->]. unfold forward_r, callback in E10. rewrite Hd in E10. cbn [negb] in E10. assert (r10 = Panic /\ e10 = []) as [-> ->] by (split; congruence). now apply ends_quiet.
  - destruct F as [-> ->]. cbn [later ends_at] in IH. destruct IH as [-> ->]. apply ends_none || (destruct r10; apply ends_none).
Qed.
Lemma ends_behind a q e0 r0 e r : ends_at q e0 r0 e r -> ends_at (match q with Some n => Some (length (handler_events a) + n)%nat | None => None end) (a ++ e0) r0 (a ++ e) r.
Proof.
  destruct q as [n|]; cbn [ends_at]; [|intros [-> ->]; now split]. rewrite !handler_events_app, app_length. set (L := length (handler_events a)).
  assert (X : (L + n <? L + length (handler_events e0))%nat = (n <? length (handler_events e0))%nat) by (destruct (n <? length (handler_events e0))%nat eqn:Y; [apply Nat.ltb_lt in Y; apply Nat.ltb_lt|apply Nat.ltb_ge in Y; apply Nat.ltb_ge]; lia).
  rewrite X. destruct (n <? length (handler_events e0))%nat; intros [E ->]; [|subst; now split]. split; [|reflexivity]. rewrite E. rewrite firstn_app. fold L. rewrite (firstn_all2 (handler_events a)) by (fold L; lia). f_equal. f_equal. lia.
Qed.
Lemma complete_ends o q d : let '(_, e, r) := complete_r o q d in let '(_, e0, r0) := complete_r o None d in ends_at q e0 r0 e r.
Proof.
  unfold complete_r. destruct (dm_completed d); [now apply ends_quiet|]. cbv zeta. destruct (dm_tracks (with_completed d)) as [|t0 ts0] eqn:T.
  - unfold callback. destruct (dm_handler _); cbn [negb]; [|now apply ends_quiet]. destruct q as [[|n]|]; cbn; now split.
  - rewrite <- T. set (ts := prepare_tracks o _ _). set (d2 := with_tracks (with_completed d) ts _). set (d3 := with_packets d2 _). set (L := or_sort o _). destruct (dm_handler d2) eqn:Hd.
    + rewrite !new_tracks_shape by exact Hd.
      assert (Body : forall q1, let '(_, e, r) := (let '(e2, r2) := callback d2 q1 EvTrackComplete in match r2 with Ok _ => let '(e3, r3) := forward_all_r (later q1) d3 L in (d3, e2 ++ e3, r3) | _ => (d2, e2, r2) end) in
                         let '(e30, r30) := forward_all_r None d3 L in ends_at q1 (EvTrackComplete :: e30) r30 e r).
      { intros q1. unfold callback. rewrite Hd. cbn [negb]. pose proof (forward_all_ends d3 L (later q1)) as F. destruct q1 as [[|n]|]; cbn [calm later] in *.
        - destruct (forward_all_r None d3 L) as [e30 r30]. cbn. now split.
        - destruct (forward_all_r (Some n) d3 L) as [e3 r3]. destruct (forward_all_r None d3 L) as [e30 r30]. apply (ends_behind [EvTrackComplete]) in F. exact F.
        - destruct (forward_all_r None d3 L) as [e3 r3]. apply ends_none. }
      assert (E0 : (let '(e2, r2) := callback d2 None EvTrackComplete in match r2 with Ok _ => let '(e3, r3) := forward_all_r (later None) d3 L in (d3, map EvNewTrack ts ++ e2 ++ e3, r3) | _ => (d2, map EvNewTrack ts ++ e2, r2) end)
               = (let '(e30, r30) := forward_all_r None d3 L in (d3, map EvNewTrack ts ++ EvTrackComplete :: e30, r30))) by (unfold callback; rewrite Hd; reflexivity).
      unfold reply. rewrite E0. destruct q as [j|].
      * destruct (j <? length ts)%nat eqn:Lj.
        -- destruct (forward_all_r None d3 L) as [e30 r30]. cbn [ends_at]. rewrite handler_events_app, handler_new_tracks, app_length, map_length. apply Nat.ltb_lt in Lj. replace (j <? length ts + length (handler_events (EvTrackComplete :: e30)))%nat with true by (symmetry; apply Nat.ltb_lt; lia).
           split; [|reflexivity]. rewrite handler_new_tracks, firstn_app, map_length. replace (S j - length ts)%nat with 0%nat by lia. now rewrite firstn_O, app_nil_r, firstn_map.
        -- apply Nat.ltb_ge in Lj. specialize (Body (Some (j - length ts)%nat)). destruct (callback d2 (Some (j - length ts)%nat) EvTrackComplete) as [e2 r2]. destruct (forward_all_r None d3 L) as [e30 r30].
           assert (G : forall e r, ends_at (Some (j - length ts)%nat) (EvTrackComplete :: e30) r30 e r -> ends_at (Some j) (map EvNewTrack ts ++ EvTrackComplete :: e30) r30 (map EvNewTrack ts ++ e) r).
           { intros e r X. apply (ends_behind (map EvNewTrack ts)) in X. rewrite handler_new_tracks, map_length in X. now replace (length ts + (j - length ts))%nat with j in X by lia. }
           destruct r2 as [u| | |]; try (apply G; exact Body). destruct (forward_all_r (later (Some (j - length ts)%nat)) d3 L) as [e3 r3]. apply G. exact Body.
      * rewrite E0. destruct (forward_all_r None d3 L) as [e30 r30]. apply ends_none.
    + assert (Ne : ts <> []) by (intros X; pose proof (prepare_same o (dm_packets (with_completed d)) (dm_tracks (with_completed d))) as Sm; fold ts in Sm; rewrite X, T in Sm; inversion Sm).
      clearbody d3 L. unfold d2 in *. destruct ts as [|s ts1]; [congruence|]. cbn [new_tracks_r]. unfold callback. rewrite Hd. cbn [negb]. now apply ends_quiet.
Qed.
Lemma process_ends o q d p : let '(_, e, r) := process_r o q d p in let '(_, e0, r0) := process_r o None d p in ends_at q e0 r0 e r.
Proof.
  unfold process_r. cbv zeta. destruct (idx _ _) as [l|]; [|now apply ends_quiet]. destruct (_ <? 0); [now apply ends_quiet|]. destruct (idx _ _) as [x|]; [|now apply ends_quiet]. destruct (dm_completed d).
  - match goal with |- context [forward_r q ?D ?X] => pose proof (forward_ends q D X) as F; destruct (forward_r q D X) as [e r]; destruct (forward_r None D X) as [e0 r0] end.
    apply (ends_behind [EvAdd p (zlen (dm_packets d))]) in F. destruct q; exact F.
  - destruct (_ <=? _); [|now apply ends_quiet].
    match goal with |- context [complete_r o q ?D] => pose proof (complete_ends o q D) as F; destruct (complete_r o q D) as [[d1 e] r]; destruct (complete_r o None D) as [[d10 e0] r0] end.
    apply (ends_behind [EvAdd p (zlen (dm_packets d))]) in F. destruct q; exact F.
Qed.
Lemma plain_handler o d a : rewires a = false -> match a with OpAudio _ _ _ _ | OpVideo _ _ _ _ _ _ | OpProbeComplete | OpTryComplete => False | _ => True end -> let '(_, e, _) := plain_r d (step o d a) in handler_events e = [].
Proof.
  intros _ H. destruct a; try contradiction; cbn [step]; try reflexivity.
  - destruct (on_new_audio_track d buf id timebase extra config) as [[d1 e]| | |] eqn:E; cbn [plain_r]; auto. eapply new_audio_events; eauto.
  - destruct (on_new_video_track o d buf id timebase extra) as [[d1 e]| | |] eqn:E; cbn [plain_r]; auto. eapply new_video_events; eauto.
  - destruct (find_buffer_index d marker) as [d1 i]. reflexivity.
Qed.
Lemma step_ends o q d a : let '(_, e, r) := step_r o q d a in let '(_, e0, r0) := step_r o None d a in ends_at q e0 r0 e r.
Proof.
  destruct a; cbn [step_r]; try (apply ends_quiet; reflexivity).
  - pose proof (plain_handler o d (OpNewAudio buf id timebase extra config) eq_refl Logic.I) as P. destruct (plain_r d _) as [[d1 e] r]. now apply ends_quiet.
  - pose proof (plain_handler o d (OpNewVideo buf id timebase extra) eq_refl Logic.I) as P. destruct (plain_r d _) as [[d1 e] r]. now apply ends_quiet.
  - unfold audio_r. destruct (audio_track o d buf id data) as [[d1 [s|]]| | |]; try (now apply ends_quiet). apply process_ends.
  - unfold video_r. destruct (video_track o d buf id data key) as [[d1 [s|]]| | |]; try (now apply ends_quiet). apply process_ends.
  - apply complete_ends.
  - destruct (need_more d); [now apply ends_quiet|]. apply complete_ends.
  - pose proof (plain_handler o d (OpFindIndex marker) eq_refl Logic.I) as P. destruct (plain_r d _) as [[d1 e] r]. now apply ends_quiet.
Qed.
(** What the handler did in this call. *)
Lemma first_fail_run path flt l : forall h k, let q := first_fail path flt l h k in
  match q with
  | None => Forall (fun r => r = Ok tt) (snd (rx_session path flt l h k))
  | Some n => (n < length l)%nat /\ exists rs r, snd (rx_session path flt (firstn (S n) l) h k) = rs ++ [r] /\ Forall (fun r => r = Ok tt) rs /\ r <> Ok tt
  end.
Proof.
  induction l as [|e l IH]; intros h k; cbn [first_fail]; [constructor|]. cbn [rx_session]. destruct (fx_event path flt e h k) as [[h1 k1] r] eqn:Ee. specialize (IH h1 k1). cbv zeta in IH |- *.
  destruct r as [[]| | |].
  - destruct (first_fail path flt l h1 k1) as [n|]; cbn [option_map].
    + destruct IH as (L & rs & r & E & F & N). split; [cbn; lia|]. cbn [firstn rx_session]. rewrite Ee. change (firstn (S n) l) with (firstn (S n) l) in E. destruct (rx_session path flt (firstn (S n) l) h1 k1) as [[h2 k2] rs2] eqn:E2.
      cbn [snd] in E. subst rs2. exists (Ok tt :: rs), r. split; [|split; [now constructor|exact N]]. destruct l as [|x l]; [cbn in L; lia|]. cbn [firstn] in E2 |- *. rewrite E2. reflexivity.
    + destruct (rx_session path flt l h1 k1) as [[h2 k2] rs2]. cbn [snd] in *. now constructor.
  - split; [cbn; lia|]. exists [], Err. cbn [firstn rx_session]. rewrite Ee. cbn. repeat split; [constructor|discriminate].
  - split; [cbn; lia|]. exists [], Panic. cbn [firstn rx_session]. rewrite Ee. cbn. repeat split; [constructor|discriminate].
  - split; [cbn; lia|]. exists [], NoFuel. cbn [firstn rx_session]. rewrite Ee. cbn. repeat split; [constructor|discriminate].
Qed.

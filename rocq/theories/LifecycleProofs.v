(** * LifecycleProofs: the same call with and without a handler. *)
From Verif Require Import Base NaluModel RecordModel AacModel FloatModel PacketModel DemuxModel DemuxProofs.
From Coq Require Import String List.
Import ListNotations.
Local Open Scope list_scope.

(** What a call does without a handler, from what it does with one. *)
Definition muted (r : res (demuxer * list event)) : res (demuxer * list event) :=
  match r with
  | Ok (d, e) => match handler_events e with [] => Ok (with_handler d false, e) | _ => Panic end
  | r => r
  end.

Lemma with_handler_self d : dm_handler d = false -> with_handler d false = d.
Proof. destruct d. cbn. now intros ->. Qed.
Lemma with_handler_twice d b c : with_handler (with_handler d b) c = with_handler d c.
Proof. reflexivity. Qed.

Lemma forward_mute d p : forward_packet (with_handler d false) p = Panic /\
  (forward_packet (with_handler d true) p = Panic \/ exists e, forward_packet (with_handler d true) p = Ok (EvPacket p :: e)).
Proof.
  unfold forward_packet. cbn [dm_handler with_handler negb dm_autofree dm_map]. split; [reflexivity|]. destruct (dm_autofree d); [|right; eexists; reflexivity].
  destruct (map_find _ _); [right; eexists; reflexivity|now left].
Qed.
Lemma forward_all_mute d l e : forward_all (with_handler d true) l = Ok e -> l <> [] -> handler_events e <> [].
Proof.
  destruct l as [|p l]; [congruence|]. intros E _. cbn [forward_all] in E. destruct (forward_mute d p) as [_ [F|(e1 & F)]]; rewrite F in E; [discriminate|]. cbn [bind] in E.
  destruct (forward_all _ l) as [e2| | |]; cbn [bind] in E; try discriminate. injection E as <-. discriminate.
Qed.
Lemma forward_all_noerr d l : match forward_all d l with Ok _ | Panic => True | _ => False end.
Proof.
  induction l as [|p l IH]; cbn [forward_all]; [exact Logic.I|]. unfold forward_packet at 1. destruct (negb _); [exact Logic.I|]. destruct (dm_autofree d).
  - destruct (map_find _ _); cbn [bind]; [|exact Logic.I]. destruct (forward_all d l); cbn [bind]; auto.
  - cbn [bind]. destruct (forward_all d l); cbn [bind]; auto.
Qed.

Lemma complete_mute o d : on_probe_complete o (with_handler d false) = muted (on_probe_complete o (with_handler d true)).
Proof.
  unfold on_probe_complete, with_completed, with_tracks, with_packets. cbn [with_handler dm_completed dm_tracks dm_handler dm_packets negb].
  destruct (dm_completed d); [reflexivity|]. destruct (dm_tracks d) as [|s t]; [reflexivity|].
  match goal with |- context [forward_all ?a ?b] => pose proof (forward_all_noerr a b) as N; destruct (forward_all a b) as [e| | |] end; cbn [bind muted]; try contradiction; [|reflexivity].
  rewrite !handler_events_app. cbn [handler_events filter is_handler]. now destruct (handler_events (map _ _)).
Qed.
Lemma muted_cons a r : is_handler a = false -> muted ('(d2, e) <- r;; Ok (d2, a :: e)) = ('(d2, e) <- muted r;; Ok (d2, a :: e)).
Proof.
  intros A. destruct r as [[d e]| | |]; cbn [bind muted]; try reflexivity. unfold handler_events. cbn [filter]. rewrite A. fold (handler_events e). now destruct (handler_events e).
Qed.
Lemma process_mute o d p : process_buffered_packet o (with_handler d false) p = muted (process_buffered_packet o (with_handler d true) p).
Proof.
  unfold process_buffered_packet. cbn [with_handler dm_packets dm_completed]. set (n := zlen (dm_packets d)). set (ps0 := if _ <? n then _ else _). set (k := if _ <? n then _ else n). clearbody ps0 k n.
  destruct (idx ps0 k) as [l|]; cbn [of_opt bind muted]; [|reflexivity]. cbv zeta. destruct (zlen (l ++ [p]) - 2 <? 0).
  { destruct (upd ps0 k (l ++ [p])); reflexivity. }
  destruct (idx (l ++ [p]) (zlen (l ++ [p]) - 2)) as [q|]; cbn [of_opt bind muted]; [|reflexivity].
  destruct (upd (l ++ [p]) _ _) as [l2|]; cbn [of_opt bind muted]; [|reflexivity]. destruct (dm_completed d).
  - destruct (upd ps0 k _) as [ps|]; cbn [of_opt bind muted]; [|reflexivity].
    change (with_packets (with_handler d false) ps) with (with_handler (with_packets d ps) false). change (with_packets (with_handler d true) ps) with (with_handler (with_packets d ps) true).
    match goal with |- context [forward_packet (with_handler ?a false) ?b] => destruct (forward_mute a b) as [F0 F1] end. rewrite F0. destruct F1 as [F1|(e & F1)]; rewrite F1; reflexivity.
  - destruct (upd ps0 k l2) as [ps|]; cbn [of_opt bind muted]; [|reflexivity].
    change (with_packets (with_handler d false) ps) with (with_handler (with_packets d ps) false). change (with_packets (with_handler d true) ps) with (with_handler (with_packets d ps) true). cbn [dm_probe with_handler with_packets].
    destruct (_ <=? total_ms _ _); [|reflexivity]. change (mkDm (dm_tracks d) ?b _ _ _ _ _ _ _ _) with (with_handler (with_packets d ps) b). rewrite complete_mute. now rewrite muted_cons.
Qed.

(** Tracks do not depend on the handler. *)
Definition rehandle {A} (b : bool) (r : res (demuxer * A)) : res (demuxer * A) := '(d, t) <- r;; Ok (with_handler d b, t).
Lemma create_audio_mute d b buf id tb extra c : create_audio_track (with_handler d b) buf id tb extra c = rehandle b (create_audio_track d buf id tb extra c).
Proof.
  unfold create_audio_track, add_track, rehandle. cbn [with_handler dm_tracks dm_completed dm_map]. destruct (_ && _); [destruct extra as [x|]; [destruct (parse_asc x)|]|]; cbn [bind]; try reflexivity; now destruct (dm_completed d).
Qed.
Lemma create_video_mute o d b buf id tb extra : create_video_track o (with_handler d b) buf id tb extra = rehandle b (create_video_track o d buf id tb extra).
Proof.
  unfold create_video_track, add_track, rehandle. cbn [with_handler dm_tracks dm_completed dm_map dm_name]. destruct (generate_video_codec_data _ _ _ _); cbn [bind]; try reflexivity; now destruct (dm_completed d).
Qed.

Definition handler_op (a : op) : bool := match a with OpSetHandler => true | _ => false end.
Lemma step_mute o d a : handler_op a = false -> step o (with_handler d false) a = muted (step o (with_handler d true) a).
Proof.
  intros A. destruct a; cbn [handler_op] in A; try discriminate; cbn [step].
  - unfold on_new_audio_track. rewrite !create_audio_mute. cbn [with_handler dm_tracks dm_name]. destruct (tm_find_type _ _); [destruct (_ =? _)%string|];
      try (destruct (create_audio_track d buf id timebase extra config) as [[? ?]| | |]); cbn [rehandle bind muted]; try reflexivity; unfold discard_if; destruct (_ <? _); reflexivity.
  - unfold on_new_video_track. rewrite !create_video_mute. cbn [with_handler dm_tracks dm_name]. destruct (tm_find_type _ _); [destruct (_ =? _)%string|];
      try (destruct (create_video_track o d buf id timebase extra) as [[? ?]| | |]); cbn [rehandle bind muted]; try reflexivity; unfold discard_if; destruct (_ <? _); reflexivity.
  - unfold on_audio_packet. change (find_track o (with_handler d ?b)) with (find_track o d). destruct (find_track o d buf) as [t| | |]; cbn [bind]; try reflexivity. cbn [with_handler dm_completed dm_name].
    change (mkDm (dm_tracks d) ?b _ _ _ _ _ _ _ _) with (with_handler d b).
    destruct t as [s|]; [cbn [bind]; apply process_mute|]. destruct (dm_completed d); [reflexivity|]. destruct (extract_audio_extra_data id data) as [[[x y] c]| | |]; cbn [bind]; try reflexivity.
    destruct (get_timebase (dm_name d)) as [tb| | |]; cbn [bind]; try reflexivity. rewrite !create_audio_mute.
    destruct (create_audio_track d buf id tb x c) as [[d1 [s|]]| | |]; cbn [rehandle bind]; try reflexivity. apply process_mute.
  - unfold on_video_packet. change (find_track o (with_handler d ?b)) with (find_track o d). destruct (find_track o d buf) as [t| | |]; cbn [bind]; try reflexivity. cbn [with_handler dm_completed dm_name dm_tracks].
    change (mkDm (dm_tracks d) ?b _ _ _ _ _ _ _ _) with (with_handler d b).
    assert (P : forall d1 s, process_buffered_packet o (with_handler d1 false) (let p := set_buffer (init_video (pool_packet o) data dts pts key (get_pack_type (dm_name (with_handler d1 false))) id (st_index s) (st_timebase s)) buf in match dm_pre (with_handler d1 false) with Some f => f p | None => p end) =
      muted (process_buffered_packet o (with_handler d1 true) (let p := set_buffer (init_video (pool_packet o) data dts pts key (get_pack_type (dm_name (with_handler d1 true))) id (st_index s) (st_timebase s)) buf in match dm_pre (with_handler d1 true) with Some f => f p | None => p end))) by (intros; apply process_mute).
    destruct t as [s|]; [cbn [bind]; apply P|]. destruct (_ && _); [|reflexivity].
    match goal with |- context [bind (if key then ?a else ?b) _] => destruct (if key then a else b) as [x| | |]; cbn [bind]; try reflexivity end.
    set (E1 := match x with Some e => Ok (Some e) | None => _ end). destruct E1 as [y| | |]; cbn [bind]; try reflexivity.
    destruct y as [y|]; cbn [bind]; [|reflexivity].
    destruct (get_timebase (dm_name d)) as [tb| | |]; cbn [bind]; try reflexivity. rewrite !create_video_mute.
    destruct (create_video_track o d buf id tb y) as [[d1 [s|]]| | |]; cbn [rehandle bind]; try reflexivity. apply P.
  - apply complete_mute.
  - unfold try_complete_probe. change (need_more (with_handler d ?b)) with (need_more d). destruct (need_more d); [reflexivity|apply complete_mute].
  - reflexivity.
  - reflexivity.
  - reflexivity.
  - reflexivity.
  - unfold find_buffer_index. cbn [with_handler dm_ordered]. destruct (marker_index _ _ _); reflexivity.
  - reflexivity.
  - reflexivity.
Qed.

(** No call of the demuxer returns an error. *)
Definition noerr {A} (r : res A) : Prop := r <> Err.
Lemma noerr_bind {A B} (r : res A) (f : A -> res B) : noerr r -> (forall a, noerr (f a)) -> noerr (bind r f).
Proof. destruct r; cbn [bind]; auto; unfold noerr; congruence. Qed.
Lemma noerr_opt {A} (x : option A) : noerr (of_opt x).
Proof. destruct x; unfold noerr; discriminate. Qed.
Lemma noerr_ok {A} (x : A) : noerr (Ok x).
Proof. unfold noerr. discriminate. Qed.
Lemma noerr_panic {A} : noerr (@Panic A).
Proof. unfold noerr. discriminate. Qed.
Lemma noerr_nofuel {A} : noerr (@NoFuel A).
Proof. unfold noerr. discriminate. Qed.
Create HintDb noerr.
#[export] Hint Resolve noerr_bind noerr_opt noerr_ok noerr_panic noerr_nofuel : noerr.
Lemma forward_packet_noerr d p : noerr (forward_packet d p).
Proof. unfold forward_packet. destruct (negb _); auto with noerr. destruct (dm_autofree d); auto with noerr. destruct (map_find _ _); auto with noerr. Qed.
Lemma complete_noerr o d : noerr (on_probe_complete o d).
Proof.
  unfold on_probe_complete. destruct (dm_completed d); auto with noerr. cbv zeta. destruct (dm_tracks _); [destruct (dm_handler _); auto with noerr|]. destruct (negb _); auto with noerr.
  apply noerr_bind; auto with noerr. match goal with |- context [forward_all ?a ?b] => pose proof (forward_all_noerr a b) as N; destruct (forward_all a b); unfold noerr; try discriminate; contradiction end.
Qed.
Lemma process_noerr o d p : noerr (process_buffered_packet o d p).
Proof.
  unfold process_buffered_packet. cbv zeta. apply noerr_bind; auto with noerr. intros l. destruct (_ <? 0); [auto with noerr|]. apply noerr_bind; auto with noerr. intros q. apply noerr_bind; auto with noerr. intros l2.
  destruct (dm_completed d); apply noerr_bind; auto with noerr; intros ps; [apply noerr_bind; auto using forward_packet_noerr with noerr|].
  destruct (_ <=? _); auto with noerr. apply noerr_bind; auto using complete_noerr with noerr. intros [? ?]. auto with noerr.
Qed.
Lemma create_audio_noerr d buf id tb extra c : noerr (create_audio_track d buf id tb extra c).
Proof. unfold create_audio_track. cbv zeta. destruct (_ && _); auto with noerr. destruct extra as [x|]; auto with noerr. destruct (parse_asc x); auto with noerr. Qed.
Lemma create_video_noerr o d buf id tb extra : noerr (create_video_track o d buf id tb extra).
Proof. unfold create_video_track. destruct (generate_video_codec_data _ _ _ _); auto with noerr. Qed.
Lemma find_track_noerr o d buf : noerr (find_track o d buf).
Proof. unfold find_track, tm_get. cbv zeta. destruct (nth_error _ _) as [[i b]|]; auto with noerr. Qed.
Lemma get_timebase_noerr n : noerr (get_timebase n).
Proof. unfold get_timebase. destruct (_ || _); [|destruct (_ || _)]; auto with noerr. Qed.
Lemma step_noerr o d a : noerr (step o d a).
Proof.
  destruct a; cbn [step]; auto with noerr.
  - unfold on_new_audio_track. apply noerr_bind; [|intros [? ?]; auto with noerr]. destruct (tm_find_type _ _); [destruct (_ =? _)%string|]; auto using create_audio_noerr with noerr.
  - unfold on_new_video_track. apply noerr_bind; [|intros [? ?]; auto with noerr]. destruct (tm_find_type _ _); [destruct (_ =? _)%string|]; auto using create_video_noerr with noerr.
  - unfold on_audio_packet. apply noerr_bind; [apply find_track_noerr|]. intros t. apply noerr_bind; [|intros [d1 [s|]]; auto using process_noerr with noerr].
    destruct t; auto with noerr. destruct (dm_completed d); auto with noerr. destruct (extract_audio_extra_data id data) as [[[x y] c]| | |]; auto with noerr. apply noerr_bind; auto using get_timebase_noerr, create_audio_noerr.
  - unfold on_video_packet. apply noerr_bind; [apply find_track_noerr|]. intros t. apply noerr_bind; [|intros [d1 [s|]]; cbv zeta; auto using process_noerr with noerr].
    destruct t; auto with noerr. destruct (_ && _); auto with noerr. apply noerr_bind; [destruct key; [destruct (extract_video_extra_data id data)|]; auto with noerr|]. intros x.
    apply noerr_bind; [destruct x; auto with noerr; destruct (tm_find _ _); unfold tm_get; auto with noerr|]. intros [y|]; auto with noerr. apply noerr_bind; auto using get_timebase_noerr, create_video_noerr.
  - apply complete_noerr.
  - unfold try_complete_probe. destruct (need_more d); auto using complete_noerr with noerr.
  - unfold find_buffer_index. destruct (marker_index _ _ _); auto with noerr.
Qed.

(** Without AutoFree a call releases nothing from the head of a buffer. *)
Definition keeps (r : res (demuxer * list event)) : Prop :=
  match r with Ok (d, e) => dm_autofree d = false /\ forall b, ~ In (EvDiscardHead b) e | _ => True end.
Definition head_op (a : op) : bool := match a with OpSetAutoFree b => b | OpDiscardHead _ => true | _ => false end.
Lemma keeps_ok d e : dm_autofree d = false -> (forall b, ~ In (EvDiscardHead b) e) -> keeps (Ok (d, e)).
Proof. cbn. auto. Qed.
Lemma keeps_one d x : dm_autofree d = false -> (forall b, x <> EvDiscardHead b) -> keeps (Ok (d, [x])).
Proof. intros A N. apply keeps_ok; [exact A|]. intros b [E|[]]. now apply (N b). Qed.
Lemma keeps_nil d : dm_autofree d = false -> keeps (Ok (d, [])).
Proof. intros A. apply keeps_ok; auto. Qed.
Lemma forward_keeps d p e : dm_autofree d = false -> forward_packet d p = Ok e -> forall b, ~ In (EvDiscardHead b) e.
Proof. unfold forward_packet. intros ->. destruct (negb _); intros [= <-] b [E|[]]. discriminate. Qed.
Lemma forward_all_keeps d l : dm_autofree d = false -> forall e, forward_all d l = Ok e -> forall b, ~ In (EvDiscardHead b) e.
Proof.
  intros A. induction l as [|p l IH]; cbn [forward_all]; intros e; [intros [= <-] b []|]. destruct (forward_packet d p) as [e1| | |] eqn:F; cbn [bind]; try discriminate.
  destruct (forward_all d l) as [e2| | |]; cbn [bind]; try discriminate. intros [= <-] b I. apply in_app_or in I as [I|I]; [eapply forward_keeps; eauto|eapply IH; eauto].
Qed.
Lemma complete_keeps o d : dm_autofree d = false -> keeps (on_probe_complete o d).
Proof.
  intros A. unfold on_probe_complete. destruct (dm_completed d); [now apply keeps_nil|]. cbv zeta. destruct (dm_tracks _); [destruct (dm_handler _); [|exact Logic.I]; apply keeps_one; [exact A|discriminate]|].
  destruct (negb _); [exact Logic.I|]. destruct (forward_all _ _) as [e| | |] eqn:F; cbn [bind]; try exact Logic.I. apply keeps_ok; [exact A|]. intros b I.
  apply in_app_or in I as [I|[I|I]]; [|discriminate|eapply forward_all_keeps; [|exact F|exact I]; exact A]. apply in_map_iff in I as (? & ? & _). discriminate.
Qed.
Lemma process_keeps o d p : dm_autofree d = false -> keeps (process_buffered_packet o d p).
Proof.
  intros A. unfold process_buffered_packet. cbv zeta. destruct (idx _ _) as [l|]; cbn [of_opt bind]; [|exact Logic.I]. destruct (_ <? 0).
  { destruct (upd _ _ _); cbn [of_opt bind]; [|exact Logic.I]. apply keeps_one; [exact A|discriminate]. }
  destruct (idx _ _) as [q|]; cbn [of_opt bind]; [|exact Logic.I]. destruct (upd _ _ _) as [l2|]; cbn [of_opt bind]; [|exact Logic.I]. destruct (dm_completed d).
  - destruct (upd _ _ _) as [ps|]; cbn [of_opt bind]; [|exact Logic.I]. destruct (forward_packet _ _) as [e| | |] eqn:F; cbn [bind]; try exact Logic.I. apply keeps_ok; [exact A|]. intros b [I|I]; [discriminate|]. eapply forward_keeps; [|exact F|exact I]. exact A.
  - destruct (upd _ _ _) as [ps|]; cbn [of_opt bind]; [|exact Logic.I]. destruct (_ <=? _); [|apply keeps_one; [exact A|discriminate]].
    pose proof (complete_keeps o (with_packets d ps) A) as K. destruct (on_probe_complete _ _) as [[d2 e]| | |]; cbn [bind]; try exact Logic.I. destruct K as [K1 K2]. apply keeps_ok; [exact K1|]. intros b [I|I]; [discriminate|now apply K2 in I].
Qed.
Lemma create_audio_auto d buf id tb extra c d1 t : create_audio_track d buf id tb extra c = Ok (d1, t) -> dm_autofree d1 = dm_autofree d.
Proof.
  unfold create_audio_track, add_track. cbv zeta. destruct (_ && _); [destruct extra as [x|]; [destruct (parse_asc x)|]|]; try discriminate; try (destruct (dm_completed d)); intros [= <- _]; reflexivity.
Qed.
Lemma create_video_auto o d buf id tb extra d1 t : create_video_track o d buf id tb extra = Ok (d1, t) -> dm_autofree d1 = dm_autofree d.
Proof. unfold create_video_track, add_track. destruct (generate_video_codec_data _ _ _ _); try discriminate; try (destruct (dm_completed d)); intros [= <- _]; reflexivity. Qed.
Lemma step_keeps o d a : dm_autofree d = false -> head_op a = false -> keeps (step o d a).
Proof.
  intros A H. destruct a; cbn [step head_op] in *; try discriminate; try (now apply keeps_nil); try (apply keeps_one; [exact A|discriminate]).
  - unfold on_new_audio_track. match goal with |- keeps (bind ?r _) => assert (R : forall d1 t, r = Ok (d1, t) -> dm_autofree d1 = false); [|destruct r as [[d1 t]| | |]; cbn [bind]; try exact Logic.I] end.
    { intros d1 t. destruct (tm_find_type _ _); [destruct (_ =? _)%string|]; try (intros E; apply create_audio_auto in E; congruence). intros [= <- _]. exact A. }
    specialize (R _ _ eq_refl). unfold discard_if. destruct (_ <? _); [apply keeps_one; [exact R|discriminate]|now apply keeps_nil].
  - unfold on_new_video_track. match goal with |- keeps (bind ?r _) => assert (R : forall d1 t, r = Ok (d1, t) -> dm_autofree d1 = false); [|destruct r as [[d1 t]| | |]; cbn [bind]; try exact Logic.I] end.
    { intros d1 t. destruct (tm_find_type _ _); [destruct (_ =? _)%string|]; try (intros E; apply create_video_auto in E; congruence). intros [= <- _]. exact A. }
    specialize (R _ _ eq_refl). unfold discard_if. destruct (_ <? _); [apply keeps_one; [exact R|discriminate]|now apply keeps_nil].
  - unfold on_audio_packet. destruct (find_track o d buf) as [t| | |]; cbn [bind]; try exact Logic.I.
    match goal with |- keeps (bind ?r _) => assert (R : forall d1 t1, r = Ok (d1, t1) -> dm_autofree d1 = false); [|destruct r as [[d1 t1]| | |]; cbn [bind]; try exact Logic.I] end.
    { intros d1 t1. destruct t; [intros [= <- _]; exact A|]. destruct (dm_completed d); [intros [= <- _]; exact A|]. destruct (extract_audio_extra_data id data) as [[[x y] c]| | |]; try discriminate; [|intros [= <- _]; exact A].
      destruct (get_timebase _); cbn [bind]; try discriminate. intros E. apply create_audio_auto in E. congruence. }
    specialize (R _ _ eq_refl). destruct t1; [now apply process_keeps|apply keeps_one; [exact R|discriminate]].
  - unfold on_video_packet. destruct (find_track o d buf) as [t| | |]; cbn [bind]; try exact Logic.I.
    match goal with |- keeps (bind ?r _) => assert (R : forall d1 t1, r = Ok (d1, t1) -> dm_autofree d1 = false); [|destruct r as [[d1 t1]| | |]; cbn [bind]; try exact Logic.I] end.
    { intros d1 t1. destruct t; [intros [= <- _]; exact A|]. destruct (_ && _); [|intros [= <- _]; exact A]. destruct (if key then _ else _) as [x| | |]; cbn [bind]; try discriminate.
      match goal with |- bind ?r _ = _ -> _ => destruct r as [[y|]| | |]; cbn [bind]; try discriminate end; [|intros [= <- _]; exact A]. destruct (get_timebase _); cbn [bind]; try discriminate. intros E. apply create_video_auto in E. congruence. }
    specialize (R _ _ eq_refl). cbv zeta. destruct t1; [now apply process_keeps|apply keeps_one; [exact R|discriminate]].
  - now apply complete_keeps.
  - unfold try_complete_probe. destruct (need_more d); [now apply keeps_nil|now apply complete_keeps].
  - unfold find_buffer_index. destruct (marker_index _ _ _); apply keeps_one; try discriminate; exact A.
Qed.

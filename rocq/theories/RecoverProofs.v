(** * RecoverProofs: calls that are interrupted by a panic, compared with the calls of DemuxModel. *)
From Coq Require Import List String Bool ZArith Lia Permutation.
From Verif Require Import Base NaluModel AacModel FloatModel PacketModel DemuxModel DemuxProofs LifecycleProofs RecoverModel.
Import ListNotations.
Local Open Scope list_scope.

(** ** The events of an interrupted call *)
(** The events [l] of a call, cut at the callback that panics: the events that take place, the mood for the callbacks after them, and the
    callback that panicked. Without a handler the first callback panics before it is made. *)
Fixpoint cut (h : bool) (q : mood) (l : list event) : list event * mood * option event :=
  match l with
  | [] => ([], q, None)
  | e :: t =>
    if is_handler e then
      if negb h then ([], q, Some e)
      else if calm q then let '(r, q1, c) := cut h (later q) t in (e :: r, q1, c)
      else ([e], q, Some e)
    else let '(r, q1, c) := cut h q t in (e :: r, q1, c)
  end.
Definition outcome (c : option event) : res unit := match c with None => Ok tt | Some _ => Panic end.

Lemma cut_app h : forall a q b, cut h q (a ++ b) =
  let '(r, q1, c) := cut h q a in match c with None => let '(r2, q2, c2) := cut h q1 b in (r ++ r2, q2, c2) | Some _ => (r, q1, c) end.
Proof.
  induction a as [|e a IH]; intros q b; cbn [app cut]; [now destruct (cut h q b) as [[? ?] ?]|].
  destruct (is_handler e).
  - destruct (negb h); [reflexivity|]. destruct (calm q); [|reflexivity]. rewrite IH. destruct (cut h (later q) a) as [[r q1] [c|]]; [reflexivity|].
    now destruct (cut h q1 b) as [[? ?] ?].
  - rewrite IH. destruct (cut h q a) as [[r q1] [c|]]; [reflexivity|]. now destruct (cut h q1 b) as [[? ?] ?].
Qed.
(** A call none of whose callbacks panics is not cut. *)
Lemma cut_none : forall l, cut true None l = (l, None, None).
Proof. induction l as [|e l IH]; cbn [cut negb calm later]; [reflexivity|]. rewrite IH. now destruct (is_handler e). Qed.
Lemma cut_plain h : forall l q, handler_events l = [] -> cut h q l = (l, q, None).
Proof.
  induction l as [|e l IH]; intros q H; cbn [cut]; [reflexivity|]. unfold handler_events in H. cbn [filter] in H. destruct (is_handler e); [discriminate|].
  rewrite IH by exact H. reflexivity.
Qed.

Lemma forward_r_cut q d p e0 : forward_packet (with_handler d true) p = Ok e0 ->
  let '(e, q1, c) := cut (dm_handler d) q e0 in forward_r q d p = (e, outcome c) /\ (c = None -> q1 = later q).
Proof.
  unfold forward_packet, forward_r, callback. cbn [dm_handler with_handler negb dm_autofree dm_map]. intros H.
  assert (X : e0 = EvPacket p :: match dm_autofree d with true => match map_find (dm_map d) (pk_index p) with Some b => [EvDiscardHead b] | None => [] end | false => [] end
    /\ (dm_autofree d = true -> map_find (dm_map d) (pk_index p) <> None)).
  { destruct (dm_autofree d); [destruct (map_find _ _) as [b|]|]; try discriminate; (split; [congruence|congruence]). }
  destruct X as [-> N]. cbn [cut is_handler]. destruct (dm_handler d); cbn [negb]; [|split; [reflexivity|discriminate]].
  destruct (calm q); [|split; [reflexivity|discriminate]].
  destruct (dm_autofree d); [|split; reflexivity]. destruct (map_find _ _) as [b|]; [split; reflexivity|]. now specialize (N eq_refl).
Qed.
Lemma forward_all_r_cut d : forall l q e0, forward_all (with_handler d true) l = Ok e0 ->
  let '(e, q1, c) := cut (dm_handler d) q e0 in forward_all_r q d l = (e, outcome c).
Proof.
  induction l as [|p l IH]; intros q e0 H; cbn [forward_all forward_all_r] in *; [injection H as <-; reflexivity|].
  destruct (forward_packet _ p) as [e1| | |] eqn:F; cbn [bind] in H; try discriminate. destruct (forward_all _ l) as [e2| | |] eqn:G; cbn [bind] in H; try discriminate.
  injection H as <-. rewrite cut_app. pose proof (forward_r_cut q d p e1 F) as X. destruct (cut (dm_handler d) q e1) as [[e q1] [c|]].
  - destruct X as [-> _]. reflexivity.
  - destruct X as [-> X]. rewrite (X eq_refl). cbn [outcome]. specialize (IH (later q) e2 eq_refl). destruct (cut (dm_handler d) (later q) e2) as [[e' q'] c']. now rewrite IH.
Qed.
Lemma new_tracks_cut d : forall ts q,
  let '(e, q1, c) := cut (dm_handler d) q (map EvNewTrack ts) in new_tracks_r q d ts = (e, q1, outcome c) /\ delivered e = [] /\ match c with None => True | Some x => exists s, x = EvNewTrack s end.
Proof.
  induction ts as [|t ts IH]; intros q; cbn [map cut new_tracks_r is_handler]; [now repeat split|]. unfold callback. destruct (negb (dm_handler d)); [split; [reflexivity|split; [reflexivity|eauto]]|].
  destruct (calm q); [|split; [reflexivity|split; [reflexivity|eauto]]]. specialize (IH (later q)). destruct (cut (dm_handler d) (later q) (map EvNewTrack ts)) as [[e q1] c].
  destruct IH as [-> X]. split; [reflexivity|exact X].
Qed.

(** The callback that panicked was one before the packets. *)
Definition at_tracks (c : option event) : bool := match c with Some (EvNewTrack _) | Some EvTrackComplete => true | _ => false end.
(** The state after an interrupted call: that of the whole call ([d0], [e0]) or, if the panic came before the packets, that state with all the packets still in their lists. *)
Definition left_by (o : oracle) (h : bool) (c : option event) (d0 : demuxer) (e0 e : list event) (d1 : demuxer) : Prop :=
  if at_tracks c then
    dm_completed d0 = true /\ delivered e = [] /\
    exists ls, d1 = with_packets (with_handler d0 h) ls /\ map only_last ls = dm_packets d0 /\ or_sort o (List.concat (map all_but_last ls)) = delivered e0
  else d1 = with_handler d0 h.
Definition reply_cut (o : oracle) (q : mood) (d : demuxer) (d0 : demuxer) (e0 : list event) (x : reply) : Prop :=
  let '(e, _, c) := cut (dm_handler d) q e0 in exists d1, x = (d1, e, outcome c) /\ left_by o (dm_handler d) c d0 e0 e d1.

Definition no_tracks (l : list event) : bool := forallb (fun x => negb (at_tracks (Some x))) l.
Lemma cut_packets h : forall l q e q1 c, no_tracks l = true -> cut h q l = (e, q1, c) -> at_tracks c = false.
Proof.
  induction l as [|x l IH]; intros q e q1 c H E; cbn [cut] in E; [injection E as <- <- <-; reflexivity|].
  unfold no_tracks in H. cbn [forallb] in H. apply andb_true_iff in H as [H1 H]. apply negb_true_iff in H1. destruct (is_handler x).
  - destruct (negb h); [injection E as <- <- <-; exact H1|]. destruct (calm q); [|injection E as <- <- <-; exact H1].
    destruct (cut h (later q) l) as [[r q2] c2] eqn:C. assert (c2 = c) by congruence. subst c2. eapply IH; [exact H|exact C].
  - destruct (cut h q l) as [[r q2] c2] eqn:C. assert (c2 = c) by congruence. subst c2. eapply IH; [exact H|exact C].
Qed.
Lemma forward_all_handler d l : forall e, forward_all d l = Ok e -> no_tracks e = true /\ delivered e = l.
Proof.
  induction l as [|p l IH]; intros e H; cbn [forward_all] in H; [injection H as <-; now split|].
  destruct (forward_packet d p) as [e1| | |] eqn:F; cbn [bind] in H; try discriminate. destruct (forward_all d l) as [e2| | |]; cbn [bind] in H; try discriminate. injection H as <-.
  destruct (IH e2 eq_refl) as [A B]. unfold no_tracks in *. rewrite forallb_app, delivered_app, A, B. unfold forward_packet in F. destruct (negb _); [discriminate|].
  destruct (dm_autofree d); [destruct (map_find _ _); [|discriminate]|]; injection F as <-; now split.
Qed.

Lemma complete_r_cut o q d d0 e0 : on_probe_complete o (with_handler d true) = Ok (d0, e0) -> reply_cut o q d d0 e0 (complete_r o q d).
Proof.
  unfold on_probe_complete, complete_r, reply_cut. cbn [dm_completed with_handler dm_tracks with_completed dm_handler dm_packets with_tracks dm_map negb]. intros H.
  destruct (dm_completed d) eqn:C.
  { assert (d0 = with_handler d true) by congruence. assert (e0 = []) by congruence. subst d0 e0. cbn [cut]. eexists. split; [reflexivity|]. unfold left_by. cbn [at_tracks]. now destruct d. }
  destruct (dm_tracks d) as [|s0 t0] eqn:T.
  { assert (e0 = [EvTrackNotFind]) by congruence. assert (d0 = with_completed (with_handler d true)) by congruence. subst d0 e0. cbn [cut is_handler]. unfold callback. cbn [dm_handler with_completed].
    destruct (negb (dm_handler d)); [eexists; split; [reflexivity|now destruct d]|]. destruct (calm q); eexists; (split; [reflexivity|now destruct d]). }
  rewrite <- T in *. clear s0 t0 T. set (ts := prepare_tracks o (dm_packets d) (dm_tracks d)) in *.
  set (d2 := with_tracks (with_completed d) ts (dm_map d)). set (d3 := with_packets d2 (map only_last (dm_packets d))).
  match type of H with bind (forward_all ?x ?l) _ = _ => change x with (with_handler d3 true) in H; destruct (forward_all (with_handler d3 true) l) as [e| | |] eqn:F end; cbn [bind] in H; try discriminate.
  assert (E0 : e0 = map EvNewTrack ts ++ [EvTrackComplete] ++ e) by congruence. assert (D0 : d0 = with_handler d3 true) by congruence. clear H.
  destruct (forward_all_handler _ _ _ F) as [HE DE].
  assert (L : forall c e', at_tracks c = true -> delivered e' = [] -> left_by o (dm_handler d) c d0 e0 e' d2).
  { intros c e' Hc He. unfold left_by. rewrite Hc. split; [now rewrite D0|]. split; [exact He|]. exists (dm_packets d). subst d0 e0. split; [reflexivity|]. split; [reflexivity|].
    rewrite !delivered_app, delivered_new_tracks. cbn [app delivered flat_map]. symmetry. exact DE. }
  assert (L' : left_by o (dm_handler d) None d0 e0 [] d3). { unfold left_by. cbn [at_tracks]. subst d0. reflexivity. }
  replace (cut (dm_handler d) q e0) with (cut (dm_handler d2) q (map EvNewTrack ts ++ [EvTrackComplete] ++ e)) by (now rewrite E0). rewrite cut_app. pose proof (new_tracks_cut d2 ts q) as N. destruct (cut (dm_handler d2) q (map EvNewTrack ts)) as [[e1 q1] c1].
  destruct N as (-> & N1 & N). destruct c1 as [c1|]; cbn [outcome].
  { destruct N as (s & ->). exists d2. split; [reflexivity|]. now apply L. }
  cbn [app cut is_handler]. unfold callback. change (dm_handler d2) with (dm_handler d). destruct (negb (dm_handler d)) eqn:Hh.
  { exists d2. split; [reflexivity|]. apply L; [reflexivity|]. now rewrite delivered_app, N1. }
  destruct (calm q1) eqn:Q.
  2:{ exists d2. split; [reflexivity|]. apply L; [reflexivity|]. now rewrite delivered_app, N1. }
  pose proof (forward_all_r_cut d3 _ (later q1) e F) as G. change (dm_handler d3) with (dm_handler d) in G.
  destruct (cut (dm_handler d) (later q1) e) as [[e3 q3] c3] eqn:K. apply cut_packets in K; [|exact HE]. change (dm_packets d2) with (dm_packets d). rewrite G. exists d3.
  split; [reflexivity|]. unfold left_by in *. rewrite K. exact L'.
Qed.

Lemma process_r_cut o q d p d0 e0 : process_buffered_packet o (with_handler d true) p = Ok (d0, e0) -> reply_cut o q d d0 e0 (process_r o q d p).
Proof.
  unfold process_buffered_packet, process_r. cbn [dm_packets with_handler dm_completed]. set (n := zlen (dm_packets d)). set (ps0 := if _ <? n then _ else _). set (k := if _ <? n then _ else n). clearbody ps0 k.
  destruct (idx ps0 k) as [l|] eqn:Ik; cbn [of_opt bind]; [|discriminate]. cbv zeta.
  assert (U : forall x, upd ps0 k x = Some (set_nth (Z.to_nat k) x ps0)).
  { intros x. apply upd_eq. now apply idx_inv in Ik. }
  assert (Z0 : zlen (l ++ [p]) - 2 < zlen (l ++ [p])) by lia.
  destruct (Z.ltb_spec (zlen (l ++ [p]) - 2) 0) as [B|B].
  { rewrite U. cbn [of_opt bind]. intros H. assert (e0 = [EvAdd p n]) by congruence. subst e0.
    assert (d0 = with_packets (with_handler d true) (set_nth (Z.to_nat k) (l ++ [p]) ps0)) by congruence. subst d0. unfold reply_cut. cbn [cut is_handler]. eexists. split; [reflexivity|]. unfold left_by. cbn [at_tracks]. now destruct d. }
  destruct (idx (l ++ [p]) _) as [x|] eqn:Ix; cbn [of_opt bind]; [|discriminate].
  rewrite (upd_eq (l ++ [p]) (zlen (l ++ [p]) - 2)) by lia. cbn [of_opt bind]. set (x1 := set_duration x _). set (l2 := set_nth _ x1 (l ++ [p])). destruct (dm_completed d).
  - rewrite U. cbn [of_opt bind]. set (d1 := with_packets d _). change (with_packets (with_handler d true) ?y) with (with_handler (with_packets d y) true). fold d1.
    destruct (forward_packet (with_handler d1 true) x1) as [e| | |] eqn:F; cbn [bind]; try discriminate. intros H. assert (e0 = EvAdd p n :: e) by congruence. assert (d0 = with_handler d1 true) by congruence. subst d0 e0. clear H.
    unfold reply_cut. cbn [cut is_handler]. pose proof (forward_r_cut q d1 x1 e F) as G. change (dm_handler d1) with (dm_handler d) in G. destruct (cut (dm_handler d) q e) as [[e2 q2] c2] eqn:K. destruct G as [-> _].
    exists d1. split; [reflexivity|]. apply cut_packets in K. { unfold left_by. rewrite K. now destruct d. }
    unfold forward_packet in F. destruct (negb _); [discriminate|]. destruct (dm_autofree _); [destruct (map_find _ _); [|discriminate]|]; injection F as <-; reflexivity.
  - rewrite U. cbn [of_opt bind]. set (d1 := with_packets d _). change (with_packets (with_handler d true) ?y) with (with_handler (with_packets d y) true). fold d1. cbn [with_handler dm_probe].
    destruct (_ <=? total_ms _ _).
    + change (mkDm (dm_tracks d1) true _ _ _ _ _ _ _ _) with (with_handler d1 true).
      destruct (on_probe_complete o (with_handler d1 true)) as [[d2 e]| | |] eqn:F; cbn [bind]; try discriminate. intros H. assert (e0 = EvAdd p n :: e) by congruence. assert (d0 = d2) by congruence. subst d0 e0. clear H.
      pose proof (complete_r_cut o q d1 d2 e F) as G. unfold reply_cut in *. cbn [cut is_handler]. change (dm_handler d1) with (dm_handler d) in G. destruct (cut (dm_handler d) q e) as [[e2 q2] c2].
      destruct G as (d4 & -> & G). exists d4. split; [reflexivity|exact G].
    + intros H. assert (e0 = [EvAdd p n]) by congruence. assert (d0 = with_handler d1 true) by congruence. subst d0 e0. unfold reply_cut. cbn [cut is_handler]. exists d1. split; [reflexivity|]. unfold left_by. cbn [at_tracks]. now destruct d.
Qed.

(** ** Packet calls: the track, then the packet *)
Lemma audio_split o d buf id data ts : on_audio_packet o d buf id data ts =
  ('(d1, t) <- audio_track o d buf id data;;
   match t with
   | None => Ok (d1, [EvDiscardBack buf])
   | Some s => process_buffered_packet o d1 (set_buffer (init_audio (pool_packet o) data ts id (st_index s) (st_timebase s)) buf)
   end).
Proof. unfold on_audio_packet, audio_track. now destruct (find_track o d buf) as [[s|]| | |]. Qed.
Lemma video_split o d buf id data key dts pts : on_video_packet o d buf id data key dts pts =
  ('(d1, t) <- video_track o d buf id data key;;
   match t with
   | None => Ok (d1, [EvDiscardBack buf])
   | Some s => process_buffered_packet o d1 (apply_pre (dm_pre d1) (set_buffer (init_video (pool_packet o) data dts pts key (get_pack_type (dm_name d1)) id (st_index s) (st_timebase s)) buf))
   end).
Proof. unfold on_video_packet, video_track. now destruct (find_track o d buf) as [[s|]| | |]. Qed.
Lemma audio_track_mute o d b buf id data : audio_track o (with_handler d b) buf id data = rehandle b (audio_track o d buf id data).
Proof.
  unfold audio_track. change (find_track o (with_handler d b)) with (find_track o d). destruct (find_track o d buf) as [[s|]| | |]; try reflexivity. cbn [bind with_handler dm_completed dm_name].
  change (mkDm (dm_tracks d) b _ _ _ _ _ _ _ _) with (with_handler d b). destruct (dm_completed d); [reflexivity|].
  destruct (extract_audio_extra_data id data) as [[[x y] c]| | |]; cbn [bind]; try reflexivity. destruct (get_timebase (dm_name d)); cbn [bind]; try reflexivity. apply create_audio_mute.
Qed.
Lemma video_track_mute o d b buf id data key : video_track o (with_handler d b) buf id data key = rehandle b (video_track o d buf id data key).
Proof.
  unfold video_track. change (find_track o (with_handler d b)) with (find_track o d). destruct (find_track o d buf) as [[s|]| | |]; try reflexivity. cbn [bind with_handler dm_completed dm_name dm_tracks].
  change (mkDm (dm_tracks d) b _ _ _ _ _ _ _ _) with (with_handler d b). destruct (_ && _); [|reflexivity].
  match goal with |- bind ?m _ = rehandle _ (bind ?m _) => destruct m as [x| | |]; try reflexivity end. cbn [bind].
  match goal with |- bind ?m _ = rehandle _ (bind ?m _) => destruct m as [[y|]| | |]; try reflexivity end. cbn [bind].
  destruct (get_timebase (dm_name d)); cbn [bind]; try reflexivity. apply create_video_mute.
Qed.

Lemma audio_track_handler o d buf id data d1 t : audio_track o d buf id data = Ok (d1, t) -> dm_handler d1 = dm_handler d.
Proof.
  intros H. pose proof (audio_track_mute o d (dm_handler d) buf id data) as M. replace (with_handler d (dm_handler d)) with d in M by (now destruct d). rewrite H in M. cbn [rehandle bind] in M.
  assert (X : d1 = with_handler d1 (dm_handler d)) by congruence. rewrite X. reflexivity.
Qed.
Lemma video_track_handler o d buf id data key d1 t : video_track o d buf id data key = Ok (d1, t) -> dm_handler d1 = dm_handler d.
Proof.
  intros H. pose proof (video_track_mute o d (dm_handler d) buf id data key) as M. replace (with_handler d (dm_handler d)) with d in M by (now destruct d). rewrite H in M. cbn [rehandle bind] in M.
  assert (X : d1 = with_handler d1 (dm_handler d)) by congruence. rewrite X. reflexivity.
Qed.

Lemma with_handler_own d : with_handler d (dm_handler d) = d.
Proof. now destruct d. Qed.
Lemma new_audio_mute d b buf id tb extra c : on_new_audio_track (with_handler d b) buf id tb extra c = rehandle b (on_new_audio_track d buf id tb extra c).
Proof.
  unfold on_new_audio_track. rewrite create_audio_mute. cbn [with_handler dm_tracks dm_name]. destruct (tm_find_type _ _); [destruct (_ =? _)%string|]; try reflexivity;
    destruct (create_audio_track d buf id tb extra c) as [[? ?]| | |]; reflexivity.
Qed.
Lemma new_video_mute o d b buf id tb extra : on_new_video_track o (with_handler d b) buf id tb extra = rehandle b (on_new_video_track o d buf id tb extra).
Proof.
  unfold on_new_video_track. rewrite create_video_mute. cbn [with_handler dm_tracks dm_name]. destruct (tm_find_type _ _); [destruct (_ =? _)%string|]; try reflexivity;
    destruct (create_video_track o d buf id tb extra) as [[? ?]| | |]; reflexivity.
Qed.
Lemma new_audio_events d buf id tb extra c d1 e : on_new_audio_track d buf id tb extra c = Ok (d1, e) -> handler_events e = [].
Proof.
  unfold on_new_audio_track. match goal with |- bind ?m _ = _ -> _ => destruct m as [[? ?]| | |] end; cbn [bind]; try discriminate. intros H.
  assert (X : e = discard_if (0 <? zlen (of_nil extra)) buf) by congruence. rewrite X. unfold discard_if. now destruct (_ <? _).
Qed.
Lemma new_video_events o d buf id tb extra d1 e : on_new_video_track o d buf id tb extra = Ok (d1, e) -> handler_events e = [].
Proof.
  unfold on_new_video_track. match goal with |- bind ?m _ = _ -> _ => destruct m as [[? ?]| | |] end; cbn [bind]; try discriminate. intros H.
  assert (X : e = discard_if (0 <? zlen extra) buf) by congruence. rewrite X. unfold discard_if. now destruct (_ <? _).
Qed.

(** The two calls that change the handler itself. *)
Definition rewires (a : op) : bool := match a with OpSetHandler | OpClose => true | _ => false end.

Lemma first_of {A B} (a a' : A) (b b' : B) : Ok (a, b) = Ok (a', b') -> a = a'.
Proof. congruence. Qed.
Lemma second_of {A B} (a a' : A) (b b' : B) : Ok (a, b) = Ok (a', b') -> b = b'.
Proof. congruence. Qed.

(** What a call does that is not cut short is what the same call does in DemuxModel with a handler. *)
Lemma step_r_cut o q d a d0 e0 : rewires a = false -> step o (with_handler d true) a = Ok (d0, e0) -> reply_cut o q d d0 e0 (step_r o q d a).
Proof.
  intros W H.
  assert (P : forall d1 e1, step o d a = Ok (d1, e1) -> handler_events e1 = [] -> step_r o q d a = plain_r d (step o d a) -> d0 = with_handler d1 true -> e0 = e1 -> dm_handler d1 = dm_handler d -> reply_cut o q d d0 e0 (step_r o q d a)).
  { intros d1 e1 S N Q -> -> Hd. rewrite Q, S. unfold reply_cut. rewrite cut_plain by exact N. exists d1. split; [reflexivity|]. unfold left_by. cbn [at_tracks]. rewrite with_handler_twice, <- Hd. now destruct d1. }
  destruct a; cbn [rewires] in W; try discriminate.
  - pose proof (new_audio_mute d true buf id timebase extra config) as M. pose proof (new_audio_mute d (dm_handler d) buf id timebase extra config) as M'. rewrite with_handler_own in M'.
    cbn [step] in *. rewrite M in H. clear M. destruct (on_new_audio_track d buf id timebase extra config) as [[d1 e1]| | |] eqn:C; cbn [rehandle bind] in H, M'; try discriminate.
    apply (P d1 e1); [reflexivity|eapply new_audio_events; exact C|cbn [step_r step]; now rewrite C|congruence|congruence|]. assert (X : d1 = with_handler d1 (dm_handler d)) by congruence. rewrite X. reflexivity.
  - pose proof (new_video_mute o d true buf id timebase extra) as M. pose proof (new_video_mute o d (dm_handler d) buf id timebase extra) as M'. rewrite with_handler_own in M'.
    cbn [step] in *. rewrite M in H. clear M. destruct (on_new_video_track o d buf id timebase extra) as [[d1 e1]| | |] eqn:C; cbn [rehandle bind] in H, M'; try discriminate.
    apply (P d1 e1); [reflexivity|eapply new_video_events; exact C|cbn [step_r step]; now rewrite C|congruence|congruence|]. assert (X : d1 = with_handler d1 (dm_handler d)) by congruence. rewrite X. reflexivity.
  - cbn [step step_r] in *. clear P. rewrite audio_split, audio_track_mute in H. unfold audio_r. destruct (audio_track o d buf id data) as [[d1 t]| | |] eqn:A; cbn [rehandle bind] in H; try discriminate. apply audio_track_handler in A.
    destruct t as [s|].
    + pose proof (process_r_cut o q d1 _ d0 e0 H) as X. unfold reply_cut in *. rewrite A in X. exact X.
    + assert (d0 = with_handler d1 true) by congruence. assert (e0 = [EvDiscardBack buf]) by congruence. subst d0 e0. unfold reply_cut. cbn [cut is_handler]. exists d1. split; [reflexivity|]. unfold left_by. cbn [at_tracks]. rewrite with_handler_twice, <- A. now destruct d1.
  - cbn [step step_r] in *. clear P. rewrite video_split, video_track_mute in H. unfold video_r. destruct (video_track o d buf id data key) as [[d1 t]| | |] eqn:A; cbn [rehandle bind] in H; try discriminate. apply video_track_handler in A.
    destruct t as [s|].
    + pose proof (process_r_cut o q d1 _ d0 e0 H) as X. unfold reply_cut in *. rewrite A in X. exact X.
    + assert (d0 = with_handler d1 true) by congruence. assert (e0 = [EvDiscardBack buf]) by congruence. subst d0 e0. unfold reply_cut. cbn [cut is_handler]. exists d1. split; [reflexivity|]. unfold left_by. cbn [at_tracks]. rewrite with_handler_twice, <- A. now destruct d1.
  - now apply complete_r_cut.
  - cbn [step step_r] in *. unfold try_complete_probe in H. change (need_more (with_handler d true)) with (need_more d) in H. destruct (need_more d).
    + assert (d0 = with_handler d true) by congruence. assert (e0 = []) by congruence. subst d0 e0. exists d. split; [reflexivity|]. now destruct d.
    + now apply complete_r_cut.
  - cbn [step] in H. eapply (P _ _ eq_refl eq_refl eq_refl); [exact (eq_sym (first_of _ _ _ _ H))|exact (eq_sym (second_of _ _ _ _ H))|reflexivity].
  - cbn [step] in H. eapply (P _ _ eq_refl eq_refl eq_refl); [exact (eq_sym (first_of _ _ _ _ H))|exact (eq_sym (second_of _ _ _ _ H))|reflexivity].
  - cbn [step] in H. eapply (P _ _ eq_refl eq_refl eq_refl); [exact (eq_sym (first_of _ _ _ _ H))|exact (eq_sym (second_of _ _ _ _ H))|reflexivity].
  - cbn [step] in *. unfold find_buffer_index in *. cbn [with_handler dm_ordered] in H. destruct (marker_index (dm_ordered d) 0 marker) eqn:M.
    + apply (P d [EvIndex marker z] eq_refl eq_refl); [cbn [step_r step]; unfold find_buffer_index; now rewrite M|exact (eq_sym (first_of _ _ _ _ H))|exact (eq_sym (second_of _ _ _ _ H))|reflexivity].
    + eapply (P _ _ eq_refl eq_refl); [cbn [step_r step]; unfold find_buffer_index; now rewrite M|exact (eq_sym (first_of _ _ _ _ H))|exact (eq_sym (second_of _ _ _ _ H))|reflexivity].
  - cbn [step] in H. eapply (P _ _ eq_refl eq_refl eq_refl); [exact (eq_sym (first_of _ _ _ _ H))|exact (eq_sym (second_of _ _ _ _ H))|reflexivity].
  - cbn [step] in H. eapply (P _ _ eq_refl eq_refl eq_refl); [exact (eq_sym (first_of _ _ _ _ H))|exact (eq_sym (second_of _ _ _ _ H))|reflexivity].
Qed.

(** ** Calls that panic although a handler is set *)
Definition block_of (a : op) : list event := match a with OpAudio b _ _ _ | OpVideo b _ _ _ _ _ => [EvDiscardBack b] | _ => [] end.
Lemma audio_track_total o d buf id data d1 s ts : oracle_ok o -> live d -> dm_handler d = true -> audio_track o d buf id data = Ok (d1, Some s) ->
  exists r, process_buffered_packet o d1 (set_buffer (init_audio (pool_packet o) data ts id (st_index s) (st_timebase s)) buf) = Ok r.
Proof.
  intros O (W & Hk & F) Hd. unfold audio_track. destruct (find_track o d buf) as [r| | |] eqn:R; cbn [bind]; try discriminate.
  apply find_track_cases in R as [(-> & N)|(i & s' & -> & I & T)].
  - destruct (dm_completed d); [discriminate|]. destruct (extract_audio_extra_data id data) as [[[e k] c]| | |]; try discriminate. destruct (get_timebase (dm_name d)) as [tb| | |]; cbn [bind]; try discriminate.
    intros C. apply create_audio_cases in C; auto. destruct C as [(_ & X)|(_ & s' & S1 & _ & _ & _ & -> & X)]; [discriminate|]. assert (s' = s) by congruence. subst s'.
    refine (process_live o _ _ buf (set_buffer _ _) None O _ Logic.I _ _ (proj1 (grow_last d s buf)) _ eq_refl); [now apply wf_grow|exact Hd| |exact S1].
    eapply Forall_impl; [|exact F]. intros x; apply map_find_app.
  - intros E. assert (d1 = d) by congruence. assert (s' = s) by congruence. subst d1 s'. refine (process_live o d i buf (set_buffer _ _) None O W Logic.I Hd F I _ eq_refl). cbn. now apply W.
Qed.
Lemma video_track_total o d buf id data key d1 s dts pts : oracle_ok o -> live d -> dm_handler d = true -> video_track o d buf id data key = Ok (d1, Some s) ->
  exists r, process_buffered_packet o d1 (apply_pre (dm_pre d1) (set_buffer (init_video (pool_packet o) data dts pts key (get_pack_type (dm_name d1)) id (st_index s) (st_timebase s)) buf)) = Ok r.
Proof.
  intros O (W & Hk & F) Hd. unfold video_track. destruct (find_track o d buf) as [r| | |] eqn:R; cbn [bind]; try discriminate.
  apply find_track_cases in R as [(-> & N)|(i & s' & -> & I & T)].
  - destruct (_ && _); [|discriminate]. match goal with |- bind ?m _ = _ -> _ => destruct m as [x| | |]; cbn [bind]; try discriminate end.
    match goal with |- bind ?m _ = _ -> _ => destruct m as [[y|]| | |]; cbn [bind]; try discriminate end. destruct (get_timebase (dm_name d)) as [tb| | |]; cbn [bind]; try discriminate.
    intros C. apply create_video_cases in C; auto. destruct C as [(_ & X)|(_ & s' & S1 & _ & _ & _ & -> & X)]; [discriminate|]. assert (s' = s) by congruence. subst s'.
    refine (process_live o _ _ buf (set_buffer _ _) _ O _ _ _ _ (proj1 (grow_last d s buf)) _ eq_refl); [now apply wf_grow|exact Hk|exact Hd| |exact S1].
    eapply Forall_impl; [|exact F]. intros z; apply map_find_app.
  - intros E. assert (d1 = d) by congruence. assert (s' = s) by congruence. subst d1 s'. refine (process_live o d i buf (set_buffer _ _) _ O W Hk Hd F I _ eq_refl). cbn. now apply W.
Qed.

(** How a call ends. *)
Definition ending {A} (x : res A) : res unit := match x with Ok _ => Ok tt | Err => Err | Panic => Panic | NoFuel => NoFuel end.
(** With a handler, a call that panics in DemuxModel does so while it examines its input, before it changes anything. *)
Lemma step_r_panic o q d a : oracle_ok o -> live d -> dm_handler d = true -> (forall x, step o d a <> Ok x) -> step_r o q d a = (d, block_of a, ending (step o d a)).
Proof.
  intros O L Hd H. destruct a; cbn [step step_r block_of] in *; try (exfalso; now eapply H).
  - destruct (on_new_audio_track d buf id timebase extra config) as [x| | |]; try reflexivity. now destruct (H x).
  - destruct (on_new_video_track o d buf id timebase extra) as [x| | |]; try reflexivity. now destruct (H x).
  - rewrite audio_split in *. unfold audio_r. destruct (audio_track o d buf id data) as [[d1 [s|]]| | |] eqn:A; cbn [bind] in *; try reflexivity.
    + destruct (audio_track_total o d buf id data d1 s ts O L Hd A) as [r R]. now destruct (H r).
    + exfalso. now eapply H.
  - rewrite video_split in *. unfold video_r. destruct (video_track o d buf id data key) as [[d1 [s|]]| | |] eqn:A; cbn [bind] in *; try reflexivity.
    + destruct (video_track_total o d buf id data key d1 s dts pts O L Hd A) as [r R]. now destruct (H r).
    + exfalso. now eapply H.
  - destruct L as (_ & _ & L). destruct (complete_total o d O Hd L) as [r R]. now destruct (H r).
  - unfold try_complete_probe in *. destruct (need_more d); [exfalso; now eapply H|]. destruct L as (_ & _ & L). destruct (complete_total o d O Hd L) as [r R]. now destruct (H r).
  - destruct (find_buffer_index d marker). exfalso. now eapply H.
Qed.

(** ** The calls of DemuxModel: no callback panics *)
Definition read_e (x : list event * res unit) : res (list event) := match x with (e, Ok _) => Ok e | (_, Err) => Err | (_, Panic) => Panic | (_, NoFuel) => NoFuel end.
Definition read_r (x : reply) : res (demuxer * list event) := match x with (d, e, Ok _) => Ok (d, e) | (_, _, Err) => Err | (_, _, Panic) => Panic | (_, _, NoFuel) => NoFuel end.
Lemma forward_agree d p : forward_packet d p = read_e (forward_r None d p).
Proof. unfold forward_packet, forward_r, callback. destruct (negb _); [reflexivity|]. cbn [calm]. destruct (dm_autofree d); [|reflexivity]. now destruct (map_find _ _). Qed.
Lemma forward_all_agree d l : forward_all d l = read_e (forward_all_r None d l).
Proof.
  induction l as [|p l IH]; cbn [forward_all forward_all_r]; [reflexivity|]. rewrite forward_agree. destruct (forward_r None d p) as [e [[]| | |]]; cbn [read_e bind later]; try reflexivity.
  rewrite IH. destruct (forward_all_r None d l) as [e' [[]| | |]]; reflexivity.
Qed.
Lemma new_tracks_agree d ts : dm_handler d = true -> new_tracks_r None d ts = (map EvNewTrack ts, None, Ok tt).
Proof. intros H. induction ts as [|t ts IH]; cbn [new_tracks_r map]; [reflexivity|]. unfold callback. rewrite H. cbn [negb calm later]. now rewrite IH. Qed.
Lemma complete_agree o d : on_probe_complete o d = read_r (complete_r o None d).
Proof.
  unfold on_probe_complete, complete_r. cbn [dm_tracks with_completed dm_handler with_tracks dm_packets dm_map]. destruct (dm_completed d); [reflexivity|].
  destruct (dm_tracks d) as [|s0 t0].
  - unfold callback. cbn [dm_handler with_completed]. now destruct (dm_handler d).
  - set (ts := prepare_tracks o _ _). destruct (dm_handler d) eqn:Hd; cbn [negb].
    + rewrite new_tracks_agree by exact Hd. unfold callback. cbn [dm_handler with_completed with_tracks]. rewrite Hd. cbn [negb calm later]. rewrite forward_all_agree.
      now destruct (forward_all_r None _ _) as [e [[]| | |]].
    + destruct ts as [|t ts]; cbn [new_tracks_r]; unfold callback; cbn [dm_handler with_completed with_tracks]; rewrite Hd; reflexivity.
Qed.
Lemma process_agree o d p : process_buffered_packet o d p = read_r (process_r o None d p).
Proof.
  unfold process_buffered_packet, process_r. set (n := zlen (dm_packets d)). set (ps0 := if _ <? n then _ else _). set (k := if _ <? n then _ else n). clearbody ps0 k.
  destruct (idx ps0 k) as [l|] eqn:Ik; cbn [of_opt bind]; [|reflexivity]. cbv zeta.
  assert (U : forall x, upd ps0 k x = Some (set_nth (Z.to_nat k) x ps0)). { intros x. apply upd_eq. now apply idx_inv in Ik. }
  destruct (Z.ltb_spec (zlen (l ++ [p]) - 2) 0) as [B|B]; [now rewrite U|].
  destruct (idx (l ++ [p]) _) as [x|] eqn:Ix; cbn [of_opt bind]; [|reflexivity]. rewrite (upd_eq (l ++ [p]) (zlen (l ++ [p]) - 2)) by lia. cbn [of_opt bind]. destruct (dm_completed d).
  - rewrite U. cbn [of_opt bind]. rewrite forward_agree. now destruct (forward_r None _ _) as [e [[]| | |]].
  - rewrite U. cbn [of_opt bind]. destruct (_ <=? total_ms _ _); [|reflexivity]. rewrite complete_agree. now destruct (complete_r o None _) as [[d2 e] [[]| | |]].
Qed.
Lemma step_agree o d a : step o d a = read_r (step_r o None d a).
Proof.
  assert (P : forall x, x = read_r (plain_r d x)) by now intros [[? ?]| | |].
  destruct a; cbn [step step_r]; try apply P.
  - rewrite audio_split. unfold audio_r. destruct (audio_track o d buf id data) as [[d1 [s|]]| | |]; cbn [bind]; try reflexivity. apply process_agree.
  - rewrite video_split. unfold video_r. destruct (video_track o d buf id data key) as [[d1 [s|]]| | |]; cbn [bind]; try reflexivity. apply process_agree.
  - apply complete_agree.
  - unfold try_complete_probe. destruct (need_more d); [reflexivity|apply complete_agree].
Qed.

(** ** After the probe has completed *)
(** The packets before the last of every list stay there. *)
Definition keeps (d d' : demuxer) : Prop := dm_completed d' = true /\ forall k, removelast (nth k (dm_packets d') []) = removelast (nth k (dm_packets d) []).
Definition track_event (e : event) : bool := match e with EvNewTrack _ | EvTrackComplete | EvTrackNotFind => true | _ => false end.
(** What is delivered is the last packet of a list, with its duration. *)
Definition from_ends (d : demuxer) (e : list event) : Prop :=
  delivered e = [] \/ exists k l x v, nth k (dm_packets d) [] = l ++ [x] /\ delivered e = [set_duration x v].
Definition after_probe (d : demuxer) (x : reply) : Prop := let '(d', e, _) := x in keeps d d' /\ existsb track_event e = false /\ from_ends d e.

Lemma after_same d e r : dm_completed d = true -> existsb track_event e = false -> delivered e = [] -> after_probe d (d, e, r).
Proof. intros C E D. split; [now split|]. split; [exact E|now left]. Qed.
Lemma set_nth_mid {A} (l : list A) x y t : set_nth (length l) y (l ++ x :: t) = l ++ y :: t.
Proof. induction l as [|a l IH]; cbn [length app set_nth]; [reflexivity|]. now rewrite IH. Qed.
Lemma forward_r_events q d x e r : forward_r q d x = (e, r) -> existsb track_event e = false /\ (delivered e = [] \/ delivered e = [x]).
Proof.
  unfold forward_r, callback. intros H. destruct (negb (dm_handler d)); [assert (e = []) by congruence; subst e; split; [reflexivity|now left]|].
  destruct (calm q); [|assert (X : e = [EvPacket x]) by congruence; subst e; split; [reflexivity|now right]].
  destruct (dm_autofree d); [destruct (map_find _ _) as [b|]|].
  - cbn [app] in H. assert (X : e = [EvPacket x; EvDiscardHead b]) by congruence. subst e. split; [reflexivity|now right].
  - assert (X : e = [EvPacket x]) by congruence. subst e. split; [reflexivity|now right].
  - assert (X : e = [EvPacket x]) by congruence. subst e. split; [reflexivity|now right].
Qed.
Lemma process_after o q d p : dm_completed d = true -> after_probe d (process_r o q d p).
Proof.
  intros C. unfold process_r. change (if pk_index p <? zlen (dm_packets d) then dm_packets d else dm_packets d ++ [[]]) with (base_lists d p).
  set (k := if _ <? _ then _ else _). destruct (idx (base_lists d p) k) as [l|] eqn:Ik; [|now apply after_same]. cbv zeta.
  pose proof (idx_inv _ _ _ Ik) as Kb. assert (N : nth (Z.to_nat k) (dm_packets d) [] = l).
  { rewrite <- (nth_base d p). rewrite idx_nth in Ik by lia. now apply nth_error_nth. }
  assert (K : forall l' : list packet, removelast l' = removelast l -> keeps d (with_packets d (set_nth (Z.to_nat k) l' (base_lists d p)))).
  { intros l' E. split; [exact C|]. intros j. cbn [dm_packets with_packets]. rewrite nth_set_nth by (unfold zlen in Kb; lia). destruct (Nat.eqb_spec j (Z.to_nat k)) as [->|]; [now rewrite N|]. now rewrite nth_base. }
  destruct (Z.ltb_spec (zlen (l ++ [p]) - 2) 0) as [B|B].
  { rewrite zlen_app in B. change (zlen [p]) with 1 in B. assert (L0 : l = []). { destruct l; [reflexivity|]. rewrite zlen_cons in B. pose proof (zlen_nonneg l). lia. }
    split; [apply K; now rewrite L0|]. split; [reflexivity|now left]. }
  destruct (exists_last (l := l)) as (m & y & ->); [intros ->; cbn in B; lia|].
  assert (P2 : Z.to_nat (zlen ((m ++ [y]) ++ [p]) - 2) = length m). { rewrite !zlen_app. unfold zlen. cbn [length]. lia. }
  assert (Iy : idx ((m ++ [y]) ++ [p]) (zlen ((m ++ [y]) ++ [p]) - 2) = Some y).
  { rewrite idx_nth by lia. rewrite P2, <- app_assoc. cbn [app]. rewrite nth_error_app2 by lia. now rewrite Nat.sub_diag. }
  rewrite Iy, C, P2. rewrite <- app_assoc. cbn [app]. rewrite set_nth_mid. set (y1 := set_duration y _).
  rewrite firstn_app, Nat.sub_diag, firstn_all. cbn [firstn]. rewrite app_nil_r.
  replace (skipn (S (length m)) (m ++ [y1; p])) with [p].
  2:{ change (m ++ [y1; p]) with (m ++ [y1] ++ [p]). rewrite app_assoc. rewrite skipn_app. rewrite skipn_all2 by (rewrite app_length; cbn; lia). rewrite app_length. cbn [length]. now replace (S (length m) - (length m + 1))%nat with O by lia. }
  destruct (forward_r q _ y1) as [e r] eqn:F. apply forward_r_events in F as [F1 F2]. split; [apply K; now rewrite !removelast_snoc|]. split; [exact F1|].
  unfold from_ends. change (delivered (EvAdd p (zlen (dm_packets d)) :: e)) with (delivered e). destruct F2 as [F2|F2]; [now left|]. right. exists (Z.to_nat k), m, y, (i64 (pk_dts p - pk_dts y)). now split.
Qed.
Lemma audio_track_after o d buf id data x : dm_completed d = true -> audio_track o d buf id data = Ok x -> fst x = d.
Proof. intros C. unfold audio_track. rewrite C. destruct (find_track o d buf) as [[s|]| | |]; cbn [bind]; try discriminate; intros H; [assert (x = (d, Some s)) by congruence|assert (x = (d, None)) by congruence]; now subst x. Qed.
Lemma video_track_after o d buf id data key x : dm_completed d = true -> video_track o d buf id data key = Ok x -> fst x = d.
Proof. intros C. unfold video_track. rewrite C. cbn [negb andb]. destruct (find_track o d buf) as [[s|]| | |]; cbn [bind]; try discriminate; intros H; [assert (x = (d, Some s)) by congruence|assert (x = (d, None)) by congruence]; now subst x. Qed.
Lemma step_r_after o q d a : dm_completed d = true -> after_probe d (step_r o q d a).
Proof.
  intros C. destruct a; cbn [step_r step].
  - unfold on_new_audio_track, create_audio_track, add_track. rewrite C. assert (Y : forall (m : res (demuxer * option stream)) u, (forall y, m = Ok y -> fst y = d) -> existsb track_event u = false -> delivered u = [] -> after_probe d (plain_r d ('(d', _) <- m;; Ok (d', u)))).
    { intros m u M U V. destruct m as [[d' t]| | |]; cbn [bind plain_r]; try now apply after_same. specialize (M _ eq_refl). cbn [fst] in M. subst d'. now apply after_same. }
    apply Y; [|unfold discard_if; now destruct (_ <? _)|unfold discard_if; now destruct (_ <? _)].
    intros y. destruct (tm_find_type _ _); [destruct (_ =? _)%string|]; try (intros E; assert (y = (d, None)) by congruence; now subst y);
    (destruct (_ && _); [destruct extra as [x|]; [destruct (parse_asc x)|]|]; try discriminate; intros E; assert (y = (d, None)) by congruence; now subst y).
  - unfold on_new_video_track, create_video_track, add_track. rewrite C. assert (Y : forall (m : res (demuxer * option stream)) u, (forall y, m = Ok y -> fst y = d) -> existsb track_event u = false -> delivered u = [] -> after_probe d (plain_r d ('(d', _) <- m;; Ok (d', u)))).
    { intros m u M U V. destruct m as [[d' t]| | |]; cbn [bind plain_r]; try now apply after_same. specialize (M _ eq_refl). cbn [fst] in M. subst d'. now apply after_same. }
    apply Y; [|unfold discard_if; now destruct (_ <? _)|unfold discard_if; now destruct (_ <? _)].
    intros y. destruct (tm_find_type _ _); [destruct (_ =? _)%string|]; try (intros E; assert (y = (d, None)) by congruence; now subst y);
    (destruct (generate_video_codec_data _ _ _ _); try discriminate; intros E; assert (y = (d, None)) by congruence; now subst y).
  - unfold audio_r. destruct (audio_track o d buf id data) as [[d1 t]| | |] eqn:A; try now apply after_same. apply audio_track_after in A; [|exact C]. cbn [fst] in A. subst d1. destruct t; [now apply process_after|now apply after_same].
  - unfold video_r. destruct (video_track o d buf id data key) as [[d1 t]| | |] eqn:A; try now apply after_same. apply video_track_after in A; [|exact C]. cbn [fst] in A. subst d1. destruct t; [now apply process_after|now apply after_same].
  - unfold complete_r. rewrite C. now apply after_same.
  - destruct (need_more d); [now apply after_same|]. unfold complete_r. rewrite C. now apply after_same.
  - split; [now split|split; [reflexivity|now left]].
  - split; [now split|split; [reflexivity|now left]].
  - split; [now split|split; [reflexivity|now left]].
  - split; [now split|split; [reflexivity|now left]].
  - split; [now split|split; [reflexivity|now left]].
  - unfold find_buffer_index. destruct (marker_index _ _ _); (split; [now split|split; [reflexivity|now left]]).
  - now apply after_same.
  - now apply after_same.
Qed.

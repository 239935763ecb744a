(** * Proofs about the demuxer base class. *)
From Verif Require Import Base RingProofs BufioModel NaluModel NaluSpec NaluProofs AvccProofs RecordModel AacModel FloatModel PacketModel DemuxModel.
From Coq Require Import String Permutation Sorted List.
Import ListNotations.
Local Open Scope list_scope.

(** ** What a history looks like from outside *)
Definition is_handler (e : event) : bool :=
  match e with EvNewTrack _ | EvTrackComplete | EvTrackNotFind | EvPacket _ => true | _ => false end.
Definition handler_events (l : list event) : list event := filter is_handler l.
(** The packets that were accepted (added to a list), and those passed to OnPacket. *)
Definition accepted (l : list event) : list packet := flat_map (fun e => match e with EvAdd p _ => [p] | _ => [] end) l.
Definition delivered (l : list event) : list packet := flat_map (fun e => match e with EvPacket p => [p] | _ => [] end) l.
Definition discards (l : list event) : list Z := flat_map (fun e => match e with EvDiscardBack i => [i] | _ => [] end) l.

Lemma handler_events_app a b : handler_events (a ++ b) = handler_events a ++ handler_events b.
Proof. apply filter_app. Qed.
Lemma accepted_app a b : accepted (a ++ b) = accepted a ++ accepted b.
Proof. apply flat_map_app. Qed.
Lemma delivered_app a b : delivered (a ++ b) = delivered a ++ delivered b.
Proof. apply flat_map_app. Qed.
Lemma discards_app a b : discards (a ++ b) = discards a ++ discards b.
Proof. apply flat_map_app. Qed.
Lemma delivered_new_tracks ts : delivered (map EvNewTrack ts) = [].
Proof. induction ts; cbn; auto. Qed.
Lemma accepted_new_tracks ts : accepted (map EvNewTrack ts) = [].
Proof. induction ts; cbn; auto. Qed.
Lemma discards_new_tracks ts : discards (map EvNewTrack ts) = [].
Proof. induction ts; cbn; auto. Qed.
Lemma handler_new_tracks ts : handler_events (map EvNewTrack ts) = map EvNewTrack ts.
Proof. induction ts as [|a t IH]; [reflexivity|]. unfold handler_events in *. cbn. now rewrite IH. Qed.

(** ** Induction over histories *)
Lemma run_app d h1 h2 : run d (h1 ++ h2) = ('(d1, e1) <- run d h1;; '(d2, e2) <- run d1 h2;; Ok (d2, e1 ++ e2)).
Proof.
  revert d. induction h1 as [|[o a] t IH]; intros d; cbn [run app bind].
  - destruct (run d h2) as [[d2 e2]| | |]; reflexivity.
  - destruct (step o d a) as [[d1 e]| | |]; cbn [bind]; try reflexivity. rewrite IH.
    destruct (run d1 t) as [[d2 e2]| | |]; cbn [bind]; try reflexivity.
    destruct (run d2 h2) as [[d3 e3]| | |]; cbn [bind]; try reflexivity. now rewrite app_assoc.
Qed.
Lemma run_inv (H : oracle * op -> Prop) (I : demuxer -> list event -> Prop) d0 :
  I d0 [] ->
  (forall o a d evs d' e, H (o, a) -> I d evs -> step o d a = Ok (d', e) -> I d' (evs ++ e)) ->
  forall h d evs, Forall H h -> run d0 h = Ok (d, evs) -> I d evs.
Proof.
  intros I0 IS h. induction h as [|[o a] t IH] using rev_ind; intros d evs F R.
  - cbn in R. inversion R; subst. exact I0.
  - rewrite run_app in R. apply Forall_app in F as [F1 F2]. rewrite Forall_cons_iff in F2. destruct F2 as [F2 _].
    destruct (run d0 t) as [[d1 e1]| | |] eqn:R1; cbn [bind run] in R; try discriminate.
    destruct (step o d1 a) as [[d2 e2]| | |] eqn:S1; cbn [bind] in R; try discriminate. inversion R; subst.
    rewrite app_nil_r. eapply IS; eauto.
Qed.

(** ** Lists *)
Lemma idx_nth {A} (l : list A) k : 0 <= k -> idx l k = nth_error l (Z.to_nat k).
Proof. intros H. unfold idx. destruct (Z.ltb_spec k 0); [lia|]. reflexivity. Qed.
Lemma upd_eq {A} (l : list A) k x : 0 <= k < zlen l -> upd l k x = Some (set_nth (Z.to_nat k) x l).
Proof. apply upd_some. Qed.

(** Adding [p] to a list stamps the duration of the packet before it (demuxer.go:264-273). *)
Fixpoint stamp (l : list packet) (p : packet) : list packet :=
  match l with
  | [] => [p]
  | [q] => [set_duration q (i64 (pk_dts p - pk_dts q)); p]
  | q :: t => q :: stamp t p
  end.
Lemma stamp_app l q p : stamp (l ++ [q]) p = l ++ [set_duration q (i64 (pk_dts p - pk_dts q)); p].
Proof.
  induction l as [|a t IH]; [reflexivity|]. cbn [app]. change (stamp (a :: (t ++ [q])) p) with (match t ++ [q] with [] => [set_duration a (i64 (pk_dts p - pk_dts a)); p] | _ => a :: stamp (t ++ [q]) p end).
  destruct (t ++ [q]) eqn:E; [destruct t; discriminate|]. now rewrite IH.
Qed.
Lemma stamp_length l p : length (stamp l p) = S (length l).
Proof. destruct l as [|l q] using rev_ind; [reflexivity|]. rewrite stamp_app, !app_length. cbn. lia. Qed.
Lemma removelast_snoc {A} (l : list A) x : removelast (l ++ [x]) = l.
Proof. rewrite removelast_app by discriminate. cbn. apply app_nil_r. Qed.

(** ** processBufferedPacket *)
Definition base_lists (d : demuxer) (p : packet) : list (list packet) :=
  if pk_index p <? zlen (dm_packets d) then dm_packets d else dm_packets d ++ [[]].
Definition threshold (d : demuxer) : Z := Z.max (dm_probe d) 200.

Lemma process_cases o d p d' e : process_buffered_packet o d p = Ok (d', e) ->
  exists k l, nth_error (base_lists d p) k = Some l /\ Z.of_nat k = Z.min (pk_index p) (zlen (dm_packets d)) /\
  let d1 ls := with_packets d (set_nth k ls (base_lists d p)) in
  ((l = [] \/ dm_completed d = false /\ total_ms o (removelast (stamp l p)) < threshold d) /\ d' = d1 (stamp l p) /\ e = [EvAdd p (zlen (dm_packets d))]) \/
  (exists l' q e', l = l' ++ [q] /\ dm_completed d = true /\ d' = d1 (l' ++ [p]) /\
     forward_packet d' (set_duration q (i64 (pk_dts p - pk_dts q))) = Ok e' /\ e = EvAdd p (zlen (dm_packets d)) :: e') \/
  (exists e', l <> [] /\ dm_completed d = false /\ threshold d <= total_ms o (removelast (stamp l p)) /\
     on_probe_complete o (d1 (stamp l p)) = Ok (d', e') /\ e = EvAdd p (zlen (dm_packets d)) :: e').
Proof.
  unfold process_buffered_packet. fold (base_lists d p).
  set (n := zlen (dm_packets d)). set (k := if pk_index p <? n then pk_index p else n). set (base := base_lists d p).
  destruct (idx base k) as [l|] eqn:I; cbn [of_opt bind]; [|discriminate].
  pose proof (idx_inv _ _ _ I) as B. intros R. exists (Z.to_nat k), l.
  split; [now rewrite <- idx_nth by lia|]. split.
  { rewrite Z2Nat.id by lia. unfold k. destruct (Z.ltb_spec (pk_index p) n); lia. }
  cbv zeta. destruct l as [|q l' _] using rev_ind.
  - left. cbn in R. rewrite upd_eq in R by lia. cbn in R. inversion R; subst. auto.
  - rewrite zlen_app, zlen_app in R. change (zlen [q]) with 1 in R. change (zlen [p]) with 1 in R. pose proof (zlen_nonneg l') as L0.
    destruct (Z.ltb_spec (zlen l' + 1 + 1 - 2) 0); [lia|]. replace (zlen l' + 1 + 1 - 2) with (zlen l') in R by lia.
    rewrite idx_nth in R by lia. replace (Z.to_nat (zlen l')) with (length l') in R by (unfold zlen; lia).
    assert (E1 : nth_error ((l' ++ [q]) ++ [p]) (length l') = Some q).
    { rewrite <- app_assoc, nth_error_app2, Nat.sub_diag by lia. reflexivity. }
    rewrite E1 in R. cbn [of_opt bind] in R.
    rewrite upd_eq in R by (rewrite !zlen_app; change (zlen [q]) with 1; change (zlen [p]) with 1; lia).
    replace (Z.to_nat (zlen l')) with (length l') in R by (unfold zlen; lia).
    rewrite <- app_assoc, set_nth_app_r, Nat.sub_diag in R by lia. cbn [app set_nth of_opt bind] in R.
    set (q1 := set_duration q (i64 (pk_dts p - pk_dts q))) in *.
    rewrite stamp_app. fold q1.
    destruct (dm_completed d) eqn:C.
    + right. left. rewrite firstn_app, Nat.sub_diag, firstn_all in R. cbn [firstn] in R. rewrite app_nil_r in R.
      rewrite skipn_app, (skipn_all2 l') in R by lia. replace (S (length l') - length l')%nat with 1%nat in R by lia. cbn [skipn app] in R.
      rewrite upd_eq in R by lia. cbn [of_opt bind] in R.
      destruct (forward_packet _ q1) as [e'| | |] eqn:F in R; cbn [bind] in R; try discriminate. inversion R; subst d' e.
      exists l', q, e'. fold q1. auto.
    + rewrite upd_eq in R by lia. cbn [of_opt bind] in R.
      assert (E2 : firstn (Z.to_nat (zlen l' + 1)) (l' ++ [q1; p]) = removelast (l' ++ [q1; p])).
      { replace (l' ++ [q1; p]) with ((l' ++ [q1]) ++ [p]) by now rewrite <- app_assoc. rewrite removelast_snoc.
        replace (Z.to_nat (zlen l' + 1)) with (length (l' ++ [q1])) by (rewrite app_length; cbn; unfold zlen; lia).
        rewrite firstn_app, Nat.sub_diag, firstn_all. cbn. apply app_nil_r. }
      rewrite E2 in R. change (dm_probe (with_packets _ _)) with (dm_probe d) in R. fold (threshold d) in R.
      destruct (Z.leb_spec (Z.max (threshold d) (total_ms o (removelast (l' ++ [q1; p])))) (total_ms o (removelast (l' ++ [q1; p])))).
      * right. right. destruct (on_probe_complete _ _) as [[d2 e2]| | |] eqn:P in R; cbn [bind] in R; try discriminate. inversion R; subst d2 e.
        exists e2. repeat split; auto; try lia. destruct l'; discriminate.
      * left. inversion R; subst d' e. repeat split; auto. right. split; auto. lia.
Qed.

(** ** forwardPacket and OnProbeComplete *)
Lemma forward_packet_ok d p e : forward_packet d p = Ok e ->
  dm_handler d = true /\
  ((dm_autofree d = false /\ e = [EvPacket p]) \/ (dm_autofree d = true /\ exists b, map_find (dm_map d) (pk_index p) = Some b /\ e = [EvPacket p; EvDiscardHead b])).
Proof.
  unfold forward_packet. destruct (dm_handler d); cbn [negb]; [|discriminate]. destruct (dm_autofree d).
  - destruct (map_find _ _); [|discriminate]. intros [= <-]. split; auto. right. eauto.
  - intros [= <-]. auto.
Qed.
Lemma forward_packet_events d p e : forward_packet d p = Ok e ->
  handler_events e = [EvPacket p] /\ delivered e = [p] /\ accepted e = [] /\ discards e = [].
Proof. intros F. destruct (forward_packet_ok _ _ _ F) as (_ & [(_ & ->)|(_ & b & _ & ->)]); auto. Qed.
Lemma forward_all_events d l : forall e, forward_all d l = Ok e ->
  handler_events e = map EvPacket l /\ delivered e = l /\ accepted e = [] /\ discards e = [].
Proof.
  induction l as [|p t IH]; intros e R; cbn [forward_all] in R.
  - inversion R; subst. auto.
  - destruct (forward_packet d p) as [e1| | |] eqn:F; cbn [bind] in R; try discriminate.
    destruct (forward_all d t) as [e2| | |] eqn:F2; cbn [bind] in R; try discriminate. inversion R; subst.
    destruct (forward_packet_events _ _ _ F) as (A & B & C & D). destruct (IH _ eq_refl) as (A' & B' & C' & D').
    rewrite handler_events_app, delivered_app, accepted_app, discards_app, A, B, C, D, A', B', C', D'. auto.
Qed.

Lemma complete_cases o d d' e : on_probe_complete o d = Ok (d', e) ->
  (dm_completed d = true /\ d' = d /\ e = []) \/
  (dm_completed d = false /\ dm_tracks d = [] /\ d' = with_completed d /\ e = [EvTrackNotFind]) \/
  (dm_completed d = false /\ dm_tracks d <> [] /\
   let ts := prepare_tracks o (dm_packets d) (dm_tracks d) in
   d' = with_packets (with_tracks (with_completed d) ts (dm_map d)) (map only_last (dm_packets d)) /\
   exists e', forward_all d' (or_sort o (List.concat (map all_but_last (dm_packets d)))) = Ok e' /\ e = map EvNewTrack ts ++ [EvTrackComplete] ++ e').
Proof.
  unfold on_probe_complete. destruct (dm_completed d) eqn:C; [intros [= <- <-]; auto|]. intros H. right.
  change (dm_tracks (with_completed d)) with (dm_tracks d) in *. destruct (dm_tracks d) as [|t0 ts0] eqn:T.
  - change (dm_handler (with_completed d)) with (dm_handler d) in H. destruct (dm_handler d); [|discriminate]. inversion H; subst. auto 6.
  - right. rewrite <- T in *. split; auto. split; [congruence|]. cbv zeta.
    change (dm_handler (with_tracks _ _ _)) with (dm_handler d) in H. destruct (dm_handler d) eqn:Hd; cbn [negb] in H; [|discriminate].
    change (dm_packets (with_tracks _ _ _)) with (dm_packets d) in H. change (dm_packets (with_completed d)) with (dm_packets d) in H.
    change (dm_map (with_completed d)) with (dm_map d) in H.
    destruct (forward_all _ _) as [e'| | |] eqn:F in H; cbn [bind] in H; try discriminate. inversion H; subst. eauto.
Qed.

(** ** Tracks and buffer indices *)
Definition wf (d : demuxer) : Prop :=
  (forall i s, idx (dm_tracks d) i = Some s -> st_index s = i) /\ map fst (dm_map d) = map Z.of_nat (seq 0 (length (dm_tracks d))).

(** The demuxer with a new track whose packets come from buffer [buf]. *)
Definition grow (d : demuxer) (s : stream) (buf : Z) : demuxer := with_tracks d (dm_tracks d ++ [s]) (dm_map d ++ [(zlen (dm_tracks d), buf)]).

Lemma wf_key d k : wf d -> In k (map fst (dm_map d)) -> 0 <= k < zlen (dm_tracks d).
Proof. intros [_ K] I. rewrite K in I. apply in_map_iff in I as (n & <- & I). apply in_seq in I. unfold zlen. lia. Qed.
Lemma map_set_fresh d v : wf d -> map_set (dm_map d) (zlen (dm_tracks d)) v = dm_map d ++ [(zlen (dm_tracks d), v)].
Proof.
  intros W. unfold map_set. f_equal. assert (F : forall k, In k (map fst (dm_map d)) -> 0 <= k < zlen (dm_tracks d)) by (intros; now apply wf_key).
  induction (dm_map d) as [|[a b] t IH]; [reflexivity|]. cbn [filter fst map] in *.
  destruct (Z.eqb_spec a (zlen (dm_tracks d))) as [E|E]; [exfalso; specialize (F a (or_introl eq_refl)); lia|]. cbn [negb]. f_equal. apply IH. intros; apply F. now right.
Qed.
Lemma wf_grow d s buf : wf d -> st_index s = zlen (dm_tracks d) -> wf (grow d s buf).
Proof.
  intros [T K] E. split; cbn [grow dm_tracks dm_map with_tracks].
  - intros i x I. destruct (Z.ltb_spec i (zlen (dm_tracks d))).
    + rewrite idx_app_l in I by lia. now apply T.
    + pose proof (idx_inv _ _ _ I) as B. rewrite zlen_app in B. change (zlen [s]) with 1 in B.
      rewrite idx_app_r in I by lia. replace (i - zlen (dm_tracks d)) with 0 in I by lia. cbn in I. inversion I; subst. lia.
  - rewrite map_app, K, app_length, seq_app, map_app. reflexivity.
Qed.

Lemma add_track_cases d s buf d1 t : wf d -> st_index s = zlen (dm_tracks d) -> add_track d s buf = (d1, t) ->
  (d1 = d /\ t = None) \/ (dm_completed d = false /\ d1 = grow d s buf /\ t = Some s).
Proof.
  intros W E. unfold add_track. destruct (dm_completed d); [intros [= <- <-]; auto|]. rewrite E, map_set_fresh by assumption. intros [= <- <-]. auto.
Qed.
Lemma create_audio_cases d buf id tb extra c d1 t : wf d -> create_audio_track d buf id tb extra c = Ok (d1, t) ->
  (d1 = d /\ t = None) \/ (dm_completed d = false /\ exists s, st_index s = zlen (dm_tracks d) /\ st_codec s = id /\ st_timebase s = tb /\ st_media s = AVMediaTypeAudio /\ d1 = grow d s buf /\ t = Some s).
Proof.
  intros W. unfold create_audio_track. destruct (_ && _).
  - destruct extra as [e|]; [|discriminate]. destruct (parse_asc e) as [a| | |]; try discriminate; [|intros [= <- <-]; auto].
    intros [= R]. apply add_track_cases in R; auto. destruct R as [R|(A & B & C)]; [now left|right]. split; [assumption|]. eexists. split; [|split; [|split; [|split; [|split; [exact B|exact C]]]]]; reflexivity.
  - intros [= R]. apply add_track_cases in R; auto. destruct R as [R|(A & B & C)]; [now left|right]. split; [assumption|]. eexists. split; [|split; [|split; [|split; [|split; [exact B|exact C]]]]]; reflexivity.
Qed.
Lemma create_video_cases o d buf id tb extra d1 t : wf d -> create_video_track o d buf id tb extra = Ok (d1, t) ->
  (d1 = d /\ t = None) \/ (dm_completed d = false /\ exists s, st_index s = zlen (dm_tracks d) /\ st_codec s = id /\ st_timebase s = tb /\ st_media s = AVMediaTypeVideo /\ d1 = grow d s buf /\ t = Some s).
Proof.
  intros W. unfold create_video_track. destruct (generate_video_codec_data _ _ _ _) as [a| | |]; try discriminate; [|intros [= <- <-]; auto].
  intros [= R]. apply add_track_cases in R; auto. destruct R as [R|(A & B & C)]; [now left|right]. split; [assumption|]. eexists. split; [|split; [|split; [|split; [|split; [exact B|exact C]]]]]; reflexivity.
Qed.

Definition no_buffer (d : demuxer) (buf : Z) : Prop := forall i, ~ In (i, buf) (dm_map d).
Lemma find_track_cases o d buf r : find_track o d buf = Ok r ->
  (r = None /\ no_buffer d buf) \/ (exists i s, r = Some s /\ In (i, buf) (dm_map d) /\ idx (dm_tracks d) i = Some s).
Proof.
  unfold find_track. set (c := filter _ _). destruct (nth_error c _) as [[i b]|] eqn:N.
  - unfold tm_get. destruct (idx (dm_tracks d) i) as [s|] eqn:I; cbn [of_opt bind]; [|discriminate]. intros [= <-]. right. exists i, s. split; auto.
    apply nth_error_In in N. apply filter_In in N as [N E]. cbn in E. apply Z.eqb_eq in E. now subst.
  - intros [= <-]. left. split; auto. intros i I. assert (F : In (i, buf) c) by (apply filter_In; split; [assumption|apply Z.eqb_refl]).
    destruct c as [|x c']; [destruct F|]. apply nth_error_None in N. cbn [length] in N. pose proof (Nat.mod_upper_bound (or_pick o) (S (length c')) ltac:(lia)). lia.
Qed.

Definition apply_pre (f : option (packet -> packet)) (p : packet) : packet := match f with Some g => g p | None => p end.

(** What a successful OnAudioPacket / OnVideoPacket does: discard the block, or process one packet made from it, after adding a
    track if none is known for the buffer. *)
Definition packet_step (o : oracle) (d : demuxer) (buf id : Z) (data : list Z) (dts : Z) (pre : option (packet -> packet)) (d' : demuxer) (e : list event) : Prop :=
  (d' = d /\ e = [EvDiscardBack buf]) \/
  (exists d1 i s p, (d1 = d \/ (dm_completed d = false /\ no_buffer d buf /\ st_index s = zlen (dm_tracks d) /\ st_codec s = id /\ get_timebase (dm_name d) = Ok (st_timebase s) /\ d1 = grow d s buf)) /\
     In (i, buf) (dm_map d1) /\ idx (dm_tracks d1) i = Some s /\
     pk_data p = data /\ pk_dts p = dts /\ pk_index p = i /\ pk_buffer p = buf /\ pk_codec p = id /\ pk_timebase p = st_timebase s /\ pk_duration p = 0 /\
     process_buffered_packet o d1 (apply_pre pre p) = Ok (d', e)).

Lemma pool_duration o : pk_duration (pool_packet o) = 0.
Proof. unfold pool_packet. destruct (or_recycled o); reflexivity. Qed.

Lemma grow_last d s buf : In (zlen (dm_tracks d), buf) (dm_map (grow d s buf)) /\ idx (dm_tracks (grow d s buf)) (zlen (dm_tracks d)) = Some s.
Proof.
  split; cbn [grow dm_map dm_tracks with_tracks].
  - apply in_or_app. right. now left.
  - rewrite idx_app_r by (pose proof (zlen_nonneg (dm_tracks d)); lia). rewrite Z.sub_diag. reflexivity.
Qed.

Lemma audio_step o d buf id data ts d' e : wf d -> on_audio_packet o d buf id data ts = Ok (d', e) -> packet_step o d buf id data ts None d' e.
Proof.
  intros W. unfold on_audio_packet. destruct (find_track o d buf) as [r| | |] eqn:F; cbn [bind]; try discriminate.
  apply find_track_cases in F as [(-> & N)|(i & s & -> & I & T)].
  - destruct (dm_completed d) eqn:C; [cbn [bind]; intros [= <- <-]; now left|].
    destruct (extract_audio_extra_data id data) as [[[extra skip] config]| | |] eqn:X; cbn [bind]; try discriminate; [|intros [= <- <-]; now left].
    destruct (get_timebase (dm_name d)) as [tb| | |] eqn:G; cbn [bind]; try discriminate.
    destruct (create_audio_track d buf id tb extra config) as [[d1 t]| | |] eqn:Cr; cbn [bind]; try discriminate.
    apply create_audio_cases in Cr; auto. destruct Cr as [(-> & ->)|(_ & s & S1 & S2 & S3 & S4 & -> & ->)]; [intros [= <- <-]; now left|].
    intros P. right. destruct (grow_last d s buf) as [G1 G2].
    eexists (grow d s buf), (zlen (dm_tracks d)), s, _. split; [right; rewrite S3; auto 8|]. split; [exact G1|]. split; [exact G2|].
    split; [|split; [|split; [|split; [|split; [|split; [|split; [|exact P]]]]]]]; try reflexivity. exact S1. apply pool_duration.
  - cbn [bind]. intros P. right. eexists d, i, s, _. split; [now left|]. split; [exact I|]. split; [exact T|].
    split; [|split; [|split; [|split; [|split; [|split; [|split; [|exact P]]]]]]]; try reflexivity. cbn. now apply W. apply pool_duration.
Qed.
Lemma video_step o d buf id data key dts pts d' e : wf d -> on_video_packet o d buf id data key dts pts = Ok (d', e) ->
  packet_step o d buf id data dts (dm_pre d) d' e.
Proof.
  intros W. unfold on_video_packet. destruct (find_track o d buf) as [r| | |] eqn:F; cbn [bind]; try discriminate.
  apply find_track_cases in F as [(-> & N)|(i & s & -> & I & T)].
  - destruct (dm_completed d) eqn:C; cbn [negb andb]; [cbn [bind]; intros [= <- <-]; now left|].
    destruct (_ =? _) eqn:PT; [|cbn [bind]; intros [= <- <-]; now left].
    destruct (if key then _ else _) as [extra| | |]; cbn [bind]; try discriminate.
    destruct (match extra with Some e0 => Ok (Some e0) | None => _ end) as [[e1|]| | |]; cbn [bind]; try discriminate; [|intros [= <- <-]; now left].
    destruct (get_timebase (dm_name d)) as [tb| | |] eqn:G; cbn [bind]; try discriminate.
    destruct (create_video_track o d buf id tb e1) as [[d1 t]| | |] eqn:Cr; cbn [bind]; try discriminate.
    apply create_video_cases in Cr; auto. destruct Cr as [(-> & ->)|(_ & s & S1 & S2 & S3 & S4 & -> & ->)]; [intros [= <- <-]; now left|].
    intros P. right. destruct (grow_last d s buf) as [G1 G2].
    eexists (grow d s buf), (zlen (dm_tracks d)), s, _. split; [right; rewrite S3; auto 8|]. split; [exact G1|]. split; [exact G2|].
    split; [|split; [|split; [|split; [|split; [|split; [|split; [|exact P]]]]]]]; try reflexivity. exact S1. apply pool_duration.
  - cbn [bind]. intros P. right. eexists d, i, s, _. split; [now left|]. split; [exact I|]. split; [exact T|].
    split; [|split; [|split; [|split; [|split; [|split; [|split; [|exact P]]]]]]]; try reflexivity. cbn. now apply W. apply pool_duration.
Qed.

(** The four kinds of steps. *)
Definition op_input (a : op) : option (Z * Z * list Z * Z) :=
  match a with OpAudio buf id data ts => Some (buf, id, data, ts) | OpVideo buf id data _ dts _ => Some (buf, id, data, dts) | _ => None end.
Definition op_pre (d : demuxer) (a : op) : option (packet -> packet) := match a with OpVideo _ _ _ _ _ _ => dm_pre d | _ => None end.
Definition op_new_buf (a : op) : option Z := match a with OpNewAudio buf _ _ _ _ => Some buf | OpNewVideo buf _ _ _ => Some buf | _ => None end.
Definition quiet (e : event) : bool := match e with EvDiscardBack _ | EvDiscardHead _ | EvIndex _ _ => true | _ => false end.
Definition same_core (d d' : demuxer) : Prop :=
  dm_tracks d' = dm_tracks d /\ dm_map d' = dm_map d /\ dm_packets d' = dm_packets d /\ dm_completed d' = dm_completed d.

Lemma step_cases o d a d' e : wf d -> step o d a = Ok (d', e) ->
  (same_core d d' /\ forallb quiet e = true /\ op_input a = None) \/
  (exists buf s, op_new_buf a = Some buf /\ dm_completed d = false /\ st_index s = zlen (dm_tracks d) /\ d' = grow d s buf /\ forallb quiet e = true) \/
  (exists buf id data dts, op_input a = Some (buf, id, data, dts) /\ packet_step o d buf id data dts (op_pre d a) d' e) \/
  ((a = OpProbeComplete \/ a = OpTryComplete) /\ on_probe_complete o d = Ok (d', e)).
Proof.
  intros W S. destruct a; cbn [step] in S;
    try (left; injection S as <- <-; split; [repeat split|split; reflexivity]; fail).
  - unfold on_new_audio_track in S.
    destruct (match tm_find_type (dm_tracks d) AVMediaTypeAudio with None => _ | Some _ => _ end) as [[d1 t]| | |] eqn:M; cbn [bind] in S; try discriminate.
    injection S as <- <-.
    assert (Q : forallb quiet (discard_if (0 <? zlen (of_nil extra)) buf) = true) by (unfold discard_if; destruct (_ <? _); reflexivity).
    assert (C : (d1 = d /\ t = None) \/ create_audio_track d buf id timebase extra config = Ok (d1, t)).
    { destruct (tm_find_type _ _); [destruct (_ =? _)%string; [now right|injection M as <- <-; now left]|now right]. }
    destruct C as [(-> & ->)|C]; [left; split; [repeat split|now split]|].
    apply create_audio_cases in C; auto. destruct C as [(-> & ->)|(C0 & s & S1 & _ & _ & _ & -> & ->)]; [left; split; [repeat split|now split]|]. right. left. exists buf, s. auto 6.
  - unfold on_new_video_track in S.
    destruct (match tm_find_type (dm_tracks d) AVMediaTypeVideo with None => _ | Some _ => _ end) as [[d1 t]| | |] eqn:M; cbn [bind] in S; try discriminate.
    injection S as <- <-.
    assert (Q : forallb quiet (discard_if (0 <? zlen extra) buf) = true) by (unfold discard_if; destruct (_ <? _); reflexivity).
    assert (C : (d1 = d /\ t = None) \/ create_video_track o d buf id timebase extra = Ok (d1, t)).
    { destruct (tm_find_type _ _); [destruct (_ =? _)%string; [now right|injection M as <- <-; now left]|now right]. }
    destruct C as [(-> & ->)|C]; [left; split; [repeat split|now split]|].
    apply create_video_cases in C; auto. destruct C as [(-> & ->)|(C0 & s & S1 & _ & _ & _ & -> & ->)]; [left; split; [repeat split|now split]|]. right. left. exists buf, s. auto 6.
  - right. right. left. exists buf, id, data, ts. split; [reflexivity|]. now apply audio_step.
  - right. right. left. exists buf, id, data, dts. split; [reflexivity|]. eapply video_step; eauto.
  - right. right. right. auto.
  - unfold try_complete_probe in S. destruct (need_more d).
    + left. injection S as <- <-. repeat split.
    + right. right. right. auto.
  - unfold find_buffer_index in S. left. destruct (marker_index _ _ _); injection S as <- <-; repeat split.
Qed.

Lemma quiet_facts e : forallb quiet e = true -> handler_events e = [] /\ accepted e = [] /\ delivered e = [].
Proof.
  induction e as [|x t IH]; [auto|]. cbn [forallb]. intros Q. apply andb_prop in Q as [Q1 Q2]. destruct (IH Q2) as (A & B & C).
  destruct x; try discriminate; repeat split; assumption.
Qed.

(** A track keeps everything but its audio parameters. *)
Definition same_track (s s' : stream) : Prop :=
  st_media s' = st_media s /\ st_index s' = st_index s /\ st_codec s' = st_codec s /\ st_params s' = st_params s /\ st_data s' = st_data s /\ st_timebase s' = st_timebase s /\
  ac_sample_size (st_audio s') = ac_sample_size (st_audio s) /\ ac_channels (st_audio s') = ac_channels (st_audio s) /\ ac_has_adts (st_audio s') = ac_has_adts (st_audio s).
Lemma same_track_refl s : same_track s s.
Proof. repeat split. Qed.
Lemma same_track_trans a b c : same_track a b -> same_track b c -> same_track a c.
Proof. intros (? & ? & ? & ? & ? & ? & ? & ? & ?) (? & ? & ? & ? & ? & ? & ? & ? & ?). repeat split; congruence. Qed.
Lemma Forall2_same_refl l : Forall2 same_track l l.
Proof. induction l; constructor; auto using same_track_refl. Qed.
Lemma Forall2_same_trans a : forall b c, Forall2 same_track a b -> Forall2 same_track b c -> Forall2 same_track a c.
Proof. induction a; intros b c H1 H2; inversion H1; subst; inversion H2; subst; constructor; eauto using same_track_trans. Qed.
Lemma Forall2_same_map f l : (forall s, same_track s (f s)) -> Forall2 same_track l (map f l).
Proof. intros H. induction l; constructor; auto. Qed.
Lemma prepare_same o ps ts : Forall2 same_track ts (prepare_tracks o ps ts).
Proof.
  unfold prepare_tracks. apply Forall2_same_trans with (calculate_pcm_frequency o ps ts).
  - unfold calculate_pcm_frequency. destruct (first_packet_of _ _); [|apply Forall2_same_refl]. destruct (_ <? 1); [apply Forall2_same_refl|].
    apply Forall2_same_map. intros s. destruct (_ =? _); [repeat split|apply same_track_refl].
  - unfold calculate_g726_bit_rate. destruct (first_packet_of _ _); [|apply Forall2_same_refl]. destruct (_ <? 1); [apply Forall2_same_refl|].
    destruct (g726_bit_rate _); [|apply Forall2_same_refl]. apply Forall2_same_map. intros s. destruct (_ =? _); [repeat split|apply same_track_refl].
Qed.
Lemma Forall2_nth {A B} (R : A -> B -> Prop) l l' : Forall2 R l l' -> forall n y, nth_error l' n = Some y -> exists x, nth_error l n = Some x /\ R x y.
Proof. induction 1; intros [|n] z; cbn; try discriminate; [intros [= <-]; eauto|apply IHForall2]. Qed.
Lemma Forall2_len {A B} (R : A -> B -> Prop) l l' : Forall2 R l l' -> length l = length l'.
Proof. induction 1; cbn; auto. Qed.

Lemma wf_same d d' : wf d -> Forall2 same_track (dm_tracks d) (dm_tracks d') -> dm_map d' = dm_map d -> wf d'.
Proof.
  intros [T K] F M. split.
  - intros i s I. pose proof (idx_inv _ _ _ I). rewrite idx_nth in I by lia. destruct (Forall2_nth _ _ _ F _ _ I) as (x & N & Sm).
    destruct Sm as (_ & -> & _). apply T. now rewrite idx_nth by lia.
  - rewrite M, K. f_equal. f_equal. eapply Forall2_len; eauto.
Qed.
Lemma complete_same o d d' e : on_probe_complete o d = Ok (d', e) -> Forall2 same_track (dm_tracks d) (dm_tracks d') /\ dm_map d' = dm_map d.
Proof.
  intros C. apply complete_cases in C as [(_ & -> & _)|[(_ & _ & -> & _)|(_ & _ & -> & _)]]; (split; [|reflexivity]).
  apply Forall2_same_refl. apply Forall2_same_refl. apply prepare_same.
Qed.
Lemma process_same o d p d' e : process_buffered_packet o d p = Ok (d', e) -> Forall2 same_track (dm_tracks d) (dm_tracks d') /\ dm_map d' = dm_map d.
Proof.
  intros P. apply process_cases in P as (k & l & _ & _ & [(_ & -> & _)|[(l' & q & e' & _ & _ & -> & _)|(e' & _ & _ & _ & C & _)]]).
  - split; [apply Forall2_same_refl|reflexivity].
  - split; [apply Forall2_same_refl|reflexivity].
  - apply complete_same in C. exact C.
Qed.

Lemma packet_step_wf o d buf id data dts pre d' e : wf d -> packet_step o d buf id data dts pre d' e -> wf d'.
Proof.
  intros W [(-> & _)|(d1 & i & s & p & G & _ & _ & _ & _ & _ & _ & _ & _ & _ & P)]; [assumption|].
  apply process_same in P as [P1 P2]. refine (wf_same d1 _ _ P1 P2).
  destruct G as [->|(_ & _ & E & _ & _ & ->)]; [assumption|now apply wf_grow].
Qed.
Lemma step_wf o d a d' e : wf d -> step o d a = Ok (d', e) -> wf d'.
Proof.
  intros W S. destruct (step_cases _ _ _ _ _ W S) as [((T & M & _) & _)|[(buf & s & _ & _ & E & -> & _)|[(buf & id & data & dts & _ & P)|(_ & C)]]].
  - apply (wf_same d); auto. rewrite T. apply Forall2_same_refl.
  - now apply wf_grow.
  - eapply packet_step_wf; eauto.
  - apply complete_same in C as [C1 C2]. eapply wf_same; eauto.
Qed.
Lemma wf_new name : wf (dm_new name).
Proof. split; [|reflexivity]. intros i s I. apply idx_inv in I. change (zlen (dm_tracks (dm_new name))) with 0 in I. lia. Qed.

(** ** Probe completion and callbacks *)
Definition call_order (d : demuxer) (evs : list event) : Prop :=
  if dm_completed d then
    (dm_tracks d = [] /\ handler_events evs = [EvTrackNotFind]) \/
    (dm_tracks d <> [] /\ exists ps, handler_events evs = map EvNewTrack (dm_tracks d) ++ [EvTrackComplete] ++ map EvPacket ps)
  else handler_events evs = [].

Lemma complete_order o d d' e evs : dm_completed d = false -> handler_events evs = [] -> on_probe_complete o d = Ok (d', e) -> call_order d' (evs ++ e).
Proof.
  intros C0 H C. unfold call_order. rewrite handler_events_app, H.
  apply complete_cases in C as [(X & _)|[(_ & T & -> & ->)|(_ & T & -> & e' & F & ->)]]; [congruence| |].
  - left. auto.
  - cbn [dm_completed with_packets with_tracks with_completed dm_tracks]. right. split.
    + intros X. pose proof (prepare_same o (dm_packets d) (dm_tracks d)) as Sm. rewrite X in Sm. inversion Sm. congruence.
    + apply forward_all_events in F as (F & _). exists (or_sort o (List.concat (map all_but_last (dm_packets d)))).
      rewrite !handler_events_app, handler_new_tracks, F. reflexivity.
Qed.
Lemma process_order o d p d' e evs : call_order d evs -> dm_tracks d <> [] -> process_buffered_packet o d p = Ok (d', e) -> call_order d' (evs ++ e).
Proof.
  intros O T P. apply process_cases in P as (k & l & _ & _ & [(_ & -> & ->)|[(l' & q & e' & _ & C & -> & F & ->)|(e' & _ & C & _ & P & ->)]]).
  - unfold call_order in *. rewrite handler_events_app, app_nil_r. exact O.
  - unfold call_order in *. rewrite C in O. cbn [dm_completed with_packets]. rewrite C. right. split; [exact T|]. destruct O as [(O & _)|(_ & ps & O)]; [congruence|].
    apply forward_packet_events in F as (F & _). exists (ps ++ [set_duration q (i64 (pk_dts p - pk_dts q))]).
    rewrite handler_events_app, O. change (handler_events (EvAdd p (zlen (dm_packets d)) :: e')) with (handler_events e').
    rewrite F, map_app, <- !app_assoc. reflexivity.
  - replace (evs ++ EvAdd p (zlen (dm_packets d)) :: e') with ((evs ++ [EvAdd p (zlen (dm_packets d))]) ++ e') by now rewrite <- app_assoc.
    eapply complete_order; [| |exact P]; [exact C|]. rewrite handler_events_app. unfold call_order in O. rewrite C in O. now rewrite O.
Qed.
Lemma step_order o d a d' e evs : wf d -> call_order d evs -> step o d a = Ok (d', e) -> call_order d' (evs ++ e).
Proof.
  intros W O S. destruct (step_cases _ _ _ _ _ W S) as [((T & M & Pk & C) & Q & _)|[(buf & s & _ & C & E & -> & Q)|[(buf & id & data & dts & _ & P)|(_ & C)]]].
  - apply quiet_facts in Q as (Q & _). unfold call_order in *. rewrite handler_events_app, Q, app_nil_r, C, T. exact O.
  - apply quiet_facts in Q as (Q & _). unfold call_order in *. rewrite handler_events_app, Q, app_nil_r. cbn [dm_completed grow with_tracks]. rewrite C in *. exact O.
  - destruct P as [(-> & ->)|(d1 & i & s & p & G & I & X & _ & _ & _ & _ & _ & _ & _ & P)].
    + unfold call_order in *. rewrite handler_events_app, app_nil_r. exact O.
    + eapply process_order; [| |exact P].
      * destruct G as [->|(C & _ & _ & _ & _ & ->)]; [exact O|]. unfold call_order in *. cbn [dm_completed grow with_tracks]. rewrite C in *. exact O.
      * intros Y. rewrite Y in X. apply idx_inv in X. change (zlen (@nil stream)) with 0 in X. lia.
  - destruct (dm_completed d) eqn:C0.
    + apply complete_cases in C as [(_ & -> & ->)|[(X & _)|(X & _)]]; [|congruence|congruence]. now rewrite app_nil_r.
    + eapply complete_order; eauto. unfold call_order in O. now rewrite C0 in O.
Qed.

(** ** Conservation of packets *)
Definition nodur (p : packet) : packet := set_duration p 0.
Lemma nodur_set p v : nodur (set_duration p v) = nodur p.
Proof. reflexivity. Qed.
Definition balanced (d : demuxer) (evs : list event) : Prop :=
  Permutation (map nodur (accepted evs)) (map nodur (delivered evs) ++ map nodur (List.concat (dm_packets d))) /\
  (dm_completed d = true -> Forall (fun l => (length l <= 1)%nat) (dm_packets d)).

Lemma nth_set_concat {A} (ls : list (list A)) k l : nth_error ls k = Some l -> forall l', exists pre post,
  List.concat ls = pre ++ l ++ post /\ List.concat (set_nth k l' ls) = pre ++ l' ++ post.
Proof.
  revert k. induction ls as [|x t IH]; intros [|k] E l'; cbn in E; try discriminate.
  - inversion E; subst. exists [], (List.concat t). auto.
  - destruct (IH k E l') as (pre & post & E1 & E2). exists (x ++ pre), post. cbn [List.concat set_nth]. rewrite E1, E2, <- !app_assoc. auto.
Qed.
Lemma Forall_set_nth {A} (P : A -> Prop) l k x : Forall P l -> P x -> Forall P (set_nth k x l).
Proof. intros F H. revert k. induction F; intros [|k]; cbn; constructor; auto. Qed.
Lemma base_concat d p : List.concat (base_lists d p) = List.concat (dm_packets d).
Proof. unfold base_lists. destruct (_ <? _); auto. rewrite concat_app. cbn. apply app_nil_r. Qed.
Lemma base_Forall P d p : Forall P (dm_packets d) -> P [] -> Forall P (base_lists d p).
Proof. unfold base_lists. destruct (_ <? _); auto. intros. apply Forall_app. auto. Qed.
Lemma stamp_nodur l p : map nodur (stamp l p) = map nodur l ++ [nodur p].
Proof. destruct l as [|q l _] using rev_ind; [reflexivity|]. rewrite stamp_app, !map_app, <- app_assoc. reflexivity. Qed.
Lemma split_last_perm ls : Permutation (List.concat ls) (List.concat (map all_but_last ls) ++ List.concat (map only_last ls)).
Proof.
  induction ls as [|l t IH]; [constructor|]. cbn [map List.concat].
  assert (E : l = all_but_last l ++ only_last l).
  { unfold all_but_last, only_last. destruct l as [|a t0]; [reflexivity|]. rewrite (app_removelast_last a) at 1 by discriminate. f_equal. f_equal. destruct t0; reflexivity. }
  rewrite E at 1. rewrite <- !app_assoc. apply Permutation_app_head. rewrite IH.
  rewrite app_assoc. rewrite (Permutation_app_comm (only_last l)). rewrite <- app_assoc. reflexivity.
Qed.
Lemma only_last_short ls : Forall (fun l : list packet => (length l <= 1)%nat) (map only_last ls).
Proof. induction ls as [|[|a t] r IH]; cbn; constructor; cbn; auto. Qed.

Lemma complete_balanced o d d' e evs : oracle_ok o -> wf d -> (dm_tracks d = [] -> dm_packets d = []) -> balanced d evs ->
  on_probe_complete o d = Ok (d', e) -> balanced d' (evs ++ e).
Proof.
  intros O W NT [B1 B2] C. apply complete_cases in C as [(X & -> & ->)|[(X & T & -> & ->)|(X & T & -> & e' & F & ->)]].
  - rewrite app_nil_r. split; assumption.
  - unfold balanced. rewrite accepted_app, delivered_app, !app_nil_r. split; [exact B1|]. intros _. cbn [dm_packets with_completed]. rewrite NT by assumption. constructor.
  - apply forward_all_events in F as (_ & F1 & F2 & _). unfold balanced. cbn [dm_packets with_packets dm_completed].
    rewrite !accepted_app, !delivered_app, accepted_new_tracks, delivered_new_tracks, F1, F2. cbn [app accepted delivered flat_map].
    rewrite app_nil_r. split; [|intros _; apply only_last_short].
    rewrite B1, map_app, <- app_assoc. apply Permutation_app_head. rewrite <- map_app. apply Permutation_map.
    rewrite (split_last_perm (dm_packets d)). apply Permutation_app_tail. apply O.
Qed.
Lemma process_balanced o d p d' e evs : oracle_ok o -> wf d -> dm_tracks d <> [] -> balanced d evs ->
  process_buffered_packet o d p = Ok (d', e) -> balanced d' (evs ++ e).
Proof.
  intros O W T [B1 B2] P. apply process_cases in P as (k & l & N & _ & P).
  assert (Add : forall l' ql, Permutation (map nodur (l ++ [p])) (map nodur (ql ++ l')) ->
    Permutation (map nodur (accepted (evs ++ [EvAdd p (zlen (dm_packets d))]))) (map nodur (delivered evs ++ ql) ++ map nodur (List.concat (set_nth k l' (base_lists d p))))).
  { intros l' ql E. rewrite accepted_app, map_app, B1. cbn [accepted flat_map map app].
    destruct (nth_set_concat _ _ _ N l') as (pre & post & E1 & E2). rewrite base_concat in E1. rewrite E1, E2.
    rewrite !map_app in *. cbn [map] in *. rewrite <- !app_assoc. apply Permutation_app_head.
    rewrite (Permutation_app_comm (map nodur post)). rewrite app_assoc, app_assoc.
    rewrite <- (app_assoc (map nodur pre)). rewrite E. rewrite !app_assoc. apply Permutation_app_tail. apply Permutation_app_tail. apply Permutation_app_comm. }
  destruct P as [(H & -> & ->)|[(l' & q & e' & -> & C & -> & F & ->)|(e' & L & C & _ & P & ->)]].
  - split; cbn [dm_packets with_packets dm_completed].
    + specialize (Add (stamp l p) []). rewrite app_nil_r in Add. rewrite (delivered_app evs). cbn [delivered flat_map]. rewrite app_nil_r. apply Add.
      cbn [app]. rewrite stamp_nodur, map_app. reflexivity.
    + intros Cp. destruct H as [->|(X & _)]; [|congruence]. apply Forall_set_nth; [|cbn; lia]. apply base_Forall; auto.
  - apply forward_packet_events in F as (_ & F1 & F2 & _). split; cbn [dm_packets with_packets dm_completed].
    + specialize (Add (l' ++ [p]) [set_duration q (i64 (pk_dts p - pk_dts q))]).
      replace (EvAdd p (zlen (dm_packets d)) :: e') with ([EvAdd p (zlen (dm_packets d))] ++ e') by reflexivity.
      rewrite app_assoc, (accepted_app (evs ++ _)), (delivered_app (evs ++ _)), F1, F2, app_nil_r, (delivered_app evs). cbn [delivered flat_map]. rewrite app_nil_r. apply Add.
      rewrite !map_app. cbn [map app]. rewrite nodur_set. rewrite <- !app_assoc. rewrite Permutation_app_comm. cbn. apply perm_skip. rewrite Permutation_app_comm. reflexivity.
    + intros Cp. specialize (B2 Cp). apply Forall_set_nth; [now apply base_Forall; [|cbn; lia]|].
      assert (L : (length (l' ++ [q]) <= 1)%nat). { eapply Forall_forall in B2; [exact B2|]. apply nth_error_In in N. unfold base_lists in N. destruct (_ <? _); auto.
        apply in_app_or in N as [N|[N|[]]]; auto. destruct l'; discriminate. }
      rewrite app_length in *. exact L.
  - replace (evs ++ EvAdd p (zlen (dm_packets d)) :: e') with ((evs ++ [EvAdd p (zlen (dm_packets d))]) ++ e') by now rewrite <- app_assoc.
    eapply complete_balanced; [exact O| | | |exact P].
    + apply (wf_same d); auto. apply Forall2_same_refl.
    + intros X. exfalso. exact (T X).
    + split; cbn [dm_packets with_packets dm_completed]; [|congruence].
      specialize (Add (stamp l p) []). rewrite app_nil_r in Add. rewrite (delivered_app evs). cbn [delivered flat_map]. rewrite app_nil_r. apply Add.
      cbn [app]. rewrite stamp_nodur, map_app. reflexivity.
Qed.

Definition no_orphans (d : demuxer) : Prop := dm_tracks d = [] -> dm_packets d = [].
Lemma process_tracks o d p d' e : process_buffered_packet o d p = Ok (d', e) -> dm_tracks d <> [] -> dm_tracks d' <> [].
Proof. intros P T X. apply process_same in P as [P _]. rewrite X in P. inversion P. congruence. Qed.
Lemma grow_tracks d s buf : dm_tracks (grow d s buf) <> [].
Proof. cbn. destruct (dm_tracks d); discriminate. Qed.
Lemma idx_not_nil {A} (l : list A) i x : idx l i = Some x -> l <> [].
Proof. intros I ->. apply idx_inv in I. change (zlen (@nil A)) with 0 in I. lia. Qed.

Lemma step_balanced o d a d' e evs : oracle_ok o -> wf d -> no_orphans d -> balanced d evs -> step o d a = Ok (d', e) ->
  no_orphans d' /\ balanced d' (evs ++ e).
Proof.
  intros O W NO B S. destruct (step_cases _ _ _ _ _ W S) as [((T & M & Pk & C) & Q & _)|[(buf & s & _ & C & E & -> & Q)|[(buf & id & data & dts & _ & P)|(_ & C)]]].
  - apply quiet_facts in Q as (_ & Q1 & Q2). unfold no_orphans, balanced in *. rewrite accepted_app, delivered_app, Q1, Q2, !app_nil_r, C, T, Pk. auto.
  - apply quiet_facts in Q as (_ & Q1 & Q2). split; [intros X; now apply grow_tracks in X|].
    unfold balanced in *. rewrite accepted_app, delivered_app, Q1, Q2, !app_nil_r. exact B.
  - destruct P as [(-> & ->)|(d1 & i & s & p & G & I & X & _ & _ & _ & _ & _ & _ & _ & P)].
    + split; [exact NO|]. unfold balanced in *. rewrite accepted_app, delivered_app, !app_nil_r. exact B.
    + assert (W1 : wf d1) by (destruct G as [->|(_ & _ & G & _ & _ & ->)]; [assumption|now apply wf_grow]).
      assert (B1 : balanced d1 evs) by (destruct G as [->|(_ & _ & _ & _ & _ & ->)]; exact B).
      apply idx_not_nil in X. split; [intros Y; now apply (process_tracks _ _ _ _ _ P X) in Y|]. eapply process_balanced; eauto.
  - split; [|eapply complete_balanced; eauto]. intros X. apply complete_cases in C as [(_ & -> & _)|[(_ & Y & -> & _)|(_ & Y & -> & _)]].
    + now apply NO.
    + now apply NO.
    + exfalso. pose proof (prepare_same o (dm_packets d) (dm_tracks d)) as Sm. cbn [dm_tracks with_packets with_tracks] in X. rewrite X in Sm. inversion Sm. congruence.
Qed.

(** ** Durations and order within a stream *)
Definition of_index (i : Z) (l : list packet) : list packet := filter (fun p => pk_index p =? i) l.
(** Every packet but the last gets the distance to the next one as its duration. *)
Fixpoint durs (l : list packet) : list packet :=
  match l with
  | p :: ((q :: _) as t) => set_duration p (i64 (pk_dts q - pk_dts p)) :: durs t
  | _ => l
  end.
Definition aligned (evs : list event) : Prop := Forall (fun e => match e with EvAdd p n => 0 <= pk_index p <= n | _ => True end) evs.
Definition dts_lt (a b : packet) : Prop := pk_dts a < pk_dts b.
Definition ascending (l : list packet) : Prop := StronglySorted dts_lt l.

Lemma durs_snoc2 l q p : durs (l ++ [q; p]) = removelast (durs (l ++ [q])) ++ [set_duration q (i64 (pk_dts p - pk_dts q)); p].
Proof.
  induction l as [|a t IH]; [reflexivity|]. destruct t as [|b t]; [reflexivity|].
  change (durs ((a :: b :: t) ++ [q; p])) with (set_duration a (i64 (pk_dts b - pk_dts a)) :: durs ((b :: t) ++ [q; p])). rewrite IH.
  change (durs ((a :: b :: t) ++ [q])) with (set_duration a (i64 (pk_dts b - pk_dts a)) :: durs ((b :: t) ++ [q])).
  destruct (durs ((b :: t) ++ [q])) eqn:E; [destruct t; discriminate|]. reflexivity.
Qed.
Lemma durs_last l q : exists x, durs (l ++ [q]) = x ++ [q].
Proof.
  induction l as [|a t IH]; [exists []; reflexivity|]. destruct IH as (x & E). destruct t as [|b t].
  - eexists [_]. reflexivity.
  - change (durs ((a :: b :: t) ++ [q])) with (set_duration a (i64 (pk_dts b - pk_dts a)) :: durs ((b :: t) ++ [q])). rewrite E. eexists (_ :: x). reflexivity.
Qed.
Lemma durs_snoc l p : durs (l ++ [p]) = stamp (durs l) p.
Proof.
  destruct l as [|q l _] using rev_ind; [reflexivity|]. rewrite <- app_assoc. cbn [app]. rewrite durs_snoc2.
  destruct (durs_last l q) as (x & ->). rewrite removelast_snoc, stamp_app. reflexivity.
Qed.
Lemma durs_length l : length (durs l) = length l.
Proof. induction l as [|a [|b t] IH]; auto. cbn [durs length] in *. now rewrite IH. Qed.
Lemma durs_map {B} (f : packet -> B) l : (forall p v, f (set_duration p v) = f p) -> map f (durs l) = map f l.
Proof. intros F. induction l as [|a [|b t] IH]; auto. cbn [durs map] in *. now rewrite F, IH. Qed.
Lemma of_index_app i a b : of_index i (a ++ b) = of_index i a ++ of_index i b.
Proof. apply filter_app. Qed.
Lemma of_index_all i l : Forall (fun p => pk_index p = i) l -> of_index i l = l.
Proof. unfold of_index. induction 1 as [|p t H _ IH]; [reflexivity|]. cbn [filter]. rewrite H, Z.eqb_refl, IH. reflexivity. Qed.
Lemma of_index_none i l : Forall (fun p => pk_index p <> i) l -> of_index i l = [].
Proof. unfold of_index. induction 1 as [|p t H _ IH]; [reflexivity|]. cbn [filter]. destruct (Z.eqb_spec (pk_index p) i); [congruence|exact IH]. Qed.
Lemma of_index_idx i l : Forall (fun p => pk_index p = i) (of_index i l).
Proof. apply Forall_forall. intros p I. apply filter_In in I as [_ I]. now apply Z.eqb_eq. Qed.
Lemma Forall_durs (P : Z -> Prop) l : Forall (fun p => P (pk_index p)) l -> Forall (fun p => P (pk_index p)) (durs l).
Proof. intros F. apply Forall_map. rewrite durs_map by reflexivity. now apply Forall_map in F. Qed.
Lemma removelast_In {A} (x : A) l : In x (removelast l) -> In x l.
Proof. destruct l as [|y l _] using rev_ind; [intros []|]. rewrite removelast_snoc. intros. apply in_or_app. auto. Qed.
Lemma Forall_removelast {A} (P : A -> Prop) l : Forall P l -> Forall P (removelast l).
Proof. rewrite !Forall_forall. intros F x I. apply F. now apply removelast_In. Qed.

Lemma of_index_concat ls : forall a i, (forall j, Forall (fun p => pk_index p = a + Z.of_nat j) (nth j ls [])) ->
  of_index (a + Z.of_nat i) (List.concat ls) = nth i ls [].
Proof.
  induction ls as [|l t IH]; intros a i F; [destruct i; reflexivity|]. cbn [List.concat]. rewrite of_index_app.
  assert (Ft : forall j, Forall (fun p => pk_index p = (a + 1) + Z.of_nat j) (nth j t [])).
  { intros j. specialize (F (S j)). cbn [nth] in F. replace (a + 1 + Z.of_nat j) with (a + Z.of_nat (S j)) by lia. exact F. }
  pose proof (F 0%nat) as F0. cbn [nth] in F0.
  destruct i as [|i].
  - cbn [nth]. rewrite of_index_all by exact F0. rewrite of_index_none; [apply app_nil_r|].
    apply Forall_forall. intros p I. apply in_concat in I as (x & I1 & I2). apply In_nth with (d := []) in I1 as (j & _ & <-).
    specialize (Ft j). eapply Forall_forall in Ft; [|exact I2]. cbn in Ft. lia.
  - cbn [nth]. rewrite of_index_none.
    + replace (a + Z.of_nat (S i)) with (a + 1 + Z.of_nat i) by lia. now apply IH.
    + eapply Forall_impl; [|exact F0]. cbn. intros. lia.
Qed.
Lemma Permutation_filter {A} (f : A -> bool) l l' : Permutation l l' -> Permutation (filter f l) (filter f l').
Proof.
  induction 1; cbn; auto.
  - destruct (f x); auto.
  - destruct (f x), (f y); auto. constructor.
  - etransitivity; eauto.
Qed.
Lemma StronglySorted_filter {A} (R : A -> A -> Prop) f l : StronglySorted R l -> StronglySorted R (filter f l).
Proof.
  induction 1 as [|a t H IH F]; cbn; [constructor|]. destruct (f a); auto. constructor; auto.
  apply Forall_forall. intros x I. apply filter_In in I as [I _]. eapply Forall_forall in F; eauto.
Qed.
Lemma sorted_unique l1 : forall l2, Permutation l1 l2 -> StronglySorted dts_le l1 -> ascending l2 -> l1 = l2.
Proof.
  induction l1 as [|a t IH]; intros l2 P S1 S2.
  - apply Permutation_nil in P. now subst.
  - destruct l2 as [|b u]; [symmetry in P; apply Permutation_nil in P; discriminate|].
    inversion S1 as [|? ? St Ft]; subst. inversion S2 as [|? ? Su Fu]; subst.
    assert (E : a = b).
    { assert (Ia : In a (b :: u)) by (eapply Permutation_in; [exact P|now left]). assert (Ib : In b (a :: t)) by (eapply Permutation_in; [symmetry; exact P|now left]).
      destruct Ia as [->|Ia]; [reflexivity|]. destruct Ib as [->|Ib]; [reflexivity|].
      eapply Forall_forall in Fu; [|exact Ia]. eapply Forall_forall in Ft; [|exact Ib]. unfold dts_lt, dts_le in *. lia. }
    subst b. f_equal. apply IH; auto. eapply Permutation_cons_inv; eauto.
Qed.
Lemma ascending_durs l : ascending l -> ascending (durs l).
Proof.
  unfold ascending. induction 1 as [|a t H IH F]; [constructor|]. destruct t as [|b t]; [repeat constructor|].
  cbn [durs]. constructor; [exact IH|].
  assert (G : Forall (fun z => pk_dts a < z) (map pk_dts (durs (b :: t)))).
  { rewrite durs_map by reflexivity. apply Forall_map. exact F. }
  exact (proj1 (Forall_map _ _ _) G).
Qed.
Lemma StronglySorted_app_l {A} (R : A -> A -> Prop) l m : StronglySorted R (l ++ m) -> StronglySorted R l.
Proof.
  induction l as [|a t IH]; cbn; intros H; [constructor|]. inversion H; subst. constructor; auto. now apply Forall_app in H3 as [? _].
Qed.
Lemma ascending_removelast l : ascending l -> ascending (removelast l).
Proof. destruct l as [|q l _] using rev_ind; auto. rewrite removelast_snoc. apply StronglySorted_app_l. Qed.

Definition streams_ok (d : demuxer) (evs : list event) : Prop :=
  aligned evs -> forall i,
  let A := of_index (Z.of_nat i) (accepted evs) in let L := nth i (dm_packets d) [] in let D := of_index (Z.of_nat i) (delivered evs) in
  (dm_completed d = false -> delivered evs = [] /\ L = durs A) /\
  (dm_completed d = true -> L = only_last (durs A) /\ Permutation D (removelast (durs A)) /\ (ascending A -> D = removelast (durs A))).

Lemma only_last_snoc l q : only_last (l ++ [q]) = [q].
Proof. unfold only_last. destruct l as [|a t]; [reflexivity|]. cbn [app]. f_equal. rewrite last_last. reflexivity. Qed.
Lemma nth_map_nil {A B} (f : list A -> list B) ls i : f [] = [] -> nth i (map f ls) [] = f (nth i ls []).
Proof. intros E. rewrite <- E at 1. apply map_nth. Qed.

Lemma complete_streams o d d' e evs : oracle_ok o -> dm_completed d = false -> no_orphans d -> streams_ok d evs -> on_probe_complete o d = Ok (d', e) -> streams_ok d' (evs ++ e).
Proof.
  intros O C NO S P AL i. unfold aligned in AL. apply Forall_app in AL as [AL _]. specialize (S AL).
  assert (S0 : delivered evs = [] /\ forall j, nth j (dm_packets d) [] = durs (of_index (Z.of_nat j) (accepted evs))).
  { split; [now apply (S 0%nat)|]. intros j. now apply (S j). }
  clear S. destruct S0 as [D0 L0]. cbv zeta.
  apply complete_cases in P as [(X & _)|[(_ & T & -> & ->)|(_ & T & -> & e' & F & ->)]]; [congruence| |].
  - split; [discriminate|]. intros _. cbn [dm_packets with_completed]. rewrite accepted_app, delivered_app, D0, !app_nil_r. cbn [app delivered flat_map of_index filter].
    specialize (L0 i). rewrite NO in * by assumption. assert (E : of_index (Z.of_nat i) (accepted evs) = []).
    { apply length_zero_iff_nil. rewrite <- durs_length, <- L0. destruct i; reflexivity. }
    rewrite E. destruct i; cbn; auto.
  - split; [discriminate|]. intros _. cbn [dm_packets with_packets].
    apply forward_all_events in F as (_ & F1 & F2 & _).
    rewrite !accepted_app, !delivered_app, accepted_new_tracks, delivered_new_tracks, F1, F2, D0. cbn [app accepted delivered flat_map]. rewrite app_nil_r.
    rewrite nth_map_nil, L0 by reflexivity. set (A := of_index (Z.of_nat i) (accepted evs)).
    destruct (O (List.concat (map all_but_last (dm_packets d)))) as [O1 O2].
    assert (E : of_index (Z.of_nat i) (List.concat (map all_but_last (dm_packets d))) = removelast (durs A)).
    { pose proof (of_index_concat (map all_but_last (dm_packets d)) 0 i) as H. rewrite Z.add_0_l in H. rewrite H.
      - rewrite nth_map_nil, L0 by reflexivity. reflexivity.
      - intros j. rewrite nth_map_nil, L0 by reflexivity. apply Forall_removelast. apply (Forall_durs (fun z => z = 0 + Z.of_nat j)). rewrite Z.add_0_l. apply of_index_idx. }
    assert (P1 : Permutation (of_index (Z.of_nat i) (or_sort o (List.concat (map all_but_last (dm_packets d))))) (removelast (durs A))).
    { rewrite <- E. apply Permutation_filter. symmetry. exact O1. }
    split; [reflexivity|]. split; [exact P1|]. intros As. apply sorted_unique; auto.
    + apply StronglySorted_filter. apply Sorted_StronglySorted; auto. intros x y z. unfold dts_le. lia.
    + apply ascending_removelast. now apply ascending_durs.
Qed.
Lemma nth_base d p j : nth j (base_lists d p) [] = nth j (dm_packets d) [].
Proof.
  unfold base_lists. destruct (_ <? _); auto. destruct (Nat.lt_ge_cases j (length (dm_packets d))).
  - now rewrite app_nth1.
  - rewrite app_nth2, (nth_overflow (dm_packets d)) by lia. destruct (j - _)%nat as [|[|?]]; reflexivity.
Qed.
Lemma nth_set_nth {A} (ls : list A) k x j d : (k < length ls)%nat -> nth j (set_nth k x ls) d = if (j =? k)%nat then x else nth j ls d.
Proof.
  revert k j. induction ls as [|a t IH]; intros [|k] [|j] H; cbn in *; try lia; auto. apply IH. lia.
Qed.
Lemma process_streams o d p d' e evs : oracle_ok o -> dm_tracks d <> [] -> streams_ok d evs -> process_buffered_packet o d p = Ok (d', e) -> streams_ok d' (evs ++ e).
Proof.
  intros O T S P. apply process_cases in P as (k & l & N & K & P).
  assert (Hk : (k < length (base_lists d p))%nat) by (apply nth_error_Some; congruence).
  assert (N' : nth k (dm_packets d) [] = l) by (rewrite <- (nth_base d p); now apply nth_error_nth).
  assert (OI : forall i, of_index (Z.of_nat i) [p] = if (i =? k)%nat then (if pk_index p =? Z.of_nat k then [p] else []) else if pk_index p =? Z.of_nat i then [p] else []).
  { intros i. destruct (Nat.eqb_spec i k); [subst|]; reflexivity. }
  assert (AL0 : forall r, aligned (evs ++ EvAdd p (zlen (dm_packets d)) :: r) -> aligned evs /\ pk_index p = Z.of_nat k).
  { intros r AL. unfold aligned in AL. apply Forall_app in AL as [A1 A2]. split; [exact A1|]. rewrite Forall_cons_iff in A2. lia. }
  assert (St : forall i : nat, pk_index p = Z.of_nat k -> of_index (Z.of_nat i) [p] = if (i =? k)%nat then [p] else []).
  { intros i E. rewrite OI, E, Z.eqb_refl. destruct (Nat.eqb_spec i k); auto. destruct (Z.eqb_spec (Z.of_nat k) (Z.of_nat i)); auto. lia. }
  assert (St1 : dm_completed d = false -> streams_ok (with_packets d (set_nth k (stamp l p) (base_lists d p))) (evs ++ [EvAdd p (zlen (dm_packets d))])).
  { intros C AL i. destruct (AL0 _ AL) as [A1 A2]. specialize (S A1 i). destruct S as [S _]. destruct (S C) as [D L]. cbv zeta.
    cbn [dm_completed with_packets dm_packets]. split; [|congruence]. intros _. rewrite delivered_app, D. split; [reflexivity|].
    rewrite nth_set_nth, nth_base, accepted_app, of_index_app by assumption. cbn [accepted flat_map app]. rewrite St by assumption.
    destruct (Nat.eqb_spec i k) as [->|]; [|rewrite app_nil_r; exact L]. rewrite durs_snoc, <- L, N'. reflexivity. }
  destruct P as [(H & -> & ->)|[(l' & q & e' & -> & C & -> & F & ->)|(e' & L & C & _ & P & ->)]].
  - destruct (dm_completed d) eqn:C; [|now apply St1]. destruct H as [->|(X & _)]; [|congruence].
    intros AL i. destruct (AL0 _ AL) as [A1 A2]. specialize (S A1 i). destruct S as [_ S]. destruct (S C) as (L & Pm & As). clear S. cbv zeta.
    cbn [dm_completed with_packets dm_packets]. split; [congruence|]. intros _.
    rewrite nth_set_nth, nth_base, accepted_app, of_index_app, delivered_app by assumption. cbn [accepted delivered flat_map app]. rewrite St by assumption. rewrite app_nil_r.
    destruct (Nat.eqb_spec i k) as [->|]; [|rewrite app_nil_r; auto]. rewrite N' in L.
    assert (E : of_index (Z.of_nat k) (accepted evs) = []).
    { destruct (of_index (Z.of_nat k) (accepted evs)) as [|x l _] using rev_ind; [reflexivity|]. destruct (durs_last l x) as (y & E). rewrite E, only_last_snoc in L. discriminate. }
    rewrite E in *. cbn. cbn in Pm. repeat split; auto. intros _. now apply As, SSorted_nil.
  - apply forward_packet_events in F as (_ & F1 & F2 & _).
    intros AL i. destruct (AL0 _ AL) as [A1 A2].
    assert (Iq : pk_index q = Z.of_nat k).
    { destruct (S A1 k) as [_ Sk]. destruct (Sk C) as (L & _). rewrite N' in L.
      destruct (of_index (Z.of_nat k) (accepted evs)) as [|x A _] eqn:EA using rev_ind; [destruct l'; discriminate|].
      destruct (durs_last A x) as (y & E). rewrite E, only_last_snoc in L.
      assert (q = x) as -> by (destruct l' as [|? [|? ?]]; inversion L; auto).
      pose proof (of_index_idx (Z.of_nat k) (accepted evs)) as G. rewrite EA in G. apply Forall_app in G as [_ G]. now inversion G. }
    specialize (S A1 i). destruct S as [_ S]. destruct (S C) as (L & Pm & As). clear S. cbv zeta.
    cbn [dm_completed with_packets dm_packets]. split; [congruence|]. intros _.
    change (EvAdd p (zlen (dm_packets d)) :: e') with ([EvAdd p (zlen (dm_packets d))] ++ e').
    rewrite nth_set_nth, nth_base, !accepted_app, !delivered_app, F1, F2, app_nil_r, !of_index_app by assumption.
    cbn [accepted delivered flat_map app]. rewrite St by assumption. cbn [of_index filter app]. change (pk_index (set_duration q _)) with (pk_index q).
    destruct (Nat.eqb_spec i k) as [->|NE].
    + rewrite N' in L. destruct (of_index (Z.of_nat k) (accepted evs)) as [|x A _] eqn:EA using rev_ind; [destruct l'; discriminate|].
      destruct (durs_last A x) as (y & E). rewrite E, only_last_snoc in L.
      assert (l' = [] /\ q = x) as [-> ->] by (destruct l' as [|? [|? ?]]; inversion L; auto).
      rewrite Iq, Z.eqb_refl. rewrite E, removelast_snoc in *. rewrite durs_snoc, E, stamp_app.
      change [set_duration x (i64 (pk_dts p - pk_dts x)); p] with ([set_duration x (i64 (pk_dts p - pk_dts x))] ++ [p]). rewrite app_assoc, only_last_snoc, removelast_snoc.
      split; [reflexivity|]. split; [now apply Permutation_app_tail|]. intros Z. f_equal. apply As. now apply StronglySorted_app_l in Z.
    + assert (NI : (pk_index q =? Z.of_nat i) = false).
      { apply Z.eqb_neq. lia. }
      rewrite NI, !app_nil_r. auto.
  - replace (evs ++ EvAdd p (zlen (dm_packets d)) :: e') with ((evs ++ [EvAdd p (zlen (dm_packets d))]) ++ e') by now rewrite <- app_assoc.
    eapply complete_streams; [exact O| | |exact (St1 C)|exact P]; [exact C|]. intros X. exfalso. exact (T X).
Qed.
Lemma same_core_streams d d' e evs : same_core d d' -> accepted e = [] -> delivered e = [] -> streams_ok d evs -> streams_ok d' (evs ++ e).
Proof.
  intros (T & M & Pk & C) Q1 Q2 S AL. unfold aligned in AL. apply Forall_app in AL as [AL _]. specialize (S AL).
  rewrite accepted_app, delivered_app, Q1, Q2, !app_nil_r, Pk, C. exact S.
Qed.
Lemma step_streams o d a d' e evs : oracle_ok o -> wf d -> no_orphans d -> streams_ok d evs -> step o d a = Ok (d', e) -> streams_ok d' (evs ++ e).
Proof.
  intros O W NO St S. destruct (step_cases _ _ _ _ _ W S) as [(SC & Q & _)|[(buf & s & _ & C & E & -> & Q)|[(buf & id & data & dts & _ & P)|(_ & C)]]].
  - apply quiet_facts in Q as (_ & Q1 & Q2). eapply same_core_streams; eauto.
  - apply quiet_facts in Q as (_ & Q1 & Q2). intros AL. unfold aligned in AL. apply Forall_app in AL as [AL _]. specialize (St AL).
    rewrite accepted_app, delivered_app, Q1, Q2, !app_nil_r. exact St.
  - destruct P as [(-> & ->)|(d1 & i & s & p & G & I & X & _ & _ & _ & _ & _ & _ & _ & P)].
    + eapply same_core_streams; eauto; repeat split.
    + apply idx_not_nil in X. eapply process_streams; [exact O|exact X| |exact P].
      destruct G as [->|(_ & _ & _ & _ & _ & ->)]; exact St.
  - destruct (dm_completed d) eqn:C0.
    + apply complete_cases in C as [(_ & -> & ->)|[(X & _)|(X & _)]]; [|congruence|congruence]. now rewrite app_nil_r.
    + eapply complete_streams; eauto.
Qed.

(** ** Hooks, packet-driven histories *)
Definition hook_ok (f : option (packet -> packet)) : Prop :=
  match f with Some g => forall p, pk_index (g p) = pk_index p /\ pk_buffer (g p) = pk_buffer p | None => True end.
Definition op_hook_ok (x : oracle * op) : Prop := match snd x with OpSetPre f => hook_ok f | _ => True end.
(** The packet-driven mode: tracks are only created by OnAudioPacket and OnVideoPacket. *)
Definition packet_driven (x : oracle * op) : Prop := op_new_buf (snd x) = None.

Lemma apply_pre_ok f p : hook_ok f -> pk_index (apply_pre f p) = pk_index p /\ pk_buffer (apply_pre f p) = pk_buffer p.
Proof. destruct f; cbn; auto. Qed.
Lemma process_pre o d p d' e : process_buffered_packet o d p = Ok (d', e) -> dm_pre d' = dm_pre d.
Proof.
  intros P. apply process_cases in P as (k & l & _ & _ & [(_ & -> & _)|[(l' & q & e' & _ & _ & -> & _)|(e' & _ & _ & _ & C & _)]]); auto.
  apply complete_cases in C as [(_ & -> & _)|[(_ & _ & -> & _)|(_ & _ & -> & _)]]; reflexivity.
Qed.
Lemma step_hook o d a d' e : hook_ok (dm_pre d) -> op_hook_ok (o, a) -> wf d -> step o d a = Ok (d', e) -> hook_ok (dm_pre d').
Proof.
  intros H H' W S. destruct a; cbn [step] in S; try (injection S as <- <-; assumption).
  - unfold on_new_audio_track in S.
    destruct (match tm_find_type (dm_tracks d) AVMediaTypeAudio with None => _ | Some _ => _ end) as [[d1 t]| | |] eqn:M; cbn [bind] in S; try discriminate.
    injection S as <- <-.
    assert (C : d1 = d \/ create_audio_track d buf id timebase extra config = Ok (d1, t)).
    { destruct (tm_find_type _ _); [destruct (_ =? _)%string; [now right|injection M as <- <-; now left]|now right]. }
    destruct C as [->|C]; auto. apply create_audio_cases in C; auto. destruct C as [(-> & _)|(_ & s & _ & _ & _ & _ & -> & _)]; auto.
  - unfold on_new_video_track in S.
    destruct (match tm_find_type (dm_tracks d) AVMediaTypeVideo with None => _ | Some _ => _ end) as [[d1 t]| | |] eqn:M; cbn [bind] in S; try discriminate.
    injection S as <- <-.
    assert (C : d1 = d \/ create_video_track o d buf id timebase extra = Ok (d1, t)).
    { destruct (tm_find_type _ _); [destruct (_ =? _)%string; [now right|injection M as <- <-; now left]|now right]. }
    destruct C as [->|C]; auto. apply create_video_cases in C; auto. destruct C as [(-> & _)|(_ & s & _ & _ & _ & _ & -> & _)]; auto.
  - apply audio_step in S as [(-> & _)|(d1 & i & s & p & G & _ & _ & _ & _ & _ & _ & _ & _ & _ & P)]; auto.
    rewrite (process_pre _ _ _ _ _ P). destruct G as [->|(_ & _ & _ & _ & _ & ->)]; assumption.
  - apply video_step in S as [(-> & _)|(d1 & i & s & p & G & _ & _ & _ & _ & _ & _ & _ & _ & _ & P)]; auto.
    rewrite (process_pre _ _ _ _ _ P). destruct G as [->|(_ & _ & _ & _ & _ & ->)]; assumption.
  - apply complete_cases in S as [(_ & -> & _)|[(_ & _ & -> & _)|(_ & _ & -> & _)]]; assumption.
  - unfold try_complete_probe in S. destruct (need_more d); [injection S as <- <-; assumption|].
    apply complete_cases in S as [(_ & -> & _)|[(_ & _ & -> & _)|(_ & _ & -> & _)]]; assumption.
  - unfold find_buffer_index in S. destruct (marker_index _ _ _); injection S as <- <-; assumption.
Qed.

Lemma complete_packets_len o d d' e : on_probe_complete o d = Ok (d', e) -> length (dm_packets d') = length (dm_packets d) /\ length (dm_tracks d') = length (dm_tracks d).
Proof.
  intros C. split; [|apply complete_same in C as [C _]; symmetry; eapply Forall2_len; eauto].
  apply complete_cases in C as [(_ & -> & _)|[(_ & _ & -> & _)|(_ & _ & -> & _)]]; auto. cbn. apply map_length.
Qed.
Lemma forward_all_aligned d l : forall e, forward_all d l = Ok e -> aligned e.
Proof.
  induction l as [|p t IH]; intros e R; cbn [forward_all] in R; [inversion R; constructor|].
  destruct (forward_packet d p) as [e1| | |] eqn:F; cbn [bind] in R; try discriminate.
  destruct (forward_all d t) as [e2| | |] eqn:F2; cbn [bind] in R; try discriminate. inversion R; subst. apply Forall_app. split; [|now apply IH].
  apply forward_packet_ok in F as (_ & [(_ & ->)|(_ & b & _ & ->)]); repeat constructor.
Qed.
Lemma complete_aligned o d d' e : on_probe_complete o d = Ok (d', e) -> aligned e.
Proof.
  intros C. apply complete_cases in C as [(_ & _ & ->)|[(_ & _ & _ & ->)|(_ & _ & _ & e' & F & ->)]]; [constructor|repeat constructor|].
  apply forward_all_aligned in F. apply Forall_app. split; [|constructor; auto]. apply Forall_forall. intros x I. apply in_map_iff in I as (? & <- & _). exact I.
Qed.
Lemma process_packets o d p d' e : process_buffered_packet o d p = Ok (d', e) ->
  0 <= pk_index p /\ length (dm_packets d') = length (base_lists d p) /\ length (dm_tracks d') = length (dm_tracks d) /\
  exists r, e = EvAdd p (zlen (dm_packets d)) :: r /\ aligned r.
Proof.
  intros P. apply process_cases in P as (k & l & _ & K & P). split; [pose proof (zlen_nonneg (dm_packets d)); lia|].
  destruct P as [(_ & -> & ->)|[(l' & q & e' & _ & _ & -> & F & ->)|(e' & _ & _ & _ & C & ->)]].
  - split; [cbn; apply set_nth_length|]. split; [reflexivity|]. eexists. split; [reflexivity|constructor].
  - split; [cbn; apply set_nth_length|]. split; [reflexivity|]. eexists. split; [reflexivity|].
    apply forward_packet_ok in F as (_ & [(_ & ->)|(_ & b & _ & ->)]); repeat constructor.
  - destruct (complete_packets_len _ _ _ _ C) as [L1 L2]. split; [rewrite L1; cbn; apply set_nth_length|]. split; [exact L2|].
    eexists. split; [reflexivity|]. eapply complete_aligned; eauto.
Qed.

Lemma NoDup_snoc {A} (l : list A) x : NoDup l -> ~ In x l -> NoDup (l ++ [x]).
Proof. intros N I. apply (Permutation_NoDup (l := x :: l)); [|now constructor]. change (x :: l) with ([x] ++ l). apply Permutation_app_comm. Qed.
Definition driven (d : demuxer) (evs : list event) : Prop :=
  aligned evs /\ length (dm_packets d) = length (dm_tracks d) /\ NoDup (map snd (dm_map d)).

Lemma quiet_aligned e : forallb quiet e = true -> aligned e.
Proof. intros Q. apply Forall_forall. intros x I. rewrite forallb_forall in Q. specialize (Q _ I). destruct x; try discriminate; exact Logic.I. Qed.

Lemma step_driven o d a d' e evs : packet_driven (o, a) -> wf d -> hook_ok (dm_pre d) -> driven d evs -> step o d a = Ok (d', e) -> driven d' (evs ++ e).
Proof.
  intros D W H (A & L & ND) S. destruct (step_cases _ _ _ _ _ W S) as [((T & M & Pk & C) & Q & _)|[(buf & s & X & _)|[(buf & id & data & dts & Op & P)|(_ & C)]]].
  - unfold driven. rewrite T, M, Pk. split; [|auto]. apply Forall_app. split; [exact A|now apply quiet_aligned].
  - unfold packet_driven in D. cbn in D. congruence.
  - assert (Hp : hook_ok (op_pre d a)) by (destruct a; cbn; auto).
    destruct P as [(-> & ->)|(d1 & i & s & p & G & I & X & _ & _ & P0 & _ & _ & _ & _ & P)].
    + split; [|auto]. apply Forall_app. split; [exact A|repeat constructor].
    + assert (W1 : wf d1) by (destruct G as [->|(_ & _ & G & _ & _ & ->)]; [assumption|now apply wf_grow]).
      destruct (process_packets _ _ _ _ _ P) as (N0 & L1 & L2 & r & -> & Ar).
      pose proof (process_same _ _ _ _ _ P) as [_ Mp].
      pose proof (apply_pre_ok _ p Hp) as [Ei _]. rewrite P0 in Ei. rewrite Ei in N0.
      assert (Bi : 0 <= i < zlen (dm_tracks d1)) by (apply wf_key; auto; change i with (fst (i, buf)); now apply in_map).
      assert (B1 : length (dm_packets d1) = length (dm_tracks d1) \/ (length (dm_tracks d1) = (length (dm_packets d1) + 1)%nat /\ i = zlen (dm_packets d1))).
      { destruct G as [->|(_ & NB & _ & _ & _ & ->)]; [now left|right]. cbn [grow with_tracks dm_tracks dm_packets]. rewrite app_length. cbn [length]. split; [lia|].
        cbn [grow with_tracks dm_map] in I. apply in_app_or in I as [I|[I|[]]]; [now apply NB in I|]. inversion I. unfold zlen. lia. }
      assert (Bl : 0 <= i <= zlen (dm_packets d1)) by (unfold zlen in *; destruct B1; lia).
      split; [|split].
      * apply Forall_app. split; [exact A|]. constructor; [rewrite Ei; exact Bl|exact Ar].
      * rewrite L1, L2. unfold base_lists. rewrite Ei. destruct (Z.ltb_spec i (zlen (dm_packets d1))).
        -- unfold zlen in *. destruct B1; lia.
        -- rewrite app_length. cbn [length]. unfold zlen in *. destruct B1; lia.
      * rewrite Mp. destruct G as [->|(_ & NB & _ & _ & _ & ->)]; [exact ND|]. cbn [grow with_tracks dm_map]. rewrite map_app.
        apply NoDup_snoc; [exact ND|]. cbn. intros Y. apply in_map_iff in Y as ([j b] & Y1 & Y2). cbn in Y1. subst b. now apply NB in Y2.
  - destruct (complete_packets_len _ _ _ _ C) as [L1 L2]. pose proof (complete_same _ _ _ _ C) as [_ M]. unfold driven. rewrite L1, L2, M.
    split; [|auto]. apply Forall_app. split; [exact A|eapply complete_aligned; eauto].
Qed.

(** ** Blocks of the pipeline *)
(** Every buffered packet is tagged with the buffer its track reads from. *)
Definition origin (m : list (Z * Z)) (p : packet) : Prop := map_find m (pk_index p) = Some (pk_buffer p).
(** With AutoFree every OnPacket is followed at once by DiscardHeadPacket of the buffer of the packet, and there is no other
    DiscardHeadPacket; without AutoFree there is none. *)
Fixpoint paired (auto : bool) (l : list event) : bool :=
  match l with
  | [] => true
  | EvPacket p :: t =>
    if auto then match t with EvDiscardHead b :: t' => (b =? pk_buffer p) && paired auto t' | _ => false end else paired auto t
  | EvDiscardHead _ :: _ => false
  | _ :: t => paired auto t
  end.

Lemma map_find_app m k v j b : map_find m j = Some b -> map_find (m ++ [(k, v)]) j = Some b.
Proof. induction m as [|[x y] t IH]; cbn; [discriminate|]. destruct (x =? j); auto. Qed.
Lemma map_find_in m k v : NoDup (map fst m) -> In (k, v) m -> map_find m k = Some v.
Proof.
  induction m as [|[x y] t IH]; cbn [map fst map_find]; intros N I; [destruct I|]. inversion N as [|? ? N1 N2]; subst. destruct I as [I|I].
  - inversion I; subst. now rewrite Z.eqb_refl.
  - destruct (Z.eqb_spec x k) as [->|]; [|now apply IH]. exfalso. apply N1. change k with (fst (k, v)). now apply in_map.
Qed.
Lemma wf_nodup d : wf d -> NoDup (map fst (dm_map d)).
Proof. intros [_ K]. rewrite K. apply FinFun.Injective_map_NoDup; [intros a b; lia|apply seq_NoDup]. Qed.

Lemma paired_app auto a b : paired auto a = true -> paired auto (a ++ b) = paired auto b.
Proof.
  remember (length a) as n eqn:Hn. assert (Hl : (length a <= n)%nat) by lia. clear Hn. revert a Hl.
  induction n as [|n IH]; intros a Hl P; [destruct a; [reflexivity|cbn in Hl; lia]|].
  destruct a as [|x t]; [reflexivity|]. cbn [length] in Hl. destruct x; cbn [paired app] in *; try discriminate; try (apply IH; [lia|assumption]).
  destruct auto; [|apply IH; [lia|assumption]]. destruct t as [|y t]; [discriminate|]. cbn [length] in Hl. destruct y; try discriminate. cbn [app].
  apply andb_prop in P as [P1 P2]. rewrite P1. cbn [andb]. apply IH; [lia|assumption].
Qed.
Lemma forward_paired d p e : origin (dm_map d) p -> forward_packet d p = Ok e -> paired (dm_autofree d) e = true.
Proof.
  intros O F. apply forward_packet_ok in F as (_ & [(-> & ->)|(-> & b & M & ->)]); [reflexivity|].
  unfold origin in O. rewrite O in M. injection M as <-. cbn. now rewrite Z.eqb_refl.
Qed.
Lemma forward_all_paired d l : Forall (origin (dm_map d)) l -> forall e, forward_all d l = Ok e -> paired (dm_autofree d) e = true.
Proof.
  induction 1 as [|p t O _ IH]; intros e R; cbn [forward_all] in R; [inversion R; reflexivity|].
  destruct (forward_packet d p) as [e1| | |] eqn:F; cbn [bind] in R; try discriminate.
  destruct (forward_all d t) as [e2| | |] eqn:F2; cbn [bind] in R; try discriminate. inversion R; subst.
  rewrite paired_app; [now apply IH|]. eapply forward_paired; eauto.
Qed.
Lemma origin_set_duration m p v : origin m p -> origin m (set_duration p v).
Proof. exact (fun H => H). Qed.
Lemma origin_stamp m l p : Forall (origin m) l -> origin m p -> Forall (origin m) (stamp l p).
Proof.
  intros F O. destruct l as [|q l _] using rev_ind; [now repeat constructor|]. rewrite stamp_app. apply Forall_app in F as [F1 F2]. rewrite Forall_cons_iff in F2.
  apply Forall_app. split; auto. repeat constructor; auto. now apply origin_set_duration.
Qed.
Lemma Forall_concat_set {A} (P : A -> Prop) ls k l : Forall P (List.concat ls) -> Forall P l -> Forall P (List.concat (set_nth k l ls)).
Proof.
  revert k. induction ls as [|x t IH]; intros [|k] F G; cbn in *; auto; apply Forall_app in F as [F1 F2]; apply Forall_app; auto.
Qed.
Lemma Forall_concat_nth {A} (P : A -> Prop) ls k l : Forall P (List.concat ls) -> nth_error ls k = Some l -> Forall P l.
Proof.
  revert k. induction ls as [|x t IH]; intros [|k] F E; cbn in *; try discriminate; apply Forall_app in F as [F1 F2]; [now inversion E; subst|eauto].
Qed.
Lemma complete_origin o d d' e : oracle_ok o -> Forall (origin (dm_map d)) (List.concat (dm_packets d)) -> on_probe_complete o d = Ok (d', e) ->
  Forall (origin (dm_map d')) (List.concat (dm_packets d')) /\ paired (dm_autofree d) e = true.
Proof.
  intros O F C. apply complete_cases in C as [(_ & -> & ->)|[(_ & _ & -> & ->)|(_ & _ & -> & e' & R & ->)]]; [auto|auto|].
  cbn [dm_packets dm_map with_packets with_tracks].
  assert (G : Forall (origin (dm_map d)) (List.concat (map all_but_last (dm_packets d)) ++ List.concat (map only_last (dm_packets d)))).
  { eapply Permutation_Forall; [apply split_last_perm|exact F]. }
  apply Forall_app in G as [G1 G2]. split; [exact G2|]. rewrite paired_app.
  - cbn [app paired]. eapply (forward_all_paired _ _ _ _ R). Unshelve. cbn [dm_map with_packets with_tracks]. eapply Permutation_Forall; [apply O|exact G1].
  - generalize (prepare_tracks o (dm_packets d) (dm_tracks d)). intros l. induction l; auto.
Qed.
Lemma process_origin o d p d' e : oracle_ok o -> Forall (origin (dm_map d)) (List.concat (dm_packets d)) -> origin (dm_map d) p -> process_buffered_packet o d p = Ok (d', e) ->
  Forall (origin (dm_map d')) (List.concat (dm_packets d')) /\ paired (dm_autofree d) e = true.
Proof.
  intros O F Op P. apply process_cases in P as (k & l & N & _ & P).
  assert (Fb : Forall (origin (dm_map d)) (List.concat (base_lists d p))) by now rewrite base_concat.
  pose proof (Forall_concat_nth _ _ _ _ Fb N) as Fl.
  destruct P as [(_ & -> & ->)|[(l' & q & e' & -> & _ & -> & R & ->)|(e' & _ & _ & _ & C & ->)]].
  - split; [|reflexivity]. cbn [dm_packets dm_map with_packets]. apply Forall_concat_set; auto. now apply origin_stamp.
  - apply Forall_app in Fl as [Fl1 Fl2]. rewrite Forall_cons_iff in Fl2. destruct Fl2 as [Fq _]. cbn [dm_packets dm_map with_packets paired]. split.
    + apply Forall_concat_set; auto. apply Forall_app. auto.
    + apply forward_paired in R; [exact R|exact Fq].
  - apply complete_origin in C; auto. cbn [dm_packets dm_map with_packets]. apply Forall_concat_set; auto. now apply origin_stamp.
Qed.

Definition not_direct (a : op) : Prop := match a with OpDiscardHead _ => False | _ => True end.
Lemma step_origin o d a d' e : oracle_ok o -> wf d -> hook_ok (dm_pre d) -> Forall (origin (dm_map d)) (List.concat (dm_packets d)) -> step o d a = Ok (d', e) ->
  Forall (origin (dm_map d')) (List.concat (dm_packets d')) /\ (not_direct a -> paired (dm_autofree d) e = true).
Proof.
  intros O W H F S. destruct (step_cases _ _ _ _ _ W S) as [((T & M & Pk & C) & Q & OI)|[(buf & s & X & _ & E & -> & Q)|[(buf & id & data & dts & Op & P)|(_ & C)]]].
  - rewrite M, Pk. split; [exact F|]. intros ND. destruct a; cbn [step] in S; try (injection S as <- <-; reflexivity); try discriminate OI; try destruct ND.
    + unfold on_new_audio_track in S. destruct (match tm_find_type _ _ with None => _ | _ => _ end) as [[d1 t]| | |]; cbn [bind] in S; try discriminate. injection S as <- <-. unfold discard_if. now destruct (_ <? _).
    + unfold on_new_video_track in S. destruct (match tm_find_type _ _ with None => _ | _ => _ end) as [[d1 t]| | |]; cbn [bind] in S; try discriminate. injection S as _ <-. unfold discard_if. now destruct (_ <? _).
    + now apply complete_origin in S.
    + unfold try_complete_probe in S. destruct (need_more d); [injection S as <- <-; reflexivity|]. now apply complete_origin in S.
    + unfold find_buffer_index in S. destruct (marker_index _ _ _); injection S as <- <-; reflexivity.
  - cbn [grow dm_packets dm_map with_tracks]. split; [eapply Forall_impl; [|exact F]; intros p; apply map_find_app|].
    intros ND. destruct a; try discriminate X; cbn [step] in S.
    + unfold on_new_audio_track in S. destruct (match tm_find_type _ _ with None => _ | _ => _ end) as [[d1 t]| | |]; cbn [bind] in S; try discriminate. injection S as _ <-. unfold discard_if. now destruct (_ <? _).
    + unfold on_new_video_track in S. destruct (match tm_find_type _ _ with None => _ | _ => _ end) as [[d1 t]| | |]; cbn [bind] in S; try discriminate. injection S as _ <-. unfold discard_if. now destruct (_ <? _).
  - assert (Hp : hook_ok (op_pre d a)) by (destruct a; cbn; auto).
    destruct P as [(-> & ->)|(d1 & i & s & p & G & I & X & _ & _ & P0 & P1 & _ & _ & _ & P)]; [auto|].
    assert (W1 : wf d1) by (destruct G as [->|(_ & _ & G & _ & _ & ->)]; [assumption|now apply wf_grow]).
    destruct (apply_pre_ok _ p Hp) as [E1 E2].
    assert (Fd : Forall (origin (dm_map d1)) (List.concat (dm_packets d1)) /\ dm_autofree d1 = dm_autofree d).
    { destruct G as [->|(_ & _ & _ & _ & _ & ->)]; [auto|]. split; [|reflexivity]. eapply Forall_impl; [|exact F]. intros x; apply map_find_app. }
    destruct Fd as [Fd Fa]. rewrite <- Fa. apply process_origin in P; auto.
    + destruct P; auto.
    + unfold origin. rewrite E1, E2, P0, P1. apply map_find_in; auto. now apply wf_nodup.
  - apply complete_origin in C; auto. destruct C; auto.
Qed.

(** ** Totality *)
Lemma forward_total d p : dm_handler d = true -> origin (dm_map d) p -> exists e, forward_packet d p = Ok e.
Proof. intros H O. unfold forward_packet. rewrite H. cbn [negb]. destruct (dm_autofree d); eauto. rewrite O. eauto. Qed.
Lemma forward_all_total d l : dm_handler d = true -> Forall (origin (dm_map d)) l -> exists e, forward_all d l = Ok e.
Proof.
  intros H. induction 1 as [|p t O _ (e2 & IH)]; cbn [forward_all]; eauto. destruct (forward_total d p H O) as (e1 & ->). cbn [bind]. rewrite IH. cbn. eauto.
Qed.
Lemma complete_total o d : oracle_ok o -> dm_handler d = true -> Forall (origin (dm_map d)) (List.concat (dm_packets d)) -> exists r, on_probe_complete o d = Ok r.
Proof.
  intros O H F. unfold on_probe_complete. destruct (dm_completed d); eauto.
  change (dm_tracks (with_completed d)) with (dm_tracks d). change (dm_handler (with_completed d)) with (dm_handler d). destruct (dm_tracks d) eqn:T; [rewrite H; eauto|].
  change (dm_handler (with_tracks _ _ _)) with (dm_handler d). rewrite H. cbn [negb].
  match goal with |- context [forward_all ?x ?y] => destruct (forward_all_total x y) as (e & ->) end; [exact H| |cbn; eauto].
  cbn [dm_map with_packets with_tracks with_completed dm_packets]. eapply Permutation_Forall; [apply O|].
  assert (G : Forall (origin (dm_map d)) (List.concat (map all_but_last (dm_packets d)) ++ List.concat (map only_last (dm_packets d)))).
  { eapply Permutation_Forall; [apply split_last_perm|exact F]. }
  now apply Forall_app in G as [G _].
Qed.
Lemma process_total o d p : oracle_ok o -> dm_handler d = true -> 0 <= pk_index p -> Forall (origin (dm_map d)) (List.concat (dm_packets d)) -> origin (dm_map d) p ->
  exists r, process_buffered_packet o d p = Ok r.
Proof.
  intros O H N F Op. unfold process_buffered_packet. fold (base_lists d p).
  set (n := zlen (dm_packets d)). set (k := if pk_index p <? n then pk_index p else n). set (base := base_lists d p).
  assert (B : 0 <= k < zlen base).
  { pose proof (zlen_nonneg (dm_packets d)). unfold k, base, base_lists, n in *. destruct (Z.ltb_spec (pk_index p) (zlen (dm_packets d))); [lia|]. rewrite zlen_app. change (zlen [[]]) with 1. lia. }
  assert (Fb : Forall (origin (dm_map d)) (List.concat base)) by (unfold base; now rewrite base_concat).
  destruct (idx_some base k B) as (l & I). rewrite I. cbn [of_opt bind].
  assert (Fl : Forall (origin (dm_map d)) l) by (rewrite idx_nth in I by lia; eapply Forall_concat_nth; eauto).
  pose proof (zlen_nonneg l) as L0. assert (L1 : zlen (l ++ [p]) = zlen l + 1) by (rewrite zlen_app; reflexivity). rewrite L1.
  destruct (Z.ltb_spec (zlen l + 1 - 2) 0); [rewrite upd_eq by lia; cbn; eauto|].
  destruct (idx_some (l ++ [p]) (zlen l + 1 - 2) ltac:(lia)) as (q & Iq). rewrite Iq. cbn [of_opt bind]. rewrite (upd_eq (l ++ [p])) by lia. cbn [of_opt bind].
  assert (Oq : origin (dm_map d) q). { rewrite idx_app_l, idx_nth in Iq by lia. apply nth_error_In in Iq. eapply Forall_forall; eauto. }
  set (q1 := set_duration q _). set (l2 := set_nth _ q1 _).
  assert (Ol2 : Forall (origin (dm_map d)) l2) by (apply Forall_set_nth; [apply Forall_app; auto|exact Oq]).
  destruct (dm_completed d).
  - rewrite upd_eq by lia. cbn [of_opt bind]. match goal with |- context [forward_packet ?x ?y] => destruct (forward_total x y) as (e & ->) end; [exact H|exact Oq|cbn; eauto].
  - rewrite upd_eq by lia. cbn [of_opt bind]. destruct (_ <=? _); eauto.
    match goal with |- context [on_probe_complete o ?x] => destruct (complete_total o x) as ([d2 e2] & ->) end; [exact O|exact H| |cbn; eauto].
    cbn [dm_map dm_packets with_packets]. apply Forall_concat_set; auto.
Qed.
Lemma find_track_total o d buf : wf d -> exists r, find_track o d buf = Ok r.
Proof.
  intros W. unfold find_track. destruct (nth_error _ _) as [[i b]|] eqn:N; eauto. apply nth_error_In in N. apply filter_In in N as [N _].
  apply (in_map fst) in N. apply wf_key in N; auto. cbn [fst] in N. unfold tm_get. destruct (idx_some _ _ N) as (s & ->). cbn. eauto.
Qed.

Definition live (d : demuxer) : Prop :=
  wf d /\ hook_ok (dm_pre d) /\ Forall (origin (dm_map d)) (List.concat (dm_packets d)).

(** Processing a packet made for track [i] of buffer [buf] succeeds. *)
Lemma process_live o d i buf p pre : oracle_ok o -> wf d -> hook_ok pre -> dm_handler d = true -> Forall (origin (dm_map d)) (List.concat (dm_packets d)) -> In (i, buf) (dm_map d) ->
  pk_index p = i -> pk_buffer p = buf -> exists r, process_buffered_packet o d (apply_pre pre p) = Ok r.
Proof.
  intros O W H Hd F I Ei Eb. destruct (apply_pre_ok pre p H) as [E1 E2]. apply process_total; auto.
  - rewrite E1, Ei. apply (in_map fst) in I. apply wf_key in I; auto. cbn in I. lia.
  - unfold origin. rewrite E1, E2, Ei, Eb. apply map_find_in; auto. now apply wf_nodup.
Qed.

Lemma read_adts_total data : 7 <= zlen data -> read_adts_fixed_header data = Err \/ exists h, read_adts_fixed_header data = Ok h.
Proof.
  destruct data as [|a [|b [|c [|d [|e [|f [|g t]]]]]]]; try (intros L; exfalso; apply L; reflexivity). intros _. unfold read_adts_fixed_header.
  set (l := a :: b :: c :: d :: e :: f :: g :: t).
  assert (E2 : be_get 2 l = Ok (be_value [a; b])) by exact (be_get_app 2 [a; b] (c :: d :: e :: f :: g :: t) eq_refl).
  assert (E : slice_from l 3 = Some (d :: e :: f :: g :: t)) by exact (slice_from_app [a; b; c] _).
  assert (E4 : be_get 4 (d :: e :: f :: g :: t) = Ok (be_value [d; e; f; g])) by exact (be_get_app 4 [d; e; f; g] t eq_refl).
  rewrite E2, E. cbn [bind of_opt]. rewrite E4. destruct (negb _); [now left|]. right. eexists. reflexivity.
Qed.
Lemma audio_total o d buf id data ts : oracle_ok o -> live d -> dm_handler d = true -> get_timebase (dm_name d) <> Panic -> exists r, on_audio_packet o d buf id data ts = Ok r.
Proof.
  intros O (W & Hk & F) Hd Tb. unfold on_audio_packet. destruct (find_track_total o d buf W) as (r & R). rewrite R. cbn [bind].
  apply find_track_cases in R as [(-> & N)|(i & s & -> & I & T)].
  - destruct (dm_completed d); [cbn; eauto|].
    assert (X : extract_audio_extra_data id data = Err \/ exists e k c, extract_audio_extra_data id data = Ok (e, k, c) /\ (id = AVCodecIdAAC -> ac_has_adts c = true)).
    { unfold extract_audio_extra_data. destruct (Z.eqb_spec id AVCodecIdAAC).
      - destruct (zlen data <? 7) eqn:L; [now left|]. destruct (read_adts_total data ltac:(lia)) as [->|(h & ->)]; [now left|]. right. do 3 eexists. split; reflexivity.
      - right. do 3 eexists. split; [reflexivity|congruence]. }
    destruct X as [->|(e & k & c & -> & Hc)]; [cbn; eauto|]. destruct (get_timebase (dm_name d)) as [tb| | |] eqn:G; try congruence.
    + cbn [bind]. assert (exists dt, create_audio_track d buf id tb e c = Ok dt) as ([d1 t] & C).
      { unfold create_audio_track. destruct (Z.eqb_spec id AVCodecIdAAC) as [E|]; [|cbn [andb]; eauto]. rewrite (Hc E). cbn. eauto. }
      rewrite C. cbn [bind]. apply create_audio_cases in C; auto. destruct C as [(-> & ->)|(_ & s & S1 & _ & _ & _ & -> & ->)]; [eauto|].
      refine (process_live o _ _ buf (set_buffer _ _) None O _ Logic.I _ _ (proj1 (grow_last d s buf)) _ eq_refl); [now apply wf_grow|exact Hd| |exact S1].
      eapply Forall_impl; [|exact F]. intros x; apply map_find_app.
    + exfalso. unfold get_timebase in G. destruct (_ || _); [discriminate|]. destruct (_ || _); discriminate.
    + exfalso. unfold get_timebase in G. destruct (_ || _); [discriminate|]. destruct (_ || _); discriminate.
  - cbn [bind]. refine (process_live o d i buf (set_buffer _ _) None O W Logic.I Hd F I _ eq_refl). cbn. now apply W.
Qed.

(** The extra data kept with every track can be parsed again. *)
Definition reparse (name : string) (s : stream) : Prop :=
  forall e, st_data s = Some e -> exists c, generate_video_codec_data (fun n => n) (get_pack_type name) (st_codec s) e = Ok c.
Lemma generate_annexb_grow g g' id e : generate_video_codec_data g PacketTypeAnnexB id e = generate_video_codec_data g' PacketTypeAnnexB id e.
Proof. reflexivity. Qed.

(** Payloads whose parameter sets can be extracted and parsed without a panic. *)
Definition key_ok (id : Z) (data : list Z) : Prop :=
  exists r, extract_video_extra_data id data = r /\ r <> Panic /\ r <> NoFuel /\
  forall e, r = Ok (Some e) -> exists r', generate_video_codec_data (fun n => n) PacketTypeAnnexB id e = r' /\ r' <> Panic /\ r' <> NoFuel.

Lemma video_total o d buf id data key dts pts : oracle_ok o -> live d -> dm_handler d = true -> Forall (reparse (dm_name d)) (dm_tracks d) ->
  (key = true -> (exists i, In (i, buf) (dm_map d)) \/ dm_completed d = true \/ get_pack_type (dm_name d) <> PacketTypeAnnexB \/ key_ok id data) ->
  exists r, on_video_packet o d buf id data key dts pts = Ok r.
Proof.
  intros O (W & Hk & F) Hd Rp K. unfold on_video_packet. destruct (find_track_total o d buf W) as (r & R). rewrite R. cbn [bind].
  apply find_track_cases in R as [(-> & N)|(i & s & -> & I & T)].
  - destruct (dm_completed d) eqn:C; [cbn; eauto|]. cbn [negb andb].
    destruct (Z.eqb_spec (get_pack_type (dm_name d)) PacketTypeAnnexB) as [PT|PT]; [|cbn; eauto].
    (* GetTimebase knows every name that uses Annex-B *)
    assert (exists tb, get_timebase (dm_name d) = Ok tb) as (tb & G).
    { revert PT. clear. unfold get_pack_type, get_timebase. destruct (_ =? "flv")%string; [discriminate|]. cbn [orb].
      destruct (_ =? "jt1078")%string; [intros _; eexists; reflexivity|]. destruct (_ =? "ps")%string; [intros _; eexists; reflexivity|]. destruct (_ =? "ts")%string; [intros _; eexists; reflexivity|intros X; discriminate X]. }
    set (ex := if key then _ else _).
    assert (exists x, ex = Ok x /\ forall e, x = Some e -> exists r', generate_video_codec_data (fun n => n) PacketTypeAnnexB id e = r' /\ r' <> Panic /\ r' <> NoFuel) as (x & Ex & Gx).
    { unfold ex. destruct key; [|exists None; split; [reflexivity|discriminate]]. destruct (K eq_refl) as [(i & I)|[Y|[Y|(r & Er & P1 & P2 & P3)]]]; [now apply N in I|congruence|congruence|].
      rewrite Er. destruct r as [x| | |]; try congruence; [exists x; split; [reflexivity|]; intros e ->; now apply P3|exists None; split; [reflexivity|discriminate]]. }
    rewrite Ex. cbn [bind].
    assert (exists y, (match x with Some e => Ok (Some e) | None => match tm_find (dm_tracks d) id with None => Ok None | Some i => s <- tm_get (dm_tracks d) i;; Ok (st_data s) end end) = Ok y /\
      forall e, y = Some e -> exists r', generate_video_codec_data (fun n => n) PacketTypeAnnexB id e = r' /\ r' <> Panic /\ r' <> NoFuel) as (y & Ey & Gy).
    { destruct x as [e|]; [exists (Some e); auto|]. destruct (tm_find (dm_tracks d) id) as [i|] eqn:TF; [|exists None; split; [reflexivity|discriminate]].
      assert (exists s, idx (dm_tracks d) i = Some s /\ st_codec s = id) as (s & Es & Ec).
      { unfold tm_find in TF. assert (H : forall t a i, tm_find_from (fun s => st_codec s =? id) a t = Some i -> exists s, idx t (i - a) = Some s /\ st_codec s = id /\ a <= i).
        { clear. induction t as [|s t IH]; intros a i; cbn [tm_find_from]; [discriminate|]. destruct (Z.eqb_spec (st_codec s) id) as [E|E].
          - intros [= <-]. exists s. rewrite Z.sub_diag. split; [reflexivity|]. split; [exact E|lia].
          - intros H. destruct (IH _ _ H) as (s' & I & E' & L). exists s'. split; [|split; [exact E'|lia]]. replace (i - a) with ((i - (a + 1)) + 1) by lia. rewrite idx_cons_S by lia. exact I. }
        destruct (H _ _ _ TF) as (s & I & E & _). rewrite Z.sub_0_r in I. eauto. }
      unfold tm_get. rewrite Es. cbn [of_opt bind]. exists (st_data s). split; [reflexivity|]. intros e Ee.
      rewrite Forall_forall in Rp. assert (In s (dm_tracks d)) as Is. { pose proof (idx_inv _ _ _ Es). rewrite idx_nth in Es by lia. eapply nth_error_In; eauto. }
      destruct (Rp s Is e Ee) as (c & Gc). rewrite PT, Ec in Gc. exists (Ok c). rewrite Gc. repeat split; congruence. }
    rewrite Ey. cbn [bind]. destruct y as [e|]; [|cbn; eauto]. rewrite G. cbn [bind].
    destruct (Gy e eq_refl) as (r' & E' & P1 & P2).
    assert (exists dt, create_video_track o d buf id tb e = Ok dt) as ([d1 t] & Cr).
    { unfold create_video_track. rewrite PT, (generate_annexb_grow _ (fun n => n)), E'. destruct r'; try congruence; eauto. }
    rewrite Cr. cbn [bind]. apply create_video_cases in Cr; auto. destruct Cr as [(-> & ->)|(_ & s & S1 & _ & _ & _ & -> & ->)]; [eauto|].
    refine (process_live o _ _ buf (set_buffer _ _) (dm_pre d) O _ Hk _ _ (proj1 (grow_last d s buf)) _ eq_refl); [now apply wf_grow|exact Hd| |exact S1].
    eapply Forall_impl; [|exact F]. intros z; apply map_find_app.
  - cbn [bind]. refine (process_live o d i buf (set_buffer _ _) (dm_pre d) O W Hk Hd F I _ eq_refl). cbn. now apply W.
Qed.

(** In the packet-driven modes every track can be parsed again. *)
Lemma step_reparse o d a d' e : packet_driven (o, a) -> wf d -> Forall (reparse (dm_name d)) (dm_tracks d) -> step o d a = Ok (d', e) ->
  dm_name d' = dm_name d /\ Forall (reparse (dm_name d)) (dm_tracks d').
Proof.
  intros D W R S.
  assert (Sm : forall t t', Forall2 same_track t t' -> Forall (reparse (dm_name d)) t -> Forall (reparse (dm_name d)) t').
  { induction 1 as [|x y l l' (_ & _ & E1 & _ & E2 & _) _ IH]; intros X; [constructor|]. rewrite Forall_cons_iff in X. destruct X as [X1 X2]. constructor; auto.
    unfold reparse. rewrite E1, E2. exact X1. }
  assert (Pn : forall o d p d' e, process_buffered_packet o d p = Ok (d', e) -> dm_name d' = dm_name d).
  { clear. intros o d p d' e P. apply process_cases in P as (k & l & _ & _ & [(_ & -> & _)|[(l' & q & e' & _ & _ & -> & _)|(e' & _ & _ & _ & C & _)]]); auto.
    apply complete_cases in C as [(_ & -> & _)|[(_ & _ & -> & _)|(_ & _ & -> & _)]]; reflexivity. }
  assert (Cn : forall o d d' e, on_probe_complete o d = Ok (d', e) -> dm_name d' = dm_name d).
  { clear. intros o d d' e C. apply complete_cases in C as [(_ & -> & _)|[(_ & _ & -> & _)|(_ & _ & -> & _)]]; reflexivity. }
  destruct a; cbn [step] in S; try (injection S as <- <-; auto; fail); try discriminate D.
  - unfold on_audio_packet in S. destruct (find_track o d buf) as [r| | |] eqn:Ft; cbn [bind] in S; try discriminate.
    apply find_track_cases in Ft as [(-> & N)|(i & s & -> & I & T)].
    + destruct (dm_completed d) eqn:C; [cbn [bind] in S; injection S as <- <-; auto|].
      destruct (extract_audio_extra_data id data) as [[[extra skip] config]| | |] eqn:X; cbn [bind] in S; try discriminate; [|injection S as <- <-; auto].
      destruct (get_timebase (dm_name d)) as [tb| | |] eqn:G; cbn [bind] in S; try discriminate.
      destruct (create_audio_track d buf id tb extra config) as [[d1 t]| | |] eqn:Cr; cbn [bind] in S; try discriminate.
      assert (R1 : dm_name d1 = dm_name d /\ Forall (reparse (dm_name d)) (dm_tracks d1)).
      { assert (Rs : forall c, reparse (dm_name d) (mkStream AVMediaTypeAudio (zlen (dm_tracks d)) id None (if 0 <? zlen (of_nil extra) then extra else None) tb c)).
        { intros c y. cbn [st_data st_codec]. unfold extract_audio_extra_data in X. destruct (Z.eqb_spec id AVCodecIdAAC) as [->|].
          - intros _. unfold generate_video_codec_data. exists None. destruct (_ =? _); reflexivity.
          - injection X as <- _ _. cbn. discriminate. }
        assert (Ra : forall c, dm_name (fst (add_track d (mkStream AVMediaTypeAudio (zlen (dm_tracks d)) id None (if 0 <? zlen (of_nil extra) then extra else None) tb c) buf)) = dm_name d /\
           Forall (reparse (dm_name d)) (dm_tracks (fst (add_track d (mkStream AVMediaTypeAudio (zlen (dm_tracks d)) id None (if 0 <? zlen (of_nil extra) then extra else None) tb c) buf)))).
        { intros c. unfold add_track. rewrite C. cbn [fst]. split; [reflexivity|]. cbn [dm_tracks with_tracks]. apply Forall_app. auto. }
        unfold create_audio_track in Cr. destruct (_ && _).
        - destruct extra as [y|]; [|discriminate]. destruct (parse_asc y) as [a| | |]; try discriminate; [|injection Cr as <- <-; auto]. injection Cr as Cr. specialize (Ra (set_rate_channels config (asc_sample_rate a) (asc_channels a))). cbn [of_nil] in Ra, Cr. rewrite Cr in Ra. exact Ra.
        - injection Cr as Cr. specialize (Ra config). rewrite Cr in Ra. exact Ra. }
      destruct R1 as [R1 R2]. destruct t; [|injection S as <- <-; auto].
      pose proof (Pn _ _ _ _ _ S) as Pn'. apply process_same in S as [S _]. rewrite Pn'. split; [exact R1|]. eapply Sm; eauto.
    + cbn [bind] in S. pose proof (Pn _ _ _ _ _ S) as Pn'. apply process_same in S as [S _]. split; [exact Pn'|]. eapply Sm; eauto.
  - unfold on_video_packet in S. destruct (find_track o d buf) as [r| | |] eqn:Ft; cbn [bind] in S; try discriminate.
    apply find_track_cases in Ft as [(-> & N)|(i & s & -> & I & T)].
    + destruct (dm_completed d) eqn:C; cbn [negb andb] in S; [cbn [bind] in S; injection S as <- <-; auto|].
      destruct (Z.eqb_spec (get_pack_type (dm_name d)) PacketTypeAnnexB) as [PT|]; [|cbn [bind] in S; injection S as <- <-; auto].
      destruct (if key then _ else _) as [extra| | |]; cbn [bind] in S; try discriminate.
      destruct (match extra with Some e0 => Ok (Some e0) | None => _ end) as [[e1|]| | |]; cbn [bind] in S; try discriminate; [|injection S as <- <-; auto].
      destruct (get_timebase (dm_name d)) as [tb| | |] eqn:G; cbn [bind] in S; try discriminate.
      destruct (create_video_track o d buf id tb e1) as [[d1 t]| | |] eqn:Cr; cbn [bind] in S; try discriminate.
      assert (R1 : dm_name d1 = dm_name d /\ Forall (reparse (dm_name d)) (dm_tracks d1)).
      { unfold create_video_track in Cr. destruct (generate_video_codec_data (or_grow o) _ _ _) as [c| | |] eqn:Gv; try discriminate; [|injection Cr as <- <-; auto].
        injection Cr as Cr. unfold add_track in Cr. rewrite C in Cr. injection Cr as <- <-. split; [reflexivity|]. cbn [dm_tracks with_tracks]. apply Forall_app. split; [exact R|]. constructor; [|constructor].
        intros y. cbn [st_data st_codec]. intros [= <-]. exists c. rewrite PT in *. rewrite <- Gv. apply generate_annexb_grow. }
      destruct R1 as [R1 R2]. destruct t; [|injection S as <- <-; auto].
      pose proof (Pn _ _ _ _ _ S) as Pn'. apply process_same in S as [S _]. rewrite Pn'. split; [exact R1|]. eapply Sm; eauto.
    + cbn [bind] in S. pose proof (Pn _ _ _ _ _ S) as Pn'. apply process_same in S as [S _]. split; [exact Pn'|]. eapply Sm; eauto.
  - pose proof (Cn _ _ _ _ S). apply complete_same in S as [S _]. split; auto. eapply Sm; eauto.
  - unfold try_complete_probe in S. destruct (need_more d); [injection S as <- <-; auto|]. pose proof (Cn _ _ _ _ S). apply complete_same in S as [S _]. split; auto. eapply Sm; eauto.
  - unfold find_buffer_index in S. destruct (marker_index _ _ _); injection S as <- <-; auto.
Qed.

(** ** Reachable states *)
Lemma run_wf d0 h d evs : wf d0 -> run d0 h = Ok (d, evs) -> wf d.
Proof.
  intros W. refine (run_inv (fun _ => True) (fun d _ => wf d) d0 W _ h d evs _); [intros; eapply step_wf; eauto|]. apply Forall_forall. auto.
Qed.
Lemma reach_order name h d evs : run (dm_new name) h = Ok (d, evs) -> call_order d evs.
Proof.
  intros R. refine (proj2 (run_inv (fun _ => True) (fun d evs => wf d /\ call_order d evs) (dm_new name) _ _ h d evs _ R)).
  - split; [apply wf_new|reflexivity].
  - intros o a d1 evs1 d' e _ [W O] S. split; [eapply step_wf; eauto|eapply step_order; eauto].
  - apply Forall_forall. auto.
Qed.
Definition sorting (x : oracle * op) : Prop := oracle_ok (fst x).
Lemma reach_balanced name h d evs : Forall sorting h -> run (dm_new name) h = Ok (d, evs) -> wf d /\ no_orphans d /\ balanced d evs /\ streams_ok d evs.
Proof.
  intros F R. refine (run_inv sorting (fun d evs => wf d /\ no_orphans d /\ balanced d evs /\ streams_ok d evs) (dm_new name) _ _ h d evs F R).
  - split; [apply wf_new|]. split; [intros _; reflexivity|]. split; [split; [constructor|discriminate]|].
    intros _ i. cbv zeta. split; [|discriminate]. intros _. cbn. destruct i; auto.
  - intros o a d1 evs1 d' e O (W & NO & B & St) S. split; [eapply step_wf; eauto|]. destruct (step_balanced _ _ _ _ _ _ O W NO B S) as [NO' B'].
    split; [exact NO'|]. split; [exact B'|]. eapply step_streams; eauto.
Qed.
Definition well_behaved (x : oracle * op) : Prop := sorting x /\ op_hook_ok x.
Lemma reach_live name h d evs : Forall well_behaved h -> run (dm_new name) h = Ok (d, evs) -> live d.
Proof.
  intros F R. refine (run_inv well_behaved (fun d _ => live d) (dm_new name) _ _ h d evs F R).
  - split; [apply wf_new|]. split; [exact I|constructor].
  - intros o a d1 evs1 d' e [O Hk] (W & H & Or) S. split; [eapply step_wf; eauto|]. split; [eapply step_hook; eauto|]. eapply step_origin; eauto.
Qed.
Lemma reach_driven name h d evs : Forall (fun x => op_hook_ok x /\ packet_driven x) h -> run (dm_new name) h = Ok (d, evs) ->
  driven d evs /\ dm_name d = name /\ Forall (reparse name) (dm_tracks d).
Proof.
  intros F R. refine (proj2 (run_inv (fun x => op_hook_ok x /\ packet_driven x) (fun d evs => (wf d /\ hook_ok (dm_pre d)) /\ driven d evs /\ dm_name d = name /\ Forall (reparse name) (dm_tracks d)) (dm_new name) _ _ h d evs F R)).
  - split; [split; [apply wf_new|exact I]|]. split; [split; [constructor|split; [reflexivity|constructor]]|]. split; [reflexivity|constructor].
  - intros o a d1 evs1 d' e [Hk P] ((W & H) & D & <- & Rp) S. split; [split; [eapply step_wf; eauto|eapply step_hook; eauto]|].
    split; [eapply step_driven; eauto|]. eapply step_reparse; eauto.
Qed.

(** Tracks are only added at the end and keep everything but their estimated rates. *)
Definition track_ext (t t' : list stream) : Prop := exists a b, t' = a ++ b /\ Forall2 same_track t a.
Lemma track_ext_refl t : track_ext t t.
Proof. exists t, []. rewrite app_nil_r. split; auto using Forall2_same_refl. Qed.
Lemma track_ext_same t t' : Forall2 same_track t t' -> track_ext t t'.
Proof. exists t', []. now rewrite app_nil_r. Qed.
Lemma track_ext_trans a b c : track_ext a b -> track_ext b c -> track_ext a c.
Proof.
  intros (a1 & a2 & -> & F) (b1 & b2 & -> & G). apply Forall2_app_inv_l in G as (c1 & c2 & G1 & G2 & ->). exists c1, (c2 ++ b2). rewrite app_assoc. split; auto. eapply Forall2_same_trans; eauto.
Qed.
Lemma track_ext_grow t s : track_ext t (t ++ [s]).
Proof. exists t, [s]. split; auto using Forall2_same_refl. Qed.
Lemma step_ext o d a d' e : wf d -> step o d a = Ok (d', e) -> track_ext (dm_tracks d) (dm_tracks d') /\ (dm_completed d = true -> dm_tracks d' = dm_tracks d /\ dm_completed d' = true).
Proof.
  intros W S. destruct (step_cases _ _ _ _ _ W S) as [((T & M & _ & C) & _)|[(buf & s & _ & C & E & -> & _)|[(buf & id & data & dts & _ & P)|(_ & C)]]].
  - rewrite T, C. split; [apply track_ext_refl|auto].
  - split; [apply track_ext_grow|congruence].
  - destruct P as [(-> & ->)|(d1 & i & s & p & G & _ & _ & _ & _ & _ & _ & _ & _ & _ & P)]; [split; [apply track_ext_refl|auto]|].
    split.
    + apply track_ext_trans with (dm_tracks d1); [|apply track_ext_same; now apply process_same in P].
      destruct G as [->|(_ & _ & _ & _ & _ & ->)]; [apply track_ext_refl|apply track_ext_grow].
    + intros C. destruct G as [->|(C' & _)]; [|congruence]. apply process_cases in P as (k & l & _ & _ & [(_ & -> & _)|[(l' & q & e' & _ & _ & -> & _)|(e' & _ & X & _)]]); auto. congruence.
  - split; [apply track_ext_same; now apply complete_same in C|]. intros C0. apply complete_cases in C as [(_ & -> & _)|[(X & _)|(X & _)]]; [auto|congruence|congruence].
Qed.
Lemma run_ext h : forall d d' evs, wf d -> run d h = Ok (d', evs) -> track_ext (dm_tracks d) (dm_tracks d') /\ (dm_completed d = true -> dm_tracks d' = dm_tracks d /\ dm_completed d' = true).
Proof.
  induction h as [|[o a] t IH]; intros d d' evs W R; cbn [run] in R.
  - injection R as <- <-. split; [apply track_ext_refl|auto].
  - destruct (step o d a) as [[d1 e1]| | |] eqn:S; cbn [bind] in R; try discriminate. destruct (run d1 t) as [[d2 e2]| | |] eqn:R2; cbn [bind] in R; try discriminate. injection R as <- <-.
    destruct (step_ext _ _ _ _ _ W S) as [E1 E2]. destruct (IH d1 _ _ (step_wf _ _ _ _ _ W S) R2) as [E3 E4]. split; [eapply track_ext_trans; eauto|].
    intros C. destruct (E2 C) as [E5 E6]. destruct (E4 E6) as [E7 E8]. rewrite E7, E5. auto.
Qed.

(** ** Events of one packet *)
Lemma complete_events o d d' e : on_probe_complete o d = Ok (d', e) -> accepted e = [] /\ discards e = [].
Proof.
  intros C. apply complete_cases in C as [(_ & _ & ->)|[(_ & _ & _ & ->)|(_ & _ & _ & e' & F & ->)]]; auto.
  apply forward_all_events in F as (_ & _ & F1 & F2). rewrite !accepted_app, !discards_app, accepted_new_tracks, discards_new_tracks, F1, F2. auto.
Qed.
Lemma process_events o d p d' e : process_buffered_packet o d p = Ok (d', e) -> accepted e = [p] /\ discards e = [].
Proof.
  intros P. apply process_cases in P as (k & l & _ & _ & [(_ & _ & ->)|[(l' & q & e' & _ & _ & _ & F & ->)|(e' & _ & _ & _ & C & ->)]]); auto.
  - apply forward_packet_events in F as (_ & _ & F1 & F2). cbn [accepted discards flat_map]. fold (accepted e') (discards e'). rewrite F1, F2. auto.
  - apply complete_events in C as [C1 C2]. cbn [accepted discards flat_map]. fold (accepted e') (discards e'). rewrite C1, C2. auto.
Qed.

(** ** Buffer indices *)
Definition markers_ok (d : demuxer) (evs : list event) : Prop :=
  NoDup (dm_ordered d) /\ forall m i, In (EvIndex m i) evs <-> idx (dm_ordered d) i = Some m.
Lemma marker_some l : forall a m i, marker_index l a m = Some i -> idx l (i - a) = Some m /\ a <= i.
Proof.
  induction l as [|x t IH]; intros a m i; cbn [marker_index]; [discriminate|]. destruct (Z.eqb_spec m x) as [->|].
  - intros [= <-]. rewrite Z.sub_diag. split; [reflexivity|lia].
  - intros H. destruct (IH _ _ _ H) as [I L]. split; [|lia]. replace (i - a) with (i - (a + 1) + 1) by lia. rewrite idx_cons_S by lia. exact I.
Qed.
Lemma marker_none l : forall a m, marker_index l a m = None -> ~ In m l.
Proof. induction l as [|x t IH]; intros a m; cbn [marker_index]; [intros _ []|]. destruct (Z.eqb_spec m x); [discriminate|]. intros H [X|X]; [congruence|]. eapply IH; eauto. Qed.

Definition no_index (e : list event) : Prop := forall m i, ~ In (EvIndex m i) e.
Lemma no_index_app a b : no_index a -> no_index b -> no_index (a ++ b).
Proof. intros A B m i I. apply in_app_or in I as [I|I]; [now apply A in I|now apply B in I]. Qed.
Lemma no_index_map {A} (f : A -> event) l : (forall x m i, f x <> EvIndex m i) -> no_index (map f l).
Proof. intros F m i I. apply in_map_iff in I as (x & E & _). now apply F in E. Qed.
Lemma forward_no_index d p e : forward_packet d p = Ok e -> no_index e.
Proof. intros F m i I. apply forward_packet_ok in F as (_ & [(_ & ->)|(_ & b & _ & ->)]); cbn in I; intuition discriminate. Qed.
Lemma forward_all_no_index d l : forall e, forward_all d l = Ok e -> no_index e.
Proof.
  induction l as [|p t IH]; intros e R; cbn [forward_all] in R; [injection R as <-; intros m i []|].
  destruct (forward_packet d p) as [e1| | |] eqn:F; cbn [bind] in R; try discriminate. destruct (forward_all d t) as [e2| | |]; cbn [bind] in R; try discriminate. injection R as <-.
  apply no_index_app; [eapply forward_no_index; eauto|now apply IH].
Qed.
Lemma complete_no_index o d d' e : on_probe_complete o d = Ok (d', e) -> no_index e /\ dm_ordered d' = dm_ordered d.
Proof.
  intros C. apply complete_cases in C as [(_ & -> & ->)|[(_ & _ & -> & ->)|(_ & _ & -> & e' & F & ->)]].
  - split; [intros m i []|reflexivity].
  - split; [intros m i [X|[]]; discriminate|reflexivity].
  - split; [|reflexivity]. apply no_index_app; [apply no_index_map; discriminate|]. apply no_index_app; [intros m i [X|[]]; discriminate|]. eapply forward_all_no_index; eauto.
Qed.
Lemma process_no_index o d p d' e : process_buffered_packet o d p = Ok (d', e) -> no_index e /\ dm_ordered d' = dm_ordered d.
Proof.
  intros P. apply process_cases in P as (k & l & _ & _ & [(_ & -> & ->)|[(l' & q & e' & _ & _ & -> & F & ->)|(e' & _ & _ & _ & C & ->)]]).
  - split; [intros m i [X|[]]; discriminate|reflexivity].
  - split; [|reflexivity]. intros m i [X|X]; [discriminate|]. eapply forward_no_index; eauto.
  - apply complete_no_index in C as [C1 C2]. split; [|exact C2]. intros m i [X|X]; [discriminate|]. eapply C1; eauto.
Qed.
Lemma step_markers o d a d' e evs : wf d -> markers_ok d evs -> step o d a = Ok (d', e) -> markers_ok d' (evs ++ e).
Proof.
  intros W [N M] S.
  assert (K : no_index e /\ dm_ordered d' = dm_ordered d -> markers_ok d' (evs ++ e)).
  { intros [K1 K2]. unfold markers_ok. rewrite K2. split; [exact N|]. intros m i. rewrite <- M. split; [|intros; apply in_or_app; auto]. intros I. apply in_app_or in I as [I|I]; auto. now apply K1 in I. }
  assert (Q : forall b buf, no_index (discard_if b buf)) by (intros b buf m i I; unfold discard_if in I; destruct b; cbn in I; intuition discriminate).
  assert (Z0 : no_index []) by (intros m i []).
  destruct a; cbn [step] in S; try (injection S as <- <-; apply K; split; [exact Z0|reflexivity]).
  - apply K. unfold on_new_audio_track in S.
    destruct (match tm_find_type (dm_tracks d) AVMediaTypeAudio with None => _ | Some _ => _ end) as [[d1 t]| | |] eqn:Mt; cbn [bind] in S; try discriminate. injection S as <- <-. split; [apply Q|].
    assert (C : d1 = d \/ create_audio_track d buf id timebase extra config = Ok (d1, t)).
    { destruct (tm_find_type _ _); [destruct (_ =? _)%string; [now right|injection Mt as <- <-; now left]|now right]. }
    destruct C as [->|C]; auto. apply create_audio_cases in C; auto. destruct C as [(-> & _)|(_ & s & _ & _ & _ & _ & -> & _)]; auto.
  - apply K. unfold on_new_video_track in S.
    destruct (match tm_find_type (dm_tracks d) AVMediaTypeVideo with None => _ | Some _ => _ end) as [[d1 t]| | |] eqn:Mt; cbn [bind] in S; try discriminate. injection S as <- <-. split; [apply Q|].
    assert (C : d1 = d \/ create_video_track o d buf id timebase extra = Ok (d1, t)).
    { destruct (tm_find_type _ _); [destruct (_ =? _)%string; [now right|injection Mt as <- <-; now left]|now right]. }
    destruct C as [->|C]; auto. apply create_video_cases in C; auto. destruct C as [(-> & _)|(_ & s & _ & _ & _ & _ & -> & _)]; auto.
  - apply K. apply audio_step in S as [(-> & ->)|(d1 & i & s & p & G & _ & _ & _ & _ & _ & _ & _ & _ & _ & P)]; auto; [split; [apply (Q true)|reflexivity]|].
    apply process_no_index in P as [P1 P2]. split; [exact P1|]. rewrite P2. destruct G as [->|(_ & _ & _ & _ & _ & ->)]; reflexivity.
  - apply K. apply video_step in S as [(-> & ->)|(d1 & i & s & p & G & _ & _ & _ & _ & _ & _ & _ & _ & _ & P)]; auto; [split; [apply (Q true)|reflexivity]|].
    apply process_no_index in P as [P1 P2]. split; [exact P1|]. rewrite P2. destruct G as [->|(_ & _ & _ & _ & _ & ->)]; reflexivity.
  - apply K. eapply complete_no_index; eauto.
  - unfold try_complete_probe in S. destruct (need_more d); [injection S as <- <-; now apply K|]. apply K. eapply complete_no_index; eauto.
  - unfold find_buffer_index in S. destruct (marker_index (dm_ordered d) 0 marker) as [i|] eqn:Mi; injection S as <- <-.
    + apply marker_some in Mi as [Mi _]. rewrite Z.sub_0_r in Mi. split; [exact N|]. intros m j. rewrite <- M. split; [|intros; apply in_or_app; auto].
      intros I. apply in_app_or in I as [I|[I|[]]]; auto. injection I as <- <-. now apply M.
    + apply marker_none in Mi. split; cbn [dm_ordered with_ordered]; [now apply NoDup_snoc|]. intros m j. rewrite zlen_app. change (zlen [marker]) with 1.
      assert (L : zlen (dm_ordered d) + 1 - 1 = zlen (dm_ordered d)) by lia. rewrite L. pose proof (zlen_nonneg (dm_ordered d)) as L0. split.
      * intros I. apply in_app_or in I as [I|[I|[]]].
        -- apply M in I. pose proof (idx_inv _ _ _ I). rewrite idx_app_l by lia. exact I.
        -- injection I as <- <-. rewrite idx_app_r, Z.sub_diag by lia. reflexivity.
      * intros I. apply in_or_app. pose proof (idx_inv _ _ _ I) as B. rewrite zlen_app in B. change (zlen [marker]) with 1 in B. destruct (Z.ltb_spec j (zlen (dm_ordered d))).
        -- rewrite idx_app_l in I by lia. left. now apply M.
        -- right. replace j with (zlen (dm_ordered d)) in * by lia. rewrite idx_app_r, Z.sub_diag in I by lia. cbn in I. injection I as <-. now left.
  - injection S as <- <-. apply K. split; [apply (Q true)|reflexivity].
  - injection S as <- <-. apply K. split; [|reflexivity]. intros m i' [X|[]]; discriminate.
Qed.
Lemma reach_markers name h d evs : run (dm_new name) h = Ok (d, evs) -> markers_ok d evs.
Proof.
  intros R. refine (proj2 (run_inv (fun _ => True) (fun d evs => wf d /\ markers_ok d evs) (dm_new name) _ _ h d evs _ R)).
  - split; [apply wf_new|]. split; [constructor|]. intros m i. split; [intros []|]. intros I. apply idx_inv in I. change (zlen (dm_ordered (dm_new name))) with 0 in I. lia.
  - intros o a d1 evs1 d' e _ [W O] S. split; [eapply step_wf; eauto|eapply step_markers; eauto].
  - apply Forall_forall. auto.
Qed.

(** ** Probe time *)
Lemma i64_eq_mod x y : (x - y) mod 2 ^ 64 = 0 -> i64 x = i64 y.
Proof. intros H. unfold i64. f_equal. apply Z.mod_divide in H; [|lia]. destruct H as [k H]. replace (x + 2 ^ 63) with (y + 2 ^ 63 + k * 2 ^ 64) by lia. now rewrite Z.mod_add by lia. Qed.
Lemma i64_mod x : (i64 x - x) mod 2 ^ 64 = 0.
Proof. unfold i64. apply Z.mod_divide; [lia|]. exists (- ((x + 2 ^ 63) / 2 ^ 64)). pose proof (Z.div_mod (x + 2 ^ 63) (2 ^ 64) ltac:(lia)). lia. Qed.
Lemma i64_add x y : i64 (i64 x + i64 y) = i64 (x + y).
Proof.
  apply i64_eq_mod. pose proof (i64_mod x) as A. pose proof (i64_mod y) as B. apply Z.mod_divide in A, B; try lia. apply Z.mod_divide; [lia|].
  replace (i64 x + i64 y - (x + y)) with ((i64 x - x) + (i64 y - y)) by lia. now apply Z.divide_add_r.
Qed.
Lemma ms_1000 o p : pk_timebase p = 1000 -> pk_ms o p = pk_duration p.
Proof. intros E. unfold pk_ms, convert_field. now rewrite E. Qed.
Lemma total_1000 o l : forall a x, Forall (fun p => pk_timebase p = 1000) (a :: l) ->
  fold_left (fun acc p => i64 (acc + pk_ms o p)) (removelast (durs (a :: l))) (i64 x) = i64 (x + (pk_dts (last l a) - pk_dts a)).
Proof.
  induction l as [|b t IH]; intros a x F; [cbn; now rewrite Z.sub_diag, Z.add_0_r|].
  rewrite Forall_cons_iff in F. destruct F as [Fa F].
  change (durs (a :: b :: t)) with (set_duration a (i64 (pk_dts b - pk_dts a)) :: durs (b :: t)).
  assert (R : removelast (set_duration a (i64 (pk_dts b - pk_dts a)) :: durs (b :: t)) = set_duration a (i64 (pk_dts b - pk_dts a)) :: removelast (durs (b :: t))).
  { destruct (durs (b :: t)) eqn:E; [destruct t; discriminate|reflexivity]. }
  rewrite R. cbn [fold_left]. rewrite ms_1000 by exact Fa. cbn [pk_duration set_duration]. rewrite i64_add, IH by exact F. f_equal.
  replace (last (b :: t) a) with (last t b); [lia|]. destruct t as [|c t]; [reflexivity|]. clear. revert b c. induction t as [|c' t IH]; intros b c; [reflexivity|]. exact (IH b c').
Qed.

(** ** The name never changes *)
Lemma process_name o d p d' e : process_buffered_packet o d p = Ok (d', e) -> dm_name d' = dm_name d.
Proof.
  intros P. apply process_cases in P as (k & l & _ & _ & [(_ & -> & _)|[(l' & q & e' & _ & _ & -> & _)|(e' & _ & _ & _ & C & _)]]); auto.
  apply complete_cases in C as [(_ & -> & _)|[(_ & _ & -> & _)|(_ & _ & -> & _)]]; reflexivity.
Qed.
Lemma packet_name o d buf id data dts pre d' e : packet_step o d buf id data dts pre d' e -> dm_name d' = dm_name d.
Proof.
  intros [(-> & _)|(d1 & i & s & p & G & _ & _ & _ & _ & _ & _ & _ & _ & _ & P)]; [reflexivity|]. apply process_name in P. rewrite P. destruct G as [->|(_ & _ & _ & _ & _ & ->)]; reflexivity.
Qed.
Lemma step_name o d a d' e : wf d -> step o d a = Ok (d', e) -> dm_name d' = dm_name d.
Proof.
  intros W S.
  assert (K : forall d1 e1, on_probe_complete o d = Ok (d1, e1) -> dm_name d1 = dm_name d).
  { intros d1 e1 C. apply complete_cases in C as [(_ & -> & _)|[(_ & _ & -> & _)|(_ & _ & -> & _)]]; reflexivity. }
  destruct a; cbn [step] in S; try (injection S as <- <-; reflexivity).
  - unfold on_new_audio_track in S.
    destruct (match tm_find_type (dm_tracks d) AVMediaTypeAudio with None => _ | Some _ => _ end) as [[d1 t]| | |] eqn:Mt; cbn [bind] in S; try discriminate. injection S as <- <-.
    assert (C : d1 = d \/ create_audio_track d buf id timebase extra config = Ok (d1, t)).
    { destruct (tm_find_type _ _); [destruct (_ =? _)%string; [now right|injection Mt as <- <-; now left]|now right]. }
    destruct C as [->|C]; auto. apply create_audio_cases in C; auto. destruct C as [(-> & _)|(_ & s & _ & _ & _ & _ & -> & _)]; auto.
  - unfold on_new_video_track in S.
    destruct (match tm_find_type (dm_tracks d) AVMediaTypeVideo with None => _ | Some _ => _ end) as [[d1 t]| | |] eqn:Mt; cbn [bind] in S; try discriminate. injection S as <- <-.
    assert (C : d1 = d \/ create_video_track o d buf id timebase extra = Ok (d1, t)).
    { destruct (tm_find_type _ _); [destruct (_ =? _)%string; [now right|injection Mt as <- <-; now left]|now right]. }
    destruct C as [->|C]; auto. apply create_video_cases in C; auto. destruct C as [(-> & _)|(_ & s & _ & _ & _ & _ & -> & _)]; auto.
  - apply audio_step in S; auto. now apply packet_name in S.
  - apply video_step in S; auto. now apply packet_name in S.
  - eapply K; eauto.
  - unfold try_complete_probe in S. destruct (need_more d); [now injection S as <- <-|]. eapply K; eauto.
  - unfold find_buffer_index in S. destruct (marker_index _ _ _); injection S as <- <-; reflexivity.
Qed.
Lemma run_name name h d evs : run (dm_new name) h = Ok (d, evs) -> dm_name d = name.
Proof.
  intros R. refine (proj2 (run_inv (fun _ => True) (fun d _ => wf d /\ dm_name d = name) (dm_new name) _ _ h d evs _ R)).
  - split; [apply wf_new|reflexivity].
  - intros o a d1 evs1 d' e _ [W N] S. split; [eapply step_wf; eauto|]. now rewrite (step_name _ _ _ _ _ W S).
  - apply Forall_forall. auto.
Qed.

From Verif Require Import Base NaluModel RecordModel AacModel FloatModel PacketModel DemuxModel DemuxProofs TrackSpec TrackProofs IntakeProofs ReentModel ReentProofs RelabelProofs BlindSpec.
From Coq Require Import String List Permutation.
Import ListNotations.
Local Open Scope list_scope.

(** The hook is changed by SetOnPreprocessPacketHandler and Close only. *)
Lemma step_pre_eq o d a d' e : wf d -> step o d a = Ok (d', e) -> dm_pre d' = match a with OpSetPre f => f | OpClose => None | _ => dm_pre d end.
Proof.
  intros W S. destruct (step_cases _ _ _ _ _ W S) as [_|[(buf & s & N & _ & _ & -> & _)|[(buf & id & data & dts & N & Pk)|(N & C)]]].
  - destruct a; cbn [step] in S; try (injection S as <- <-; reflexivity).
    + unfold on_new_audio_track in S. destruct (match tm_find_type (dm_tracks d) AVMediaTypeAudio with None => _ | Some _ => _ end) as [[d1 t]| | |] eqn:M; cbn [bind] in S; try discriminate. injection S as <- <-.
      assert (C : (d1 = d /\ t = None) \/ create_audio_track d buf id timebase extra config = Ok (d1, t)).
      { destruct (tm_find_type _ _); [destruct (_ =? _)%string; [now right|injection M as <- <-; now left]|now right]. }
      destruct C as [(-> & _)|C]; [reflexivity|]. apply create_audio_cases in C; auto. destruct C as [(-> & _)|(_ & s & _ & _ & _ & _ & -> & _)]; reflexivity.
    + unfold on_new_video_track in S. destruct (match tm_find_type (dm_tracks d) AVMediaTypeVideo with None => _ | Some _ => _ end) as [[d1 t]| | |] eqn:M; cbn [bind] in S; try discriminate. injection S as <- <-.
      assert (C : (d1 = d /\ t = None) \/ create_video_track o d buf id timebase extra = Ok (d1, t)).
      { destruct (tm_find_type _ _); [destruct (_ =? _)%string; [now right|injection M as <- <-; now left]|now right]. }
      destruct C as [(-> & _)|C]; [reflexivity|]. apply create_video_cases in C; auto. destruct C as [(-> & _)|(_ & s & _ & _ & _ & _ & -> & _)]; reflexivity.
    + apply audio_step in S; auto. destruct S as [(-> & _)|(d1 & i & s & p & G & _ & _ & _ & _ & _ & _ & _ & _ & _ & S)]; [reflexivity|]. apply process_pre in S. rewrite S. destruct G as [->|(_ & _ & _ & _ & _ & ->)]; reflexivity.
    + apply video_step in S; auto. destruct S as [(-> & _)|(d1 & i & s & p & G & _ & _ & _ & _ & _ & _ & _ & _ & _ & S)]; [reflexivity|]. apply process_pre in S. rewrite S. destruct G as [->|(_ & _ & _ & _ & _ & ->)]; reflexivity.
    + now apply complete_pre in S.
    + unfold try_complete_probe in S. destruct (need_more d); [injection S as <- <-; reflexivity|]. now apply complete_pre in S.
    + unfold find_buffer_index in S. destruct (marker_index _ _ _); injection S as <- <-; reflexivity.
  - destruct a; try discriminate N; reflexivity.
  - assert (X : dm_pre d' = dm_pre d) by (destruct Pk as [(-> & _)|(d1 & i & s & p & G & _ & _ & _ & _ & _ & _ & _ & _ & _ & Pk)]; [reflexivity|]; apply process_pre in Pk; rewrite Pk; destruct G as [->|(_ & _ & _ & _ & _ & ->)]; reflexivity).
    rewrite X. destruct a; try discriminate N; reflexivity.
  - apply complete_pre in C. rewrite C. destruct N as [->| ->]; reflexivity.
Qed.
Lemma step_map_in o d a d' e x : wf d -> step o d a = Ok (d', e) -> In x (dm_map d) -> In x (dm_map d').
Proof.
  intros W S I. destruct (step_made _ _ _ _ _ W S) as (d1 & B & _ & -> & _). destruct B as [->|(s & buf & _ & _ & _ & ->)]; [exact I|]. cbn [grow with_tracks dm_map]. apply in_app_iff. now left.
Qed.

Section blind.
Variable phi : list Z -> list Z.
Notation BP := (bl_packet phi).
Notation BD := (bl_dm phi).
Notation BE := (bl_event phi).

Lemma bl_removelast l : removelast (map BP l) = map BP (removelast l).
Proof. induction l as [|a [|b t] IH]; [reflexivity..|]. cbn [map removelast] in *. now rewrite IH. Qed.
Lemma bl_only_last l : only_last (map BP l) = map BP (only_last l).
Proof. destruct l as [|a t]; [reflexivity|]. cbn [map only_last]. f_equal. revert a. induction t as [|b t IH]; intros a; [reflexivity|]. cbn [map last]. destruct t as [|c t]; [reflexivity|]. apply (IH a). Qed.
Lemma bl_forward d p : forward_packet (BD d) (BP p) = (e <- forward_packet d p;; Ok (map BE e)).
Proof.
  unfold forward_packet. change (dm_handler (BD d)) with (dm_handler d). change (dm_autofree (BD d)) with (dm_autofree d). change (dm_map (BD d)) with (dm_map d). change (pk_index (BP p)) with (pk_index p).
  destruct (dm_handler d); [|reflexivity]. cbn [negb]. destruct (dm_autofree d); [|reflexivity]. destruct (map_find _ _); reflexivity.
Qed.
Lemma bl_forward_all d l : forward_all (BD d) (map BP l) = (e <- forward_all d l;; Ok (map BE e)).
Proof.
  induction l as [|p t IH]; cbn [map forward_all]; [reflexivity|]. rewrite bl_forward. destruct (forward_packet d p) as [e| | |]; cbn [bind]; try reflexivity. rewrite IH.
  destruct (forward_all d t) as [e'| | |]; cbn [bind]; try reflexivity. now rewrite map_app.
Qed.
Lemma bl_first codec l : first_packet_of codec (map (map BP) l) = option_map BP (first_packet_of codec l).
Proof. induction l as [|[|p t] l IH]; cbn [map first_packet_of]; auto. change (pk_codec (BP p)) with (pk_codec p). destruct (_ =? _); auto. Qed.
Lemma bl_total o l : total_ms o (map BP l) = total_ms o l.
Proof. unfold total_ms. generalize 0. induction l as [|p t IH]; intros a; cbn [map fold_left]; [reflexivity|]. apply IH. Qed.

(** Lengths matter to the estimates at the end of the probe only. *)
Definition sized (d : demuxer) : Prop := dm_completed d = true \/ forall l, zlen (phi l) = zlen l.

Lemma bl_prepare o ps ts : (forall l, zlen (phi l) = zlen l) -> prepare_tracks o (map (map BP) ps) ts = prepare_tracks o ps ts.
Proof.
  intros Z. unfold prepare_tracks, calculate_g726_bit_rate, calculate_pcm_frequency. rewrite !bl_first.
  destruct (first_packet_of AVCodecIdPCMS16LE ps) as [p|]; destruct (first_packet_of AVCodecIdADPCMG726 ps) as [q|]; cbn [option_map]; try reflexivity;
    try change (pk_ms o (BP p)) with (pk_ms o p); try change (pk_ms o (BP q)) with (pk_ms o q); try change (pk_data (BP p)) with (phi (pk_data p)); try change (pk_data (BP q)) with (phi (pk_data q)); rewrite ?Z; reflexivity.
Qed.
Lemma bl_complete o d : sized d -> blind_sort phi o -> on_probe_complete o (BD d) = bl_res phi (on_probe_complete o d).
Proof.
  intros Sz So. unfold on_probe_complete. change (dm_completed (BD d)) with (dm_completed d). destruct (dm_completed d) eqn:C; [reflexivity|]. destruct Sz as [Sz|Sz]; [congruence|]. cbv zeta.
  change (dm_tracks (with_completed (BD d))) with (dm_tracks d). change (dm_tracks (with_completed d)) with (dm_tracks d). change (dm_packets (with_completed (BD d))) with (map (map BP) (dm_packets d)). change (dm_packets (with_completed d)) with (dm_packets d).
  rewrite (bl_prepare _ _ _ Sz).
  assert (H : forall t m, dm_handler (with_tracks (with_completed (BD d)) t m) = dm_handler d) by reflexivity. rewrite H. clear H. assert (H : forall t m, dm_handler (with_tracks (with_completed d) t m) = dm_handler d) by reflexivity. rewrite H. clear H.
  change (dm_handler (with_completed (BD d))) with (dm_handler d). change (dm_handler (with_completed d)) with (dm_handler d).
  assert (H : forall t m, dm_packets (with_tracks (with_completed (BD d)) t m) = map (map BP) (dm_packets d)) by reflexivity. rewrite H. clear H. assert (H : forall t m, dm_packets (with_tracks (with_completed d) t m) = dm_packets d) by reflexivity. rewrite H. clear H.
  set (ts := prepare_tracks o (dm_packets d) (dm_tracks d)). destruct (dm_handler d); cbn [negb]; [|destruct (dm_tracks d); reflexivity]. destruct (dm_tracks d) as [|s t]; [reflexivity|].
  set (d3 := with_packets (with_tracks (with_completed d) ts (dm_map d)) (map only_last (dm_packets d))).
  assert (R : map all_but_last (map (map BP) (dm_packets d)) = map (map BP) (map all_but_last (dm_packets d))) by (rewrite !map_map; apply map_ext; intros; apply bl_removelast).
  assert (L : map only_last (map (map BP) (dm_packets d)) = map (map BP) (map only_last (dm_packets d))) by (rewrite !map_map; apply map_ext; intros; apply bl_only_last).
  rewrite R, L, <- rl_concat, So. change (with_packets _ (map (map BP) (map only_last (dm_packets d)))) with (BD d3). rewrite bl_forward_all.
  change (with_packets _ (map only_last (dm_packets d))) with d3. destruct (forward_all d3 _) as [e| | |]; cbn [bind bl_res]; try reflexivity.
  rewrite map_app. cbn [map]. do 3 f_equal. rewrite map_map. apply map_ext. reflexivity.
Qed.

Definition bl_plan (pl : plan) : plan := match pl with Stay d => Stay (BD d) | Forward d q => Forward (BD d) (BP q) | Probe d => Probe (BD d) end.
Definition bl_front (fr : front) : front := match fr with Quiet d e => Quiet (BD d) (map BE e) | Packet d p => Packet (BD d) (BP p) | Complete d => Complete (BD d) end.
Lemma bl_decide o d p : decide o (BD d) (BP p) = lift bl_plan (decide o d p).
Proof.
  unfold decide. change (dm_packets (BD d)) with (map (map BP) (dm_packets d)). change (dm_completed (BD d)) with (dm_completed d). rewrite zlen_map. change (pk_index (BP p)) with (pk_index p). cbv zeta.
  replace (if pk_index p <? zlen (dm_packets d) then map (map BP) (dm_packets d) else map (map BP) (dm_packets d) ++ [[]]) with (map (map BP) (if pk_index p <? zlen (dm_packets d) then dm_packets d else dm_packets d ++ [[]]))
    by (destruct (_ <? _); [reflexivity|now rewrite map_app]).
  set (base := if pk_index p <? zlen (dm_packets d) then dm_packets d else dm_packets d ++ [[]]). set (i := if pk_index p <? zlen (dm_packets d) then pk_index p else zlen (dm_packets d)). rewrite idx_map. destruct (idx base i) as [l|]; cbn [of_opt bind option_map lift]; [|reflexivity].
  change [BP p] with (map BP [p]). rewrite <- map_app, zlen_map. set (l1 := l ++ [p]). set (prev := zlen l1 - 2).
  destruct (prev <? 0). { rewrite upd_map. destruct (upd base i l1); reflexivity. }
  rewrite idx_map. destruct (idx l1 prev) as [q|]; cbn [of_opt bind option_map lift]; [|reflexivity].
  change (set_duration (BP q) (i64 (pk_dts (BP p) - pk_dts (BP q)))) with (BP (set_duration q (i64 (pk_dts p - pk_dts q)))).
  rewrite upd_map. destruct (upd l1 prev _) as [l2|]; cbn [of_opt bind option_map lift]; [|reflexivity].
  destruct (dm_completed d).
  - rewrite firstn_map, skipn_map, <- map_app, upd_map. destruct (upd base i _); reflexivity.
  - rewrite upd_map. destruct (upd base i l2) as [ps|]; cbn [of_opt bind option_map]; [|reflexivity]. change (dm_probe (with_packets (BD d) (map (map BP) ps))) with (dm_probe d). change (dm_probe (with_packets d ps)) with (dm_probe d). rewrite firstn_map, bl_total. destruct (_ <=? _); reflexivity.
Qed.
Lemma sized_packets d ps : sized (with_packets d ps) = sized d.
Proof. reflexivity. Qed.
Lemma bl_process o d p : sized d -> blind_sort phi o -> process_buffered_packet o (BD d) (BP p) = bl_res phi (process_buffered_packet o d p).
Proof.
  intros Sz So. rewrite !process_eq, bl_decide. change (dm_packets (BD d)) with (map (map BP) (dm_packets d)). rewrite zlen_map. destruct (decide o d p) as [[d1|d1 q|d1]| | |] eqn:D; cbn [lift bl_plan bind]; try reflexivity.
  - rewrite bl_forward. destruct (forward_packet d1 q); reflexivity.
  - rewrite bl_complete; [|destruct Sz as [Sz|Sz]; [left|now right]|exact So]; [destruct (on_probe_complete o d1) as [[d2 e]| | |]; reflexivity|].
    apply decide_cases in D as (i & l & _ & _ & [(D & _)|[(_ & l' & q & _ & D)|(C & _)]]); try discriminate D. congruence.
Qed.

Lemma bl_step o d a : wf d -> sized d -> blind_hook phi (dm_pre d) -> blind_call phi (o, a) -> (dm_completed d = true \/ for_track d (o, a)) -> step o (BD d) (bl_op phi a) = bl_res phi (step o d a).
Proof.
  intros W Sz H [So Hk] K. cbn [fst snd] in So, Hk. unfold for_track in K. cbn [snd] in K.
  assert (Kn : forall c, dm_completed d = true \/ (exists i, In (i, c) (dm_map d)) -> find_track o d c = Ok None -> dm_completed d = true).
  { intros c [C|(i & I)] E; [exact C|]. exfalso. destruct (find_track_cases _ _ _ _ E) as [(_ & N)|(j & s & X & _)]; [now apply (N i)|discriminate X]. }
  destruct a; cbn [bl_op step]; try reflexivity.
  - unfold on_new_audio_track. change (dm_tracks (BD d)) with (dm_tracks d). change (dm_name (BD d)) with (dm_name d).
    assert (E : create_audio_track (BD d) buf id timebase extra config = lift (fun x => (BD (fst x), snd x)) (create_audio_track d buf id timebase extra config)).
    { unfold create_audio_track, add_track. change (dm_tracks (BD d)) with (dm_tracks d). change (dm_completed (BD d)) with (dm_completed d). cbv zeta. destruct (_ && _); [destruct extra as [x|]; [|reflexivity]; destruct (parse_asc x); cbn [lift]; try reflexivity|]; destruct (dm_completed d); reflexivity. }
    rewrite E. clear E. destruct (tm_find_type _ _); [destruct (_ =? _)%string|]; try (destruct (create_audio_track _ _ _ _ _ _) as [[d1 t]| | |]); cbn [lift bind bl_res fst snd]; try reflexivity; unfold discard_if; destruct (_ <? _); reflexivity.
  - unfold on_new_video_track. change (dm_tracks (BD d)) with (dm_tracks d). change (dm_name (BD d)) with (dm_name d).
    assert (E : create_video_track o (BD d) buf id timebase extra = lift (fun x => (BD (fst x), snd x)) (create_video_track o d buf id timebase extra)).
    { unfold create_video_track, add_track. change (dm_tracks (BD d)) with (dm_tracks d). change (dm_name (BD d)) with (dm_name d). change (dm_completed (BD d)) with (dm_completed d). destruct (generate_video_codec_data _ _ _ _); cbn [lift]; try reflexivity; destruct (dm_completed d); reflexivity. }
    rewrite E. clear E. destruct (tm_find_type _ _); [destruct (_ =? _)%string|]; try (destruct (create_video_track _ _ _ _ _ _) as [[d1 t]| | |]); cbn [lift bind bl_res fst snd]; try reflexivity; unfold discard_if; destruct (_ <? _); reflexivity.
  - unfold on_audio_packet. change (find_track o (BD d) buf) with (find_track o d buf). destruct (find_track o d buf) as [[s|]| | |] eqn:E; cbn [bind]; try reflexivity.
    + exact (bl_process o d (set_buffer (init_audio (pool_packet o) data ts id (st_index s) (st_timebase s)) buf) Sz So).
    + change (dm_completed (BD d)) with (dm_completed d). rewrite (Kn buf K E). reflexivity.
  - unfold on_video_packet. change (find_track o (BD d) buf) with (find_track o d buf). destruct (find_track o d buf) as [[s|]| | |] eqn:E; cbn [bind]; try reflexivity.
    + change (dm_name (BD d)) with (dm_name d). change (dm_pre (BD d)) with (dm_pre d). cbv zeta. set (p := set_buffer (init_video (pool_packet o) data dts pts key (get_pack_type (dm_name d)) id (st_index s) (st_timebase s)) buf).
      change (set_buffer (init_video (pool_packet o) (phi data) dts pts key (get_pack_type (dm_name d)) id (st_index s) (st_timebase s)) buf) with (BP p).
      destruct (dm_pre d) as [f|]; [rewrite (H p)|]; apply (bl_process o d _ Sz So).
    + change (dm_completed (BD d)) with (dm_completed d). rewrite (Kn buf K E). reflexivity.
  - apply (bl_complete o d Sz So).
  - unfold try_complete_probe. assert (N : need_more (BD d) = need_more d).
    { unfold need_more. change (dm_tracks (BD d)) with (dm_tracks d). induction (dm_tracks d) as [|s t IH]; cbn [existsb]; [reflexivity|]. rewrite IH. do 2 f_equal. change (dm_packets (BD d)) with (map (map BP) (dm_packets d)). rewrite idx_map. destruct (idx _ _); cbn [option_map]; [now rewrite zlen_map|reflexivity]. }
    rewrite N. destruct (need_more d); [reflexivity|apply (bl_complete o d Sz So)].
  - unfold find_buffer_index. change (dm_ordered (BD d)) with (dm_ordered d). destruct (marker_index _ _ _); reflexivity.
Qed.

Lemma bl_run h : forall d, wf d -> sized d -> blind_hook phi (dm_pre d) -> Forall (blind_call phi) h -> (dm_completed d = true \/ Forall (for_track d) h) -> run (BD d) (map (bl_call phi) h) = bl_res phi (run d h).
Proof.
  induction h as [|[o a] t IH]; intros d W Sz H F K; [reflexivity|]. cbn [map bl_call fst snd run]. apply Forall_cons_iff in F as [Fa F].
  assert (Ka : dm_completed d = true \/ for_track d (o, a)) by (destruct K as [K|K]; [now left|right; now apply Forall_inv in K]).
  rewrite (bl_step o d a W Sz H Fa Ka). destruct (step o d a) as [[d1 e]| | |] eqn:E; cbn [bl_res bind]; try reflexivity.
  destruct (step_ext _ _ _ _ _ W E) as [_ Cm].
  rewrite IH; [| | | |exact F|].
  - destruct (run d1 t) as [[d2 e']| | |]; cbn [bl_res bind]; try reflexivity. now rewrite map_app.
  - now apply step_wf in E.
  - destruct Sz as [C|Z]; [left; now apply Cm|now right].
  - rewrite (step_pre_eq _ _ _ _ _ W E). destruct Fa as [_ Fa]. cbn [snd] in Fa. destruct a; try exact H; [exact Fa|exact Logic.I].
  - destruct K as [C|K]; [left; now apply Cm|right]. apply Forall_cons_iff in K as [_ K]. eapply Forall_impl; [|exact K]. intros [o' a'] J. unfold for_track in *. cbn [snd] in *.
    destruct a'; try exact Logic.I; destruct J as (i & J); exists i; eapply step_map_in; eauto.
Qed.
End blind.

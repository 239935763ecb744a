(** * Proofs about the packets a demuxer makes and the tracks it creates. *)
From Verif Require Import Base RingProofs BufioModel NaluModel NaluSpec NaluProofs AvccProofs RecordModel AacModel FloatModel PacketModel PacketProofs DemuxModel DemuxProofs TrackSpec.
From Coq Require Import String Permutation Sorted List.
Import ListNotations.
Local Open Scope list_scope.

(** ** Induction over histories, keeping the history *)
Lemma run_hist (H : oracle * op -> Prop) (I : list (oracle * op) -> demuxer -> list event -> Prop) d0 :
  I [] d0 [] ->
  (forall h o a d evs d' e, H (o, a) -> run d0 h = Ok (d, evs) -> I h d evs -> step o d a = Ok (d', e) -> I (h ++ [(o, a)]) d' (evs ++ e)) ->
  forall h d evs, Forall H h -> run d0 h = Ok (d, evs) -> I h d evs.
Proof.
  intros I0 IS h. induction h as [|[o a] t IH] using rev_ind; intros d evs F R.
  - cbn in R. inversion R; subst. exact I0.
  - rewrite run_app in R. apply Forall_app in F as [F1 F2]. rewrite Forall_cons_iff in F2. destruct F2 as [F2 _].
    destruct (run d0 t) as [[d1 e1]| | |] eqn:R1; cbn [bind run] in R; try discriminate.
    destruct (step o d1 a) as [[d2 e2]| | |] eqn:S1; cbn [bind] in R; try discriminate. inversion R; subst.
    rewrite app_nil_r. eapply IS; eauto.
Qed.

Lemma subseq_refl {A} (l : list A) : subseq l l.
Proof. induction l; [apply sub_nil|now apply sub_take]. Qed.
Lemma subseq_app {A} (a b c d : list A) : subseq a b -> subseq c d -> subseq (a ++ c) (b ++ d).
Proof. induction 1; intros S; cbn; [auto|apply sub_skip; auto|apply sub_take; auto]. Qed.
Lemma subseq_nil {A} (l : list A) : subseq [] l.
Proof. induction l; constructor; auto. Qed.
Lemma payloads_app h h' : payloads (h ++ h') = payloads h ++ payloads h'.
Proof. apply flat_map_app. Qed.

(** ** The packet a call makes *)
(** [made d a s p]: the call [a] made the packet [p] for the track [s]. *)
Definition made (o : oracle) (d : demuxer) (a : op) (s : stream) (p : packet) : Prop :=
  match a with
  | OpAudio buf id data ts => p = set_buffer (init_audio (pool_packet o) data ts id (st_index s) (st_timebase s)) buf
  | OpVideo buf id data key dts pts => p = apply_pre (dm_pre d) (set_buffer (init_video (pool_packet o) data dts pts key (get_pack_type (dm_name d)) id (st_index s) (st_timebase s)) buf)
  | _ => False
  end.
Definition op_buf (a : op) : option Z := match a with OpAudio b _ _ _ => Some b | OpVideo b _ _ _ _ _ => Some b | _ => None end.

(** ** The track a call creates *)
Definition audio_track (id tb : Z) (extra : option (list Z)) (c : audio_config) (s : stream) : Prop :=
  st_media s = AVMediaTypeAudio /\ st_codec s = id /\ st_timebase s = tb /\ st_params s = None /\ st_data s = (if 0 <? zlen (of_nil extra) then extra else None) /\
  (if (id =? AVCodecIdAAC) && negb (ac_has_adts c) then exists e a, extra = Some e /\ parse_asc e = Ok a /\ st_audio s = set_rate_channels c (asc_sample_rate a) (asc_channels a) else st_audio s = c).
Definition video_track (g : nat -> nat) (name : string) (id tb : Z) (extra : list Z) (s : stream) : Prop :=
  st_media s = AVMediaTypeVideo /\ st_codec s = id /\ st_timebase s = tb /\ st_data s = Some extra /\ st_audio s = audio_config_zero /\
  generate_video_codec_data g (get_pack_type name) id extra = Ok (st_params s).
Definition creates (o : oracle) (d : demuxer) (a : op) (s : stream) : Prop :=
  match a with
  | OpNewAudio _ id tb extra c => audio_track id tb extra c s
  | OpNewVideo _ id tb extra => video_track (or_grow o) (dm_name d) id tb extra s
  | OpAudio _ id data _ => exists extra k c tb, extract_audio_extra_data id data = Ok (extra, k, c) /\ get_timebase (dm_name d) = Ok tb /\ audio_track id tb extra c s
  | OpVideo _ id data key _ _ => exists e tb, get_timebase (dm_name d) = Ok tb /\ video_track (or_grow o) (dm_name d) id tb e s /\ get_pack_type (dm_name d) = PacketTypeAnnexB /\
      ((key = true /\ extract_video_extra_data id data = Ok (Some e)) \/ exists s0, In s0 (dm_tracks d) /\ st_codec s0 = id /\ st_data s0 = Some e)
  | _ => False
  end.
Definition create_buf (a : op) : option Z :=
  match a with OpAudio b _ _ _ => Some b | OpVideo b _ _ _ _ _ => Some b | OpNewAudio b _ _ _ _ => Some b | OpNewVideo b _ _ _ => Some b | _ => None end.

Lemma create_audio_track_inv d buf id tb extra c d1 t : wf d -> create_audio_track d buf id tb extra c = Ok (d1, t) ->
  (d1 = d /\ t = None) \/ exists s, st_index s = zlen (dm_tracks d) /\ d1 = grow d s buf /\ t = Some s /\ audio_track id tb extra c s.
Proof.
  intros W. unfold create_audio_track, audio_track. destruct (_ && _).
  - destruct extra as [e|]; [|discriminate]. destruct (parse_asc e) as [a| | |] eqn:Pa; try discriminate; [|intros [= <- <-]; auto].
    intros [= R]. apply add_track_cases in R; auto. destruct R as [R|(A & B & C)]; [now left|right]. eexists. split; [|split; [exact B|split; [exact C|]]]; [reflexivity|].
    repeat split; eauto.
  - intros [= R]. apply add_track_cases in R; auto. destruct R as [R|(A & B & C)]; [now left|right]. eexists. split; [|split; [exact B|split; [exact C|]]]; [reflexivity|]. repeat split.
Qed.
Lemma create_video_track_inv o d buf id tb extra d1 t : wf d -> create_video_track o d buf id tb extra = Ok (d1, t) ->
  (d1 = d /\ t = None) \/ exists s, st_index s = zlen (dm_tracks d) /\ d1 = grow d s buf /\ t = Some s /\ video_track (or_grow o) (dm_name d) id tb extra s.
Proof.
  intros W. unfold create_video_track, video_track. destruct (generate_video_codec_data _ _ _ _) as [a| | |] eqn:G; try discriminate; [|intros [= <- <-]; auto].
  intros [= R]. apply add_track_cases in R; auto. destruct R as [R|(A & B & C)]; [now left|right]. eexists. split; [|split; [exact B|split; [exact C|]]]; [reflexivity|]. repeat split.
Qed.

(** ** Probe completion changes only what is estimated *)
Lemma estimates_refl s : same_up_to_estimates s s.
Proof. repeat split. Qed.
Lemma estimates_trans a b c : same_up_to_estimates a b -> same_up_to_estimates b c -> same_up_to_estimates a c.
Proof.
  intros (A1 & A2 & A3 & A4 & A5 & A6 & A7) (B1 & B2 & B3 & B4 & B5 & B6 & B7). repeat split; try congruence. intros N. rewrite B7, A7; auto. now rewrite A3.
Qed.
Lemma Forall2_est_refl l : Forall2 same_up_to_estimates l l.
Proof. induction l; constructor; auto using estimates_refl. Qed.
Lemma Forall2_est_trans a : forall b c, Forall2 same_up_to_estimates a b -> Forall2 same_up_to_estimates b c -> Forall2 same_up_to_estimates a c.
Proof. induction a; intros b c H1 H2; inversion H1; subst; inversion H2; subst; constructor; eauto using estimates_trans. Qed.
Lemma Forall2_est_map f l : (forall s, same_up_to_estimates s (f s)) -> Forall2 same_up_to_estimates l (map f l).
Proof. intros H. induction l; constructor; auto. Qed.
Lemma prepare_est o ps ts : Forall2 same_up_to_estimates ts (prepare_tracks o ps ts).
Proof.
  unfold prepare_tracks. apply Forall2_est_trans with (calculate_pcm_frequency o ps ts).
  - unfold calculate_pcm_frequency. destruct (first_packet_of _ _); [|apply Forall2_est_refl]. destruct (_ <? 1); [apply Forall2_est_refl|].
    apply Forall2_est_map. intros s. destruct (Z.eqb_spec (st_codec s) AVCodecIdPCMS16LE) as [E|]; [|apply estimates_refl]. repeat split. intros N. exfalso. apply N. now left.
  - unfold calculate_g726_bit_rate. destruct (first_packet_of _ _); [|apply Forall2_est_refl]. destruct (_ <? 1); [apply Forall2_est_refl|].
    destruct (g726_bit_rate _); [|apply Forall2_est_refl]. apply Forall2_est_map. intros s. destruct (Z.eqb_spec (st_codec s) AVCodecIdADPCMG726) as [E|]; [|apply estimates_refl].
    repeat split. intros N. exfalso. apply N. now right.
Qed.
Lemma complete_est o d d' e : on_probe_complete o d = Ok (d', e) -> Forall2 same_up_to_estimates (dm_tracks d) (dm_tracks d') /\ dm_map d' = dm_map d.
Proof.
  intros C. apply complete_cases in C as [(_ & -> & _)|[(_ & _ & -> & _)|(_ & _ & -> & _)]]; (split; [|reflexivity]).
  apply Forall2_est_refl. apply Forall2_est_refl. apply prepare_est.
Qed.
Lemma process_est o d p d' e : process_buffered_packet o d p = Ok (d', e) -> Forall2 same_up_to_estimates (dm_tracks d) (dm_tracks d') /\ dm_map d' = dm_map d.
Proof.
  intros P. apply process_cases in P as (k & l & _ & _ & [(_ & -> & _)|[(l' & q & e' & _ & _ & -> & _)|(e' & _ & _ & _ & C & _)]]).
  - split; [apply Forall2_est_refl|reflexivity].
  - split; [apply Forall2_est_refl|reflexivity].
  - apply complete_est in C. exact C.
Qed.

Lemma tm_find_from_codec f l : forall k i s, tm_find_from f k l = Some i -> idx l (i - k) = Some s -> k <= i /\ f s = true.
Proof.
  induction l as [|x t IH]; intros k i s; cbn [tm_find_from]; [discriminate|]. destruct (f x) eqn:Fx.
  - intros [= <-]. rewrite Z.sub_diag. cbn. intros [= <-]. split; [lia|exact Fx].
  - intros T J. assert (X : idx t (i - (k + 1)) = Some s /\ k + 1 <= i).
    { pose proof (idx_inv _ _ _ J) as B. destruct (Z.eq_dec i k) as [->|N].
      - exfalso. clear - T. revert T. generalize (Z.lt_succ_diag_r k). change (Z.succ k) with (k + 1). generalize (k + 1) at 1 2. induction t as [|y t IH]; intros z L; cbn [tm_find_from]; [discriminate|].
        destruct (f y); [intros [= ->]; lia|]. apply IH. lia.
      - rewrite idx_nth in J |- * by lia. replace (Z.to_nat (i - k)) with (S (Z.to_nat (i - (k + 1)))) in J by lia. split; [exact J|lia]. }
    destruct X as [X1 X2]. destruct (IH _ _ _ T X1). split; [lia|assumption].
Qed.
Lemma tm_find_codec l id i s : tm_find l id = Some i -> idx l i = Some s -> st_codec s = id.
Proof. intros T J. unfold tm_find in T. rewrite <- (Z.sub_0_r i) in J. destruct (tm_find_from_codec _ _ _ _ _ T J) as [_ E]. now apply Z.eqb_eq. Qed.

(** ** One step *)
(** The tracks before the step, or these and one created by it, up to the estimates. *)
Definition base_of (o : oracle) (d : demuxer) (a : op) (d1 : demuxer) : Prop :=
  d1 = d \/ exists s buf, create_buf a = Some buf /\ st_index s = zlen (dm_tracks d) /\ creates o d a s /\ d1 = grow d s buf.
Lemma step_made o d a d' e : wf d -> step o d a = Ok (d', e) ->
  exists d1, base_of o d a d1 /\ Forall2 same_up_to_estimates (dm_tracks d1) (dm_tracks d') /\ dm_map d' = dm_map d1 /\
    (accepted e = [] \/ exists s p buf, accepted e = [p] /\ made o d a s p /\ op_buf a = Some buf /\ In (st_index s, buf) (dm_map d1) /\ idx (dm_tracks d1) (st_index s) = Some s).
Proof.
  intros W S.
  assert (K : forall d1 e1, on_probe_complete o d = Ok (d1, e1) -> exists d0, base_of o d a d0 /\ Forall2 same_up_to_estimates (dm_tracks d0) (dm_tracks d1) /\ dm_map d1 = dm_map d0 /\ (accepted e1 = [] \/
    exists s p buf, accepted e1 = [p] /\ made o d a s p /\ op_buf a = Some buf /\ In (st_index s, buf) (dm_map d0) /\ idx (dm_tracks d0) (st_index s) = Some s)).
  { intros d1 e1 C. exists d. split; [now left|]. destruct (complete_est _ _ _ _ C) as [A B]. split; [exact A|]. split; [exact B|]. left. now destruct (complete_events _ _ _ _ C). }
  destruct a; cbn [step] in S;
    try (injection S as <- <-; exists d; split; [now left|]; split; [apply Forall2_est_refl|]; split; [reflexivity|now left]; fail).
  - unfold on_new_audio_track in S.
    destruct (match tm_find_type (dm_tracks d) AVMediaTypeAudio with None => _ | Some _ => _ end) as [[d1 t]| | |] eqn:M; cbn [bind] in S; try discriminate. injection S as <- <-.
    assert (C : (d1 = d /\ t = None) \/ create_audio_track d buf id timebase extra config = Ok (d1, t)).
    { destruct (tm_find_type _ _); [destruct (_ =? _)%string; [now right|injection M as <- <-; now left]|now right]. }
    assert (C' : (d1 = d /\ t = None) \/ exists s, st_index s = zlen (dm_tracks d) /\ d1 = grow d s buf /\ t = Some s /\ audio_track id timebase extra config s).
    { destruct C as [C|C]; [now left|]. now apply create_audio_track_inv in C. }
    exists d1. split; [destruct C' as [(-> & _)|(s & A & B & _ & T)]; [now left|right; exists s, buf; repeat split; auto; apply T]|]. split; [apply Forall2_est_refl|]. split; [reflexivity|]. left.
    unfold discard_if. now destruct (_ <? _).
  - unfold on_new_video_track in S.
    destruct (match tm_find_type (dm_tracks d) AVMediaTypeVideo with None => _ | Some _ => _ end) as [[d1 t]| | |] eqn:M; cbn [bind] in S; try discriminate. injection S as <- <-.
    assert (C : (d1 = d /\ t = None) \/ create_video_track o d buf id timebase extra = Ok (d1, t)).
    { destruct (tm_find_type _ _); [destruct (_ =? _)%string; [now right|injection M as <- <-; now left]|now right]. }
    assert (C' : (d1 = d /\ t = None) \/ exists s, st_index s = zlen (dm_tracks d) /\ d1 = grow d s buf /\ t = Some s /\ video_track (or_grow o) (dm_name d) id timebase extra s).
    { destruct C as [C|C]; [now left|]. now apply create_video_track_inv in C. }
    exists d1. split; [destruct C' as [(-> & _)|(s & A & B & _ & T)]; [now left|right; exists s, buf; repeat split; auto; apply T]|]. split; [apply Forall2_est_refl|]. split; [reflexivity|]. left.
    unfold discard_if. now destruct (_ <? _).
  - unfold on_audio_packet in S. destruct (find_track o d buf) as [r| | |] eqn:F; cbn [bind] in S; try discriminate.
    assert (Stay : d' = d -> accepted e = [] -> exists d1, base_of o d (OpAudio buf id data ts) d1 /\ Forall2 same_up_to_estimates (dm_tracks d1) (dm_tracks d') /\ dm_map d' = dm_map d1 /\
      (accepted e = [] \/ exists s p b, accepted e = [p] /\ made o d (OpAudio buf id data ts) s p /\ op_buf (OpAudio buf id data ts) = Some b /\ In (st_index s, b) (dm_map d1) /\ idx (dm_tracks d1) (st_index s) = Some s)).
    { intros -> A. exists d. split; [now left|]. split; [apply Forall2_est_refl|]. split; [reflexivity|now left]. }
    apply find_track_cases in F as [(-> & N)|(i & s & -> & I & T)].
    + destruct (dm_completed d) eqn:C; [cbn [bind] in S; injection S as <- <-; now apply Stay|].
      destruct (extract_audio_extra_data id data) as [[[extra skip] config]| | |] eqn:X; cbn [bind] in S; try discriminate; [|injection S as <- <-; now apply Stay].
      destruct (get_timebase (dm_name d)) as [tb| | |] eqn:G; cbn [bind] in S; try discriminate.
      destruct (create_audio_track d buf id tb extra config) as [[d1 t]| | |] eqn:Cr; cbn [bind] in S; try discriminate.
      apply create_audio_track_inv in Cr; auto. destruct Cr as [(-> & ->)|(s & S1 & -> & -> & AT)]; [injection S as <- <-; now apply Stay|].
      destruct (process_est _ _ _ _ _ S) as [P1 P2]. destruct (process_events _ _ _ _ _ S) as [P3 _]. destruct (grow_last d s buf) as [G1 G2].
      exists (grow d s buf). split; [right; exists s, buf; repeat split; auto; exists extra, skip, config, tb; auto|]. split; [exact P1|]. split; [exact P2|].
      right. eexists s, _, buf. split; [exact P3|]. split; [reflexivity|]. split; [reflexivity|]. rewrite S1. split; assumption.
    + cbn [bind] in S. destruct (process_est _ _ _ _ _ S) as [P1 P2]. destruct (process_events _ _ _ _ _ S) as [P3 _]. pose proof (proj1 W _ _ T) as E. exists d. split; [now left|]. split; [exact P1|]. split; [exact P2|].
      right. eexists s, _, buf. split; [exact P3|]. split; [reflexivity|]. split; [reflexivity|]. rewrite E. split; assumption.
  - unfold on_video_packet in S. destruct (find_track o d buf) as [r| | |] eqn:F; cbn [bind] in S; try discriminate.
    assert (Stay : d' = d -> accepted e = [] -> exists d1, base_of o d (OpVideo buf id data key dts pts) d1 /\ Forall2 same_up_to_estimates (dm_tracks d1) (dm_tracks d') /\ dm_map d' = dm_map d1 /\
      (accepted e = [] \/ exists s p b, accepted e = [p] /\ made o d (OpVideo buf id data key dts pts) s p /\ op_buf (OpVideo buf id data key dts pts) = Some b /\ In (st_index s, b) (dm_map d1) /\ idx (dm_tracks d1) (st_index s) = Some s)).
    { intros -> A. exists d. split; [now left|]. split; [apply Forall2_est_refl|]. split; [reflexivity|now left]. }
    apply find_track_cases in F as [(-> & N)|(i & s & -> & I & T)].
    + destruct (dm_completed d) eqn:C; cbn [negb andb] in S; [cbn [bind] in S; injection S as <- <-; now apply Stay|].
      destruct (Z.eqb_spec (get_pack_type (dm_name d)) PacketTypeAnnexB) as [PT|PT]; [|cbn [bind] in S; injection S as <- <-; now apply Stay].
      destruct (if key then match extract_video_extra_data id data with Err => Ok None | r => r end else Ok None) as [extra| | |] eqn:Ex; cbn [bind] in S; try discriminate.
      destruct (match extra with Some e0 => Ok (Some e0) | None => _ end) as [[e1|]| | |] eqn:Ex1; cbn [bind] in S; try discriminate; [|injection S as <- <-; now apply Stay].
      destruct (get_timebase (dm_name d)) as [tb| | |] eqn:G; cbn [bind] in S; try discriminate.
      destruct (create_video_track o d buf id tb e1) as [[d1 t]| | |] eqn:Cr; cbn [bind] in S; try discriminate.
      apply create_video_track_inv in Cr; auto. destruct Cr as [(-> & ->)|(s & S1 & -> & -> & VT)]; [injection S as <- <-; now apply Stay|].
      destruct (process_est _ _ _ _ _ S) as [P1 P2]. destruct (process_events _ _ _ _ _ S) as [P3 _]. destruct (grow_last d s buf) as [G1 G2].
      exists (grow d s buf). split.
      { right. exists s, buf. split; [reflexivity|]. split; [exact S1|]. split; [|reflexivity]. exists e1, tb. split; [exact G|]. split; [exact VT|]. split; [exact PT|].
        destruct extra as [e0|].
        - injection Ex1 as ->. left. destruct key; [|discriminate]. split; [reflexivity|]. destruct (extract_video_extra_data id data); try discriminate. exact Ex.
        - right. destruct (tm_find (dm_tracks d) id) as [i|] eqn:Tf; [|discriminate]. unfold tm_get in Ex1. destruct (idx (dm_tracks d) i) as [s0|] eqn:Ii; cbn [of_opt bind] in Ex1; [|discriminate].
          exists s0. injection Ex1 as Ex1. split; [|split; [|exact Ex1]].
          + pose proof (idx_inv _ _ _ Ii). rewrite idx_nth in Ii by lia. eapply nth_error_In; eauto.
          + clear - Tf Ii. eapply tm_find_codec; eauto. }
      split; [exact P1|]. split; [exact P2|].
      right. eexists s, _, buf. split; [exact P3|]. split; [reflexivity|]. split; [reflexivity|]. rewrite S1. split; assumption.
    + cbn [bind] in S. destruct (process_est _ _ _ _ _ S) as [P1 P2]. destruct (process_events _ _ _ _ _ S) as [P3 _]. pose proof (proj1 W _ _ T) as E. exists d. split; [now left|]. split; [exact P1|]. split; [exact P2|].
      right. eexists s, _, buf. split; [exact P3|]. split; [reflexivity|]. split; [reflexivity|]. rewrite E. split; assumption.
  - now apply K.
  - unfold try_complete_probe in S. destruct (need_more d); [|now apply K]. injection S as <- <-. exists d. split; [now left|]. split; [apply Forall2_est_refl|]. split; [reflexivity|now left].
  - unfold find_buffer_index in S. destruct (marker_index _ _ _); injection S as <- <-; exists d; (split; [now left|]; split; [apply Forall2_est_refl|]; split; [reflexivity|now left]).
Qed.

(** ** Reachable states *)
Lemma complete_pre o d d' e : on_probe_complete o d = Ok (d', e) -> dm_pre d' = dm_pre d.
Proof. intros C. apply complete_cases in C as [(_ & -> & _)|[(_ & _ & -> & _)|(_ & _ & -> & _)]]; reflexivity. Qed.
Lemma step_pre o d a d' e : wf d -> no_hook (o, a) -> dm_pre d = None -> step o d a = Ok (d', e) -> dm_pre d' = None.
Proof.
  intros W N P S. destruct (step_cases _ _ _ _ _ W S) as [_|[(buf & s & _ & _ & _ & -> & _)|[(buf & id & data & dts & _ & Pk)|(_ & C)]]].
  - destruct a; cbn [step] in S; try (injection S as <- <-; exact P).
    + unfold on_new_audio_track in S. destruct (match tm_find_type (dm_tracks d) AVMediaTypeAudio with None => _ | Some _ => _ end) as [[d1 t]| | |] eqn:M; cbn [bind] in S; try discriminate. injection S as <- <-.
      assert (C : (d1 = d /\ t = None) \/ create_audio_track d buf id timebase extra config = Ok (d1, t)).
      { destruct (tm_find_type _ _); [destruct (_ =? _)%string; [now right|injection M as <- <-; now left]|now right]. }
      destruct C as [(-> & _)|C]; [exact P|]. apply create_audio_cases in C; auto. destruct C as [(-> & _)|(_ & s & _ & _ & _ & _ & -> & _)]; exact P.
    + unfold on_new_video_track in S. destruct (match tm_find_type (dm_tracks d) AVMediaTypeVideo with None => _ | Some _ => _ end) as [[d1 t]| | |] eqn:M; cbn [bind] in S; try discriminate. injection S as <- <-.
      assert (C : (d1 = d /\ t = None) \/ create_video_track o d buf id timebase extra = Ok (d1, t)).
      { destruct (tm_find_type _ _); [destruct (_ =? _)%string; [now right|injection M as <- <-; now left]|now right]. }
      destruct C as [(-> & _)|C]; [exact P|]. apply create_video_cases in C; auto. destruct C as [(-> & _)|(_ & s & _ & _ & _ & _ & -> & _)]; exact P.
    + apply audio_step in S; auto. destruct S as [(-> & _)|(d1 & i & s & p & G & _ & _ & _ & _ & _ & _ & _ & _ & _ & S)]; [exact P|]. apply process_pre in S. rewrite S. destruct G as [->|(_ & _ & _ & _ & _ & ->)]; exact P.
    + apply video_step in S; auto. destruct S as [(-> & _)|(d1 & i & s & p & G & _ & _ & _ & _ & _ & _ & _ & _ & _ & S)]; [exact P|]. apply process_pre in S. rewrite S. destruct G as [->|(_ & _ & _ & _ & _ & ->)]; exact P.
    + apply complete_pre in S. congruence.
    + unfold try_complete_probe in S. destruct (need_more d); [injection S as <- <-; exact P|]. apply complete_pre in S. congruence.
    + injection S as <- <-. destruct f; [destruct N|reflexivity].
    + injection S as <- <-. reflexivity.
    + unfold find_buffer_index in S. destruct (marker_index _ _ _); injection S as <- <-; exact P.
  - exact P.
  - destruct Pk as [(-> & _)|(d1 & i & s & p & G & _ & _ & _ & _ & _ & _ & _ & _ & _ & Pk)]; [exact P|]. apply process_pre in Pk. rewrite Pk. destruct G as [->|(_ & _ & _ & _ & _ & ->)]; exact P.
  - apply complete_pre in C. congruence.
Qed.

Lemma pool_key o : pk_key (pool_packet o) = false.
Proof. unfold pool_packet. destruct (or_recycled o); reflexivity. Qed.
Lemma made_payload o d a s p : dm_pre d = None -> made o d a s p ->
  call_payload a = Some (payload_of p) /\ pk_index p = st_index s /\ pk_timebase p = st_timebase s /\ op_buf a = Some (pk_buffer p) /\
  (pk_media p = AVMediaTypeVideo -> pk_type p = get_pack_type (dm_name d)).
Proof.
  intros P M. destruct a; cbn [made] in M; try contradiction.
  - subst p. unfold payload_of. cbn. rewrite pool_key. repeat split. discriminate.
  - rewrite P in M. cbn [apply_pre] in M. subst p. repeat split.
Qed.

(** Tracks seen from a later state. *)
Lemma est_later d1 d' i s : Forall2 same_up_to_estimates (dm_tracks d1) (dm_tracks d') -> idx (dm_tracks d1) i = Some s -> exists s', idx (dm_tracks d') i = Some s' /\ same_up_to_estimates s s'.
Proof.
  intros F J. pose proof (idx_inv _ _ _ J) as B. rewrite idx_nth in J by lia. setoid_rewrite idx_nth; try lia. revert J. generalize (Z.to_nat i). clear B i.
  induction F as [|x y l l' R F IH]; intros [|n]; cbn; try discriminate; [intros [= <-]; eauto|apply IH].
Qed.
Lemma est_earlier d1 d' i s' : Forall2 same_up_to_estimates (dm_tracks d1) (dm_tracks d') -> idx (dm_tracks d') i = Some s' -> exists s, idx (dm_tracks d1) i = Some s /\ same_up_to_estimates s s'.
Proof.
  intros F J. pose proof (idx_inv _ _ _ J) as B. rewrite idx_nth in J by lia. setoid_rewrite idx_nth; try lia. eapply Forall2_nth in J; eauto.
Qed.
Lemma base_later o d a d1 i s : base_of o d a d1 -> idx (dm_tracks d) i = Some s -> idx (dm_tracks d1) i = Some s.
Proof.
  intros [->|(s0 & buf & _ & _ & _ & ->)] J; [exact J|]. pose proof (idx_inv _ _ _ J). cbn [grow dm_tracks with_tracks]. now rewrite idx_app_l by lia.
Qed.
Lemma base_map o d a d1 x : base_of o d a d1 -> In x (dm_map d) -> In x (dm_map d1).
Proof. intros [->|(s0 & buf & _ & _ & _ & ->)] J; [exact J|]. cbn [grow dm_map with_tracks]. apply in_or_app. now left. Qed.

(** What holds of the packets accepted so far. *)
Definition packet_ok (name : string) (d : demuxer) (p : packet) : Prop :=
  (pk_media p = AVMediaTypeVideo -> pk_type p = get_pack_type name) /\
  exists s, idx (dm_tracks d) (pk_index p) = Some s /\ pk_timebase p = st_timebase s /\ In (pk_index p, pk_buffer p) (dm_map d).
Lemma reach_packets name h d evs : Forall no_hook h -> run (dm_new name) h = Ok (d, evs) ->
  subseq (map payload_of (accepted evs)) (payloads h) /\ Forall (packet_ok name d) (accepted evs).
Proof.
  intros F R. refine (proj2 (run_hist no_hook (fun h d evs => (wf d /\ dm_name d = name /\ dm_pre d = None) /\ subseq (map payload_of (accepted evs)) (payloads h) /\ Forall (packet_ok name d) (accepted evs)) (dm_new name) _ _ h d evs F R)).
  - split; [split; [apply wf_new|split; reflexivity]|]. split; constructor.
  - clear. intros h o a d evs d' e N R ((W & Nm & P) & Sub & Ok1) S.
    split; [split; [eapply step_wf; eauto|split; [now rewrite (step_name _ _ _ _ _ W S)|eapply step_pre; eauto]]|].
    destruct (step_made _ _ _ _ _ W S) as (d1 & B & E & M & A).
    rewrite payloads_app, accepted_app, map_app, Forall_app.
    assert (Old : Forall (packet_ok name d') (accepted evs)).
    { eapply Forall_impl; [|exact Ok1]. intros p (T & s & J1 & J2 & J3). split; [exact T|]. apply (base_later _ _ _ _ _ _ B) in J1. destruct (est_later _ _ _ _ E J1) as (s' & K1 & K2).
      exists s'. split; [exact K1|]. split; [rewrite J2; symmetry; apply K2|]. rewrite M. eapply base_map; eauto. }
    destruct A as [A|(s & p & buf & A & Md & Ob & In1 & Id1)]; rewrite A; cbn [map].
    + split; [|split; [exact Old|constructor]]. apply subseq_app; [exact Sub|apply subseq_nil].
    + destruct (made_payload _ _ _ _ _ P Md) as (Q1 & Q2 & Q3 & Q4 & Q5). split.
      * apply subseq_app; [exact Sub|]. unfold payloads. cbn [flat_map snd]. rewrite Q1. cbn. apply subseq_refl.
      * split; [exact Old|]. apply Forall_cons; [|constructor]. split; [now rewrite <- Nm|]. destruct (est_later _ _ _ _ E Id1) as (s' & K1 & K2). exists s'. rewrite Q2.
        split; [exact K1|]. split; [rewrite Q3; symmetry; apply K2|]. rewrite M. assert (buf = pk_buffer p) as -> by congruence. exact In1.
Qed.

(** What holds of the tracks: each was created by a call of the history. *)
Definition born (name : string) (h : list (oracle * op)) (buf : Z) (s : stream) : Prop :=
  exists o a d0 s0, In (o, a) h /\ dm_name d0 = name /\ create_buf a = Some buf /\ creates o d0 a s0 /\ same_up_to_estimates s0 s.
Lemma born_mono name h h' buf s : born name h buf s -> born name (h ++ h') buf s.
Proof. intros (o & a & d0 & s0 & J & K). exists o, a, d0, s0. split; [apply in_or_app; now left|exact K]. Qed.
Lemma born_est name h buf s s' : born name h buf s -> same_up_to_estimates s s' -> born name h buf s'.
Proof. intros (o & a & d0 & s0 & J & K1 & K2 & K3 & K4) E. exists o, a, d0, s0. repeat (split; [assumption|]). eapply estimates_trans; eauto. Qed.
(** Where the extra data of a track come from. *)
Definition data_from (h : list (oracle * op)) (s : stream) : Prop :=
  forall e, st_data s = Some e -> exists o a, In (o, a) h /\
    match a with
    | OpNewAudio _ id _ extra _ => id = st_codec s /\ extra = Some e
    | OpNewVideo _ id _ extra => id = st_codec s /\ extra = e
    | OpAudio _ id data _ => id = st_codec s /\ exists k c, extract_audio_extra_data id data = Ok (Some e, k, c)
    | OpVideo _ id data key _ _ => id = st_codec s /\ key = true /\ extract_video_extra_data id data = Ok (Some e)
    | _ => False
    end.
Lemma data_from_mono h h' s s' : data_from h s -> same_up_to_estimates s s' -> data_from (h ++ h') s'.
Proof.
  intros D (_ & _ & E3 & _ & E5 & _) e X. rewrite E5 in X. destruct (D e X) as (o & a & J & K). exists o, a. split; [apply in_or_app; now left|]. now rewrite E3.
Qed.
Lemma creates_data o d a s h : creates o d a s -> (forall s0, In s0 (dm_tracks d) -> data_from h s0) -> data_from (h ++ [(o, a)]) s.
Proof.
  intros C D e X. assert (L : In (o, a) (h ++ [(o, a)])) by (apply in_or_app; right; now left). destruct a; cbn [creates] in C; try contradiction.
  - exists o, (OpNewAudio buf id timebase extra config). split; [exact L|]. destruct C as (_ & H1 & _ & _ & H2 & _). split; [congruence|]. rewrite H2 in X. now destruct (_ <? _).
  - exists o, (OpNewVideo buf id timebase extra). split; [exact L|]. destruct C as (_ & H1 & _ & H2 & _). split; congruence.
  - destruct C as (extra & k & c & tb & H1 & _ & (_ & H2 & _ & _ & H3 & _)). exists o, (OpAudio buf id data ts). split; [exact L|]. split; [congruence|]. exists k, c. rewrite H1. rewrite H3 in X. destruct (_ <? _); congruence.
  - destruct C as (x & tb & _ & (_ & H2 & _ & H3 & _) & _ & H4). assert (x = e) by congruence. subst x. destruct H4 as [(H4 & H5)|(s0 & H4 & H5 & H6)].
    + exists o, (OpVideo buf id data key dts pts). split; [exact L|]. split; [congruence|]. auto.
    + destruct (D s0 H4 e H6) as (o' & a' & J & K). exists o', a'. split; [apply in_or_app; now left|]. rewrite H2, <- H5. exact K.
Qed.
Lemma idx_In {A} (l : list A) i x : idx l i = Some x -> In x l.
Proof. intros J. pose proof (idx_inv _ _ _ J). rewrite idx_nth in J by lia. eapply nth_error_In; eauto. Qed.
Lemma In_idx {A} (l : list A) x : In x l -> exists i, idx l i = Some x.
Proof. intros J. apply In_nth_error in J as [n J]. exists (Z.of_nat n). rewrite idx_nth by lia. now rewrite Nat2Z.id. Qed.

Lemma reach_tracks name h d evs : run (dm_new name) h = Ok (d, evs) ->
  forall i s, idx (dm_tracks d) i = Some s -> data_from h s /\ exists buf, In (i, buf) (dm_map d) /\ born name h buf s.
Proof.
  intros R. refine (proj2 (run_hist (fun _ => True) (fun h d evs => (wf d /\ dm_name d = name) /\ forall i s, idx (dm_tracks d) i = Some s -> data_from h s /\ exists buf, In (i, buf) (dm_map d) /\ born name h buf s) (dm_new name) _ _ h d evs _ R)).
  - split; [split; [apply wf_new|reflexivity]|]. intros i s J. apply idx_inv in J. change (zlen (dm_tracks (dm_new name))) with 0 in J. lia.
  - clear. intros h o a d evs d' e _ R ((W & Nm) & T) S.
    split; [split; [eapply step_wf; eauto|now rewrite (step_name _ _ _ _ _ W S)]|].
    destruct (step_made _ _ _ _ _ W S) as (d1 & B & E & M & _). intros i s' J. destruct (est_earlier _ _ _ _ E J) as (s & J1 & Es).
    assert (K : (idx (dm_tracks d) i = Some s /\ forall x, In x (dm_map d) -> In x (dm_map d1)) \/ (exists buf, create_buf a = Some buf /\ creates o d a s /\ In (i, buf) (dm_map d1))).
    { destruct B as [->|(s0 & buf & B1 & B2 & B3 & ->)]; [now left|]. cbn [grow dm_tracks with_tracks] in J1. destruct (Z.ltb_spec i (zlen (dm_tracks d))).
      - left. rewrite idx_app_l in J1 by lia. split; [exact J1|]. intros x Hx. cbn [grow dm_map with_tracks]. apply in_or_app. now left.
      - right. pose proof (idx_inv _ _ _ J1) as L. rewrite zlen_app in L. change (zlen [s0]) with 1 in L. rewrite idx_app_r in J1 by lia. replace (i - zlen (dm_tracks d)) with 0 in J1 by lia. cbn in J1. injection J1 as <-.
        exists buf. split; [exact B1|]. split; [exact B3|]. replace i with (zlen (dm_tracks d)) by lia. apply grow_last. }
    destruct K as [(K1 & K2)|(buf & K1 & K2 & K3)].
    + destruct (T _ _ K1) as (D & buf & T1 & T2). split; [eapply data_from_mono; eauto|]. exists buf. split; [rewrite M; auto|]. apply born_mono. eapply born_est; eauto.
    + split.
      * assert (D : data_from (h ++ [(o, a)]) s). { eapply creates_data; [exact K2|]. intros s0 I0. apply In_idx in I0 as [j I0]. now destruct (T _ _ I0). }
        rewrite <- (app_nil_r (h ++ [(o, a)])). eapply data_from_mono; eauto.
      * exists buf. split; [now rewrite M|]. exists o, a, d, s. split; [apply in_or_app; right; now left|]. auto.
  - apply Forall_forall. auto.
Qed.

From Verif Require Import Base NaluModel RecordModel AacModel FloatModel PacketModel DemuxModel DemuxProofs TrackSpec TrackProofs IntakeSpec IntakeProofs ReentModel ReentProofs AloneSpec.
From Coq Require Import String List Permutation.
Import ListNotations.
Local Open Scope list_scope.

Lemma mine_app b x y : mine b (x ++ y) = mine b x ++ mine b y.
Proof. apply flat_map_app. Qed.

(** After the probe, a packet with an index is always taken. *)
Lemma decide_ok o d p : 0 <= pk_index p -> exists pl, decide o d p = Ok pl.
Proof.
  intros N. unfold decide. fold (base_lists d p). set (k := if pk_index p <? zlen (dm_packets d) then pk_index p else zlen (dm_packets d)).
  assert (B : 0 <= k < zlen (base_lists d p)).
  { pose proof (zlen_nonneg (dm_packets d)). unfold k, base_lists. destruct (Z.ltb_spec (pk_index p) (zlen (dm_packets d))); [lia|]. rewrite zlen_app. change (zlen [@nil packet]) with 1. lia. }
  destruct (idx_some _ _ B) as (l & ->). cbn [of_opt bind]. cbv zeta.
  assert (U : forall x, exists y, upd (base_lists d p) k x = Some y) by (intros x; rewrite upd_eq by exact B; eauto).
  destruct (Z.ltb_spec (zlen (l ++ [p]) - 2) 0) as [|L]; [destruct (U (l ++ [p])) as (y & ->); cbn; eauto|].
  pose proof (zlen_nonneg l). rewrite zlen_app in L. change (zlen [p]) with 1 in L.
  assert (Bp : 0 <= zlen (l ++ [p]) - 2 < zlen (l ++ [p])) by (rewrite zlen_app; change (zlen [p]) with 1; lia).
  destruct (idx_some _ _ Bp) as (q & ->). cbn [of_opt bind]. rewrite (upd_eq _ _ _ Bp). cbn [of_opt bind].
  destruct (dm_completed d).
  - match goal with |- exists pl, bind (of_opt (upd _ _ ?x)) _ = _ => destruct (U x) as (y & ->) end. cbn. eauto.
  - match goal with |- exists pl, bind (of_opt (upd _ _ ?x)) _ = _ => destruct (U x) as (y & ->) end. cbn [of_opt bind]. destruct (_ <=? _); eauto.
Qed.

Section alone.
Variables (i : nat) (b : Z).
Local Notation zi := (Z.of_nat i).

(** Track [i] gets the packets of buffer [b], and no other track does. *)
Definition track_of (d : demuxer) : Prop := In (zi, b) (dm_map d) /\ forall j, In (j, b) (dm_map d) -> j = zi.
(** Its packets wait in its list and no other packets do. *)
Definition lists_ok (d : demuxer) : Prop :=
  forall k p, In p (nth k (dm_packets d) []) -> In (pk_index p, pk_buffer p) (dm_map d) /\ (k = i <-> pk_index p = zi).
Definition settled (d : demuxer) : Prop := wf d /\ dm_completed d = true /\ hook_ok (dm_pre d) /\ track_of d /\ (i < length (dm_packets d))%nat /\ lists_ok d.

Lemma buffer_index d p : wf d -> track_of d -> In (pk_index p, pk_buffer p) (dm_map d) -> (pk_buffer p = b <-> pk_index p = zi).
Proof.
  intros W [T1 T2] I. split; intros E; [apply T2; now rewrite <- E|].
  rewrite E in I. apply (map_find_in _ _ _ (wf_nodup _ W)) in I, T1. congruence.
Qed.
Lemma mine_forward d p e : wf d -> track_of d -> In (pk_index p, pk_buffer p) (dm_map d) -> pk_index p <> zi -> forward_packet d p = Ok e -> mine b e = [].
Proof.
  intros W T I N. assert (B : (pk_buffer p =? b) = false) by (apply Z.eqb_neq; rewrite (buffer_index d p W T I); exact N).
  unfold forward_packet. destruct (dm_handler d); cbn [negb]; [|discriminate]. destruct (dm_autofree d).
  - pose proof (map_find_in _ _ _ (wf_nodup _ W) I) as M. rewrite M. intros [= <-]. cbn [mine flat_map]. rewrite B. reflexivity.
  - intros [= <-]. cbn [mine flat_map]. rewrite B. reflexivity.
Qed.

(** The place of a packet. *)
Lemma place d p k : Z.of_nat k = Z.min (pk_index p) (zlen (dm_packets d)) -> (i < length (dm_packets d))%nat -> (k = i <-> pk_index p = zi).
Proof. unfold zlen. lia. Qed.
Lemma nth_base d p j : nth j (base_lists d p) [] = nth j (dm_packets d) [].
Proof.
  unfold base_lists. destruct (_ <? _); [reflexivity|]. destruct (Nat.lt_ge_cases j (length (dm_packets d))); [now rewrite app_nth1|]. rewrite app_nth2, (nth_overflow (dm_packets d)) by lia.
  now destruct (j - length (dm_packets d))%nat as [|[|]].
Qed.
Lemma base_length d p : (length (dm_packets d) <= length (base_lists d p))%nat.
Proof. unfold base_lists. destruct (_ <? _); rewrite ?app_length; lia. Qed.

(** A packet of another track. *)
Lemma process_other o d p d' e : settled d -> In (pk_index p, pk_buffer p) (dm_map d) -> pk_index p <> zi -> process_buffered_packet o d p = Ok (d', e) ->
  settled d' /\ mine b e = [] /\ exists ls, d' = with_packets d ls /\ nth i ls [] = nth i (dm_packets d) [] /\ (i < length ls)%nat.
Proof.
  intros (W & C & H & T & Li & Lo) I N P. assert (B : (pk_buffer p =? b) = false) by (apply Z.eqb_neq; rewrite (buffer_index d p W T I); exact N).
  apply process_cases in P as (k & l & Nk & Ek & P). pose proof (place d p k Ek Li) as Pl. pose proof (nth_error_nth _ _ [] Nk) as Nl. rewrite nth_base in Nl.
  assert (Lk : (k < length (base_lists d p))%nat) by (apply nth_error_Some; congruence). pose proof (base_length d p) as Lb.
  assert (Key : forall l', (forall q, In q l' -> q = p \/ In q l) -> settled (with_packets d (set_nth k l' (base_lists d p))) /\
     exists ls, with_packets d (set_nth k l' (base_lists d p)) = with_packets d ls /\ nth i ls [] = nth i (dm_packets d) [] /\ (i < length ls)%nat).
  { intros l' Hl. split.
    - split; [exact W|]. split; [exact C|]. split; [exact H|]. split; [exact T|]. split; [cbn [dm_packets with_packets]; rewrite set_nth_length; lia|].
      intros j q. cbn [dm_packets with_packets dm_map]. rewrite nth_set_nth by exact Lk. destruct (Nat.eqb_spec j k) as [Ej|Ej]; [|rewrite nth_base; apply Lo].
      intros J. destruct (Hl q J) as [->|J']; [split; [exact I|rewrite Ej; exact Pl]|]. rewrite <- Nl in J'. destruct (Lo _ _ J') as [A1 A2]. split; [exact A1|]. now rewrite Ej.
    - eexists. split; [reflexivity|]. rewrite set_nth_length, nth_set_nth by exact Lk. split; [|lia]. destruct (Nat.eqb_spec i k) as [Ei|]; [|apply nth_base]. exfalso. apply N, Pl. now symmetry. }
  cbv zeta in P. destruct P as [(Hl & -> & ->)|[(l' & q & e' & -> & _ & -> & F & ->)|(e' & _ & C' & _)]]; [| |congruence].
  - destruct Hl as [->|[C' _]]; [|congruence]. change (stamp [] p) with [p]. destruct (Key [p]) as [K1 K2]; [intros q [->|[]]; now left|]. split; [exact K1|]. split; [|exact K2]. cbn [mine flat_map]. now rewrite B.
  - destruct (Key (l' ++ [p])) as [K1 K2]; [intros x J; apply in_app_iff in J as [J|[->|[]]]; [right; apply in_app_iff; now left|now left]|]. split; [exact K1|]. split; [|exact K2].
    change (EvAdd p (zlen (dm_packets d)) :: e') with ([EvAdd p (zlen (dm_packets d))] ++ e'). rewrite mine_app. cbn [mine flat_map]. rewrite B. cbn [app].
    assert (J : In q (nth k (dm_packets d) [])) by (rewrite Nl; apply in_app_iff; right; now left). destruct (Lo _ _ J) as [A1 A2].
    eapply (mine_forward (with_packets d (set_nth k (l' ++ [p]) (base_lists d p))) (set_duration q (i64 (pk_dts p - pk_dts q))) e'); [exact W|exact T|exact A1| |exact F]. cbn [set_duration pk_index]. intros X. apply N, Pl. now apply A2.
Qed.

(** A packet of the track. *)
Lemma process_own o d p d' e ls : settled d -> In (pk_index p, pk_buffer p) (dm_map d) -> pk_index p = zi -> process_buffered_packet o d p = Ok (d', e) ->
  nth i ls [] = nth i (dm_packets d) [] -> (i < length ls)%nat ->
  settled d' /\ exists ls' e', process_buffered_packet o (with_packets d ls) p = Ok (with_packets d' ls', e') /\ mine b e' = mine b e /\ nth i ls' [] = nth i (dm_packets d') [] /\ (i < length ls')%nat.
Proof.
  intros (W & C & H & T & Li & Lo) I E P El Ll. set (d2 := with_packets d ls).
  assert (B : (pk_buffer p =? b) = true) by (apply Z.eqb_eq; now rewrite (buffer_index d p W T I)).
  destruct (decide_ok o d2 p) as [pl D]; [lia|]. rewrite process_eq, D. cbn [bind]. apply decide_cases in D as (k2 & l2 & Nk2 & Ek2 & D).
  assert (Li2 : (i < length (dm_packets d2))%nat) by exact Ll.
  apply process_cases in P as (k & l & Nk & Ek & P). pose proof (proj2 (place d p k Ek Li) E) as Kk. pose proof (proj2 (place d2 p k2 Ek2 Li2) E) as Kk2. subst k k2.
  pose proof (nth_error_nth _ _ [] Nk) as Nl. pose proof (nth_error_nth _ _ [] Nk2) as Nl2. rewrite nth_base in Nl, Nl2. change (dm_packets d2) with ls in Nl2. rewrite El, Nl in Nl2. subst l2.
  assert (Lk : (i < length (base_lists d p))%nat) by (apply nth_error_Some; congruence). assert (Lk2 : (i < length (base_lists d2 p))%nat) by (apply nth_error_Some; congruence).
  assert (Key : forall l', (forall q, In q l' -> q = p \/ In q l) -> settled (with_packets d (set_nth i l' (base_lists d p)))).
  { intros l' Hl. split; [exact W|]. split; [exact C|]. split; [exact H|]. split; [exact T|]. split; [cbn [dm_packets with_packets]; rewrite set_nth_length; lia|].
    intros j q. cbn [dm_packets with_packets dm_map]. rewrite nth_set_nth by exact Lk. destruct (Nat.eqb_spec j i) as [Ej|Ej]; [|rewrite nth_base; apply Lo].
    intros J. destruct (Hl q J) as [->|J']; [split; [exact I|split; intros _; assumption]|]. rewrite <- Nl in J'. destruct (Lo _ _ J') as [A1 A2]. split; [exact A1|]. now rewrite Ej. }
  cbv zeta in P, D. destruct P as [(Hl & -> & ->)|[(l' & q & e' & -> & _ & -> & F & ->)|(e' & _ & C' & _)]]; [| |congruence].
  - destruct Hl as [->|[C' _]]; [|congruence]. change (stamp [] p) with [p] in *. split; [apply Key; intros q [->|[]]; now left|].
    destruct D as [(-> & _)|[(_ & l' & q & Eq & _)|(C' & _)]]; [|now destruct l'|change (dm_completed d2) with (dm_completed d) in C'; congruence].
    exists (set_nth i [p] (base_lists d2 p)). eexists. split; [reflexivity|]. split; [cbn [mine flat_map]; now rewrite B|]. cbn [dm_packets with_packets]. rewrite !nth_set_nth, !Nat.eqb_refl, set_nth_length by assumption. auto.
  - split; [apply Key; intros x J; apply in_app_iff in J as [J|[->|[]]]; [right; apply in_app_iff; now left|now left]|].
    destruct D as [(_ & [Eq|C'])|[(_ & l'' & q' & Eq & ->)|(C' & _)]]; [now destruct l'|change (dm_completed d2) with (dm_completed d) in C'; congruence| |change (dm_completed d2) with (dm_completed d) in C'; congruence].
    apply app_inj_tail in Eq as [<- <-]. change (forward_packet (with_packets d2 (set_nth i (l' ++ [p]) (base_lists d2 p))) (set_duration q (i64 (pk_dts p - pk_dts q)))) with (forward_packet (with_packets d (set_nth i (l' ++ [p]) (base_lists d p))) (set_duration q (i64 (pk_dts p - pk_dts q)))).
    rewrite F. cbn [bind]. exists (set_nth i (l' ++ [p]) (base_lists d2 p)). eexists. split; [reflexivity|].
    split; [change (mine b ([EvAdd p (zlen (dm_packets d2))] ++ e') = mine b ([EvAdd p (zlen (dm_packets d))] ++ e')); rewrite !mine_app; cbn [mine flat_map]; now rewrite B|].
    cbn [dm_packets with_packets]. rewrite !nth_set_nth, !Nat.eqb_refl, set_nth_length by assumption. auto.
Qed.

(** What a packet call does after the probe. *)
Lemma find_track_after o d c : wf d -> (find_track o d c = Ok None /\ no_buffer d c) \/ exists s, find_track o d c = Ok (Some s) /\ In (st_index s, c) (dm_map d).
Proof.
  intros W. destruct (find_track_total o d c W) as [r E]. destruct (find_track_cases _ _ _ _ E) as [(-> & N)|(j & s & -> & I & Ix)]; [now left|right]. exists s. split; [exact E|]. destruct W as [W _]. now rewrite (W _ _ Ix).
Qed.
Lemma audio_after o d c id data ts : wf d -> dm_completed d = true ->
  (no_buffer d c /\ on_audio_packet o d c id data ts = Ok (d, [EvDiscardBack c])) \/
  exists p, In (pk_index p, c) (dm_map d) /\ pk_buffer p = c /\ forall ls, on_audio_packet o (with_packets d ls) c id data ts = process_buffered_packet o (with_packets d ls) p.
Proof.
  intros W C. destruct (find_track_after o d c W) as [(E & N)|(s & E & I)].
  - left. split; [exact N|]. unfold on_audio_packet. rewrite E. cbn [bind]. rewrite C. reflexivity.
  - right. exists (set_buffer (init_audio (pool_packet o) data ts id (st_index s) (st_timebase s)) c). split; [exact I|]. split; [reflexivity|]. intros ls.
    unfold on_audio_packet. change (find_track o (with_packets d ls) c) with (find_track o d c). rewrite E. cbn [bind]. reflexivity.
Qed.
Lemma video_after o d c id data key dts pts : wf d -> dm_completed d = true -> hook_ok (dm_pre d) ->
  (no_buffer d c /\ on_video_packet o d c id data key dts pts = Ok (d, [EvDiscardBack c])) \/
  exists p, In (pk_index p, c) (dm_map d) /\ pk_buffer p = c /\ forall ls, on_video_packet o (with_packets d ls) c id data key dts pts = process_buffered_packet o (with_packets d ls) p.
Proof.
  intros W C H. destruct (find_track_after o d c W) as [(E & N)|(s & E & I)].
  - left. split; [exact N|]. unfold on_video_packet. rewrite E. cbn [bind]. rewrite C. reflexivity.
  - right. set (p := set_buffer (init_video (pool_packet o) data dts pts key (get_pack_type (dm_name d)) id (st_index s) (st_timebase s)) c). exists (apply_pre (dm_pre d) p).
    destruct (apply_pre_ok _ p H) as [-> ->]. split; [exact I|]. split; [reflexivity|]. intros ls.
    unfold on_video_packet. change (find_track o (with_packets d ls) c) with (find_track o d c). rewrite E. cbn [bind]. reflexivity.
Qed.
Lemma same_packets d : with_packets d (dm_packets d) = d.
Proof. now destruct d. Qed.

Lemma step_other o d a d' e : settled d -> other b a = true -> step o d a = Ok (d', e) ->
  settled d' /\ mine b e = [] /\ exists ls, d' = with_packets d ls /\ nth i ls [] = nth i (dm_packets d) [] /\ (i < length ls)%nat.
Proof.
  intros S O E. pose proof S as (W & C & H & T & Li & Lo).
  assert (Kn : forall c, (c =? b) = false -> Ok (d, [EvDiscardBack c]) = Ok (d', e) -> settled d' /\ mine b e = [] /\ exists ls, d' = with_packets d ls /\ nth i ls [] = nth i (dm_packets d) [] /\ (i < length ls)%nat).
  { intros c N [= <- <-]. split; [exact S|]. split; [cbn [mine flat_map]; now rewrite N|]. exists (dm_packets d). now rewrite same_packets. }
  assert (Kp : forall c p, (c =? b) = false -> In (pk_index p, c) (dm_map d) -> pk_buffer p = c -> process_buffered_packet o d p = Ok (d', e) -> settled d' /\ mine b e = [] /\ exists ls, d' = with_packets d ls /\ nth i ls [] = nth i (dm_packets d) [] /\ (i < length ls)%nat).
  { intros c p N I B P. apply Z.eqb_neq in N. rewrite <- B in I. apply (process_other o d p d' e S I); [|exact P]. rewrite <- (buffer_index d p W T I). congruence. }
  destruct a; try discriminate O; cbn [other] in O; apply negb_true_iff in O; cbn [step] in E.
  - destruct (audio_after o d buf id data ts W C) as [(_ & Q)|(p & I & B & Q)]; [rewrite Q in E; now apply (Kn buf)|]. specialize (Q (dm_packets d)). rewrite same_packets in Q. rewrite Q in E. now apply (Kp buf p).
  - destruct (video_after o d buf id data key dts pts W C H) as [(_ & Q)|(p & I & B & Q)]; [rewrite Q in E; now apply (Kn buf)|]. specialize (Q (dm_packets d)). rewrite same_packets in Q. rewrite Q in E. now apply (Kp buf p).
Qed.

(** Announcements come too late. *)
Lemma create_audio_after d c id tb x cf r : dm_completed d = true -> create_audio_track d c id tb x cf = Ok r -> fst r = d /\ forall ls, exists t, create_audio_track (with_packets d ls) c id tb x cf = Ok (with_packets d ls, t).
Proof.
  intros C. unfold create_audio_track, add_track. change (dm_tracks (with_packets d _)) with (dm_tracks d). destruct (_ && _).
  - destruct x as [x|]; [|discriminate]. destruct (parse_asc x) as [a| | |]; try discriminate; [rewrite C|]; intros [= <-]; (split; [reflexivity|intros ls]); [|eauto]. change (dm_completed (with_packets d ls)) with (dm_completed d). rewrite C. eauto.
  - rewrite C. intros [= <-]. split; [reflexivity|]. intros ls. change (dm_completed (with_packets d ls)) with (dm_completed d). rewrite C. eauto.
Qed.
Lemma create_video_after o d c id tb x r : dm_completed d = true -> create_video_track o d c id tb x = Ok r -> fst r = d /\ forall ls, exists t, create_video_track o (with_packets d ls) c id tb x = Ok (with_packets d ls, t).
Proof.
  intros C. unfold create_video_track, add_track. change (dm_name (with_packets d _)) with (dm_name d). destruct (generate_video_codec_data _ _ _ _) as [a| | |]; try discriminate; [rewrite C|]; intros [= <-]; (split; [reflexivity|intros ls]).
  - change (dm_name (with_packets d ls)) with (dm_name d). change (dm_completed (with_packets d ls)) with (dm_completed d). change (generate_video_codec_data (or_grow o) (get_pack_type (dm_name (with_packets d ls))) id x) with (generate_video_codec_data (or_grow o) (get_pack_type (dm_name d)) id x). rewrite C. eauto.
  - change (dm_name (with_packets d ls)) with (dm_name d). eauto.
Qed.

Lemma step_keep o d a d' e ls : settled d -> op_hook_ok (o, a) -> other b a = false -> step o d a = Ok (d', e) -> nth i ls [] = nth i (dm_packets d) [] -> (i < length ls)%nat ->
  settled d' /\ exists ls' e', step o (with_packets d ls) a = Ok (with_packets d' ls', e') /\ mine b e' = mine b e /\ nth i ls' [] = nth i (dm_packets d') [] /\ (i < length ls')%nat.
Proof.
  intros S Ho O E El Ll. pose proof S as (W & C & H & T & Li & Lo).
  assert (K0 : forall x, step o (with_packets d ls) a = Ok (with_packets d ls, x) -> Ok (d, x) = Ok (d', e) ->
    settled d' /\ exists ls' e', step o (with_packets d ls) a = Ok (with_packets d' ls', e') /\ mine b e' = mine b e /\ nth i ls' [] = nth i (dm_packets d') [] /\ (i < length ls')%nat).
  { intros x Q [= <- <-]. split; [exact S|]. exists ls, x. auto. }
  assert (Kf : forall f : demuxer -> demuxer, (forall y, f (with_packets d y) = with_packets (f d) y) -> settled (f d) -> forall x, step o (with_packets d ls) a = Ok (f (with_packets d ls), x) -> Ok (f d, x) = Ok (d', e) -> dm_packets (f d) = dm_packets d ->
    settled d' /\ exists ls' e', step o (with_packets d ls) a = Ok (with_packets d' ls', e') /\ mine b e' = mine b e /\ nth i ls' [] = nth i (dm_packets d') [] /\ (i < length ls')%nat).
  { intros f Fy Sf x Q [= <- <-] Dp. split; [exact Sf|]. exists ls, x. rewrite Q, Fy, Dp. auto. }
  assert (Kp : forall p, In (pk_index p, b) (dm_map d) -> pk_buffer p = b -> (forall y, step o (with_packets d y) a = process_buffered_packet o (with_packets d y) p) ->
    settled d' /\ exists ls' e', step o (with_packets d ls) a = Ok (with_packets d' ls', e') /\ mine b e' = mine b e /\ nth i ls' [] = nth i (dm_packets d') [] /\ (i < length ls')%nat).
  { intros p I B Q. pose proof (Q (dm_packets d)) as Q0. rewrite same_packets, E in Q0. symmetry in Q0. rewrite Q. rewrite <- B in I. apply (process_own o d p d' e ls S I); auto. now apply (buffer_index d p W T I). }
  destruct a; cbn [step] in E.
  - unfold on_new_audio_track in E.
    destruct (match tm_find_type (dm_tracks d) AVMediaTypeAudio with None => _ | Some _ => _ end) as [[d1 t]| | |] eqn:M in E; cbn [bind] in E; try discriminate.
    assert (X : d1 = d /\ exists t', match tm_find_type (dm_tracks d) AVMediaTypeAudio with None => create_audio_track (with_packets d ls) buf id timebase extra config | Some _ => if (dm_name d =? "ts")%string then create_audio_track (with_packets d ls) buf id timebase extra config else Ok (with_packets d ls, None) end = Ok (with_packets d ls, t')).
    { destruct (tm_find_type _ _); [destruct (_ =? _)%string|]; try (destruct (create_audio_after _ _ _ _ _ _ _ C M) as [Q1 Q2]; cbn [fst] in Q1; split; [exact Q1|apply Q2]). injection M as <- <-. eauto. }
    destruct X as (-> & t' & X). cbn [bind] in E. eapply K0; [|exact E]. cbn [step]. unfold on_new_audio_track. change (dm_tracks (with_packets d ls)) with (dm_tracks d). change (dm_name (with_packets d ls)) with (dm_name d). rewrite X. reflexivity.
  - unfold on_new_video_track in E.
    destruct (match tm_find_type (dm_tracks d) AVMediaTypeVideo with None => _ | Some _ => _ end) as [[d1 t]| | |] eqn:M in E; cbn [bind] in E; try discriminate.
    assert (X : d1 = d /\ exists t', match tm_find_type (dm_tracks d) AVMediaTypeVideo with None => create_video_track o (with_packets d ls) buf id timebase extra | Some _ => if (dm_name d =? "ts")%string then create_video_track o (with_packets d ls) buf id timebase extra else Ok (with_packets d ls, None) end = Ok (with_packets d ls, t')).
    { destruct (tm_find_type _ _); [destruct (_ =? _)%string|]; try (destruct (create_video_after _ _ _ _ _ _ _ C M) as [Q1 Q2]; cbn [fst] in Q1; split; [exact Q1|apply Q2]). injection M as <- <-. eauto. }
    destruct X as (-> & t' & X). cbn [bind] in E. eapply K0; [|exact E]. cbn [step]. unfold on_new_video_track. change (dm_tracks (with_packets d ls)) with (dm_tracks d). change (dm_name (with_packets d ls)) with (dm_name d). rewrite X. reflexivity.
  - apply negb_false_iff, Z.eqb_eq in O. subst buf. destruct (audio_after o d b id data ts W C) as [(N & _)|(p & I & B & Q)]; [destruct (N zi); apply T|]. now apply (Kp p).
  - apply negb_false_iff, Z.eqb_eq in O. subst buf. destruct (video_after o d b id data key dts pts W C H) as [(N & _)|(p & I & B & Q)]; [destruct (N zi); apply T|]. now apply (Kp p).
  - assert (Q : forall y, on_probe_complete o (with_packets d y) = Ok (with_packets d y, [])) by (intros y; unfold on_probe_complete; change (dm_completed (with_packets d y)) with (dm_completed d); rewrite C; reflexivity).
    apply (K0 []); [apply Q|]. rewrite <- E, <- (same_packets d) at 1. rewrite <- (Q (dm_packets d)). now rewrite same_packets.
  - assert (Q : forall y, try_complete_probe o (with_packets d y) = Ok (with_packets d y, [])).
    { intros y. unfold try_complete_probe. destruct (need_more _); [reflexivity|]. unfold on_probe_complete. change (dm_completed (with_packets d y)) with (dm_completed d). rewrite C. reflexivity. }
    apply (K0 []); [apply Q|]. rewrite <- E. specialize (Q (dm_packets d)). rewrite same_packets in Q. now symmetry.
  - apply (Kf (fun d => with_probe d n)) with (x := []); auto; reflexivity.
  - apply (Kf (fun d => with_handler d true)) with (x := []); auto; reflexivity.
  - apply (Kf (fun d => with_pre d f)) with (x := []); auto; try reflexivity. split; [exact W|]. split; [exact C|]. split; [exact Ho|]. split; [exact T|]. now split.
  - apply (Kf (fun d => with_autofree d b0)) with (x := []); auto; reflexivity.
  - apply (Kf (fun d => with_pre (with_handler d false) None)) with (x := []); auto; try reflexivity. split; [exact W|]. split; [exact C|]. split; [exact Logic.I|]. split; [exact T|]. now split.
  - unfold find_buffer_index in E. destruct (marker_index _ _ _) as [m|] eqn:M; injection E as <- <-; (split; [exact S|]); exists ls; eexists;
      (split; [cbn [step]; unfold find_buffer_index; change (dm_ordered (with_packets d ls)) with (dm_ordered d); rewrite M; reflexivity|]); auto.
  - apply (K0 _ eq_refl E).
  - apply (K0 _ eq_refl E).
Qed.

(** A whole session after the probe. *)
Lemma run_only h : forall d d' e ls, settled d -> Forall op_hook_ok h -> run d h = Ok (d', e) -> nth i ls [] = nth i (dm_packets d) [] -> (i < length ls)%nat ->
  settled d' /\ exists ls' e', run (with_packets d ls) (only b h) = Ok (with_packets d' ls', e') /\ mine b e' = mine b e /\ nth i ls' [] = nth i (dm_packets d') [] /\ (i < length ls')%nat.
Proof.
  induction h as [|[o a] t IH]; intros d d' e ls S F R El Ll; cbn [run] in R.
  - injection R as <- <-. split; [exact S|]. exists ls, []. auto.
  - apply Forall_cons_iff in F as [Fa F]. destruct (step o d a) as [[d1 e1]| | |] eqn:E1; cbn [bind] in R; try discriminate. destruct (run d1 t) as [[d2 e2]| | |] eqn:E2; cbn [bind] in R; try discriminate. injection R as <- <-.
    unfold only. cbn [filter snd]. destruct (other b a) eqn:O; cbn [negb]; fold (only b t).
    + destruct (step_other o d a d1 e1 S O E1) as (S1 & M1 & l1 & -> & N1 & L1).
      destruct (IH _ _ _ ls S1 F E2) as (S2 & ls' & e' & R' & M & N & L); [change (dm_packets (with_packets d l1)) with l1; congruence|exact Ll|]. split; [exact S2|].
      exists ls', e'. rewrite mine_app, M1. change (with_packets (with_packets d l1) ls) with (with_packets d ls) in R'. auto.
    + destruct (step_keep o d a d1 e1 ls S Fa O E1 El Ll) as (S1 & l1 & e1' & R1 & M1 & N1 & L1). destruct (IH _ _ _ l1 S1 F E2 N1 L1) as (S2 & ls' & e' & R' & M & N & L). split; [exact S2|].
      exists ls', (e1' ++ e'). cbn [run]. rewrite R1. cbn [bind]. rewrite R'. cbn [bind]. rewrite !mine_app, M1, M. auto.
Qed.
End alone.

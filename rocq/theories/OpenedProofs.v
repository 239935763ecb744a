(** * OpenedProofs: a track is made from the first packet taken for its buffer. *)
From Verif Require Import Base RingProofs NaluModel AacModel PacketModel DemuxModel DemuxProofs TrackSpec TrackProofs IntakeSpec IntakeProofs OpenedSpec.
From Coq Require Import String List.
Import ListNotations.
Local Open Scope list_scope.

Lemma est_sym_in_fields s s' : same_up_to_estimates s s' -> st_media s' = st_media s /\ st_codec s' = st_codec s /\ st_params s' = st_params s /\ st_data s' = st_data s /\ (~ estimated (st_codec s) -> st_audio s' = st_audio s).
Proof. intros (A1 & A2 & A3 & A4 & A5 & A6 & A7). repeat split; auto. intros N. now rewrite A7. Qed.
Definition keeps (l l' : list stream) : Prop := forall i s, idx l i = Some s -> exists s', idx l' i = Some s' /\ st_codec s' = st_codec s /\ st_data s' = st_data s.
Lemma keeps_app l x : keeps l (l ++ x).
Proof. intros i s J. pose proof (idx_inv _ _ _ J). exists s. rewrite idx_app_l by lia. auto. Qed.
Lemma keeps_trans a b c : keeps a b -> keeps b c -> keeps a c.
Proof. intros H1 H2 i s J. destruct (H1 _ _ J) as (s1 & J1 & E1 & E2). destruct (H2 _ _ J1) as (s2 & J2 & E3 & E4). exists s2. repeat split; congruence. Qed.
Lemma est_keeps d1 d' : Forall2 same_up_to_estimates (dm_tracks d1) (dm_tracks d') -> keeps (dm_tracks d1) (dm_tracks d').
Proof. intros F i s J. destruct (est_later _ _ _ _ F J) as (s' & J' & E). apply est_sym_in_fields in E as (_ & A & _ & B & _). eauto. Qed.

Lemma older_keeps l l' i c e : i <= zlen l -> older_data l i c e -> keeps l l' -> older_data l' i c e.
Proof.
  intros L (j & s & Lj & J & C & D & F) K. destruct (K _ _ J) as (s' & J' & C' & D'). exists j, s'. repeat split; try lia; try congruence.
  intros k s0 Lk J0. destruct (idx l k) as [s1|] eqn:E.
  - destruct (K _ _ E) as (s2 & J2 & C2 & _). rewrite J0 in J2. injection J2 as <-. rewrite C2. eapply F; eauto.
  - exfalso. apply idx_inv in J. unfold idx in E. replace (k <? 0) with false in E by lia. apply nth_error_None in E. unfold zlen in *. lia.
Qed.
Lemma opened_keeps l l' i x s s' : i <= zlen l -> opened l i x s -> keeps l l' -> same_up_to_estimates s s' -> opened l' i x s'.
Proof.
  intros L O K E. apply est_sym_in_fields in E as (E1 & E2 & E3 & E4 & E5). destruct x as [[[[[[m b] c] data] key] dts] pts]. destruct O as (A & B & O). split; [congruence|]. split; [congruence|].
  destruct O as [(M & extra & k & cfg & X & P & D & Au)|(M & e & D & G & O)].
  - left. split; [exact M|]. exists extra, k, cfg. repeat split; try congruence. intros N. rewrite E5 by now rewrite B. auto.
  - right. split; [exact M|]. exists e. split; [congruence|]. split; [congruence|]. destruct O as [O|(O1 & O2)]; [now left|right]. split; [exact O1|]. eapply older_keeps; eauto.
Qed.

Lemma tm_find_first l c i : tm_find l c = Some i -> exists s, idx l i = Some s /\ st_codec s = c /\ forall k s', 0 <= k < i -> idx l k = Some s' -> st_codec s' <> c.
Proof.
  unfold tm_find. assert (G : forall k0, tm_find_from (fun s => st_codec s =? c) k0 l = Some i -> 0 <= i - k0 /\ exists s, idx l (i - k0) = Some s /\ st_codec s = c /\ forall k s', 0 <= k < i - k0 -> idx l k = Some s' -> st_codec s' <> c).
  { induction l as [|x t IH]; intros k0; cbn [tm_find_from]; [discriminate|]. destruct (st_codec x =? c) eqn:E.
    - intros [= <-]. rewrite Z.sub_diag. split; [lia|]. exists x. split; [reflexivity|]. split; [lia|]. intros; lia.
    - intros H. destruct (IH _ H) as (L & s & J & C & F). split; [lia|]. exists s. split; [|split; [exact C|]].
      + unfold idx in *. replace (i - (k0 + 1) <? 0) with false in J by lia. replace (i - k0 <? 0) with false by lia. replace (Z.to_nat (i - k0)) with (S (Z.to_nat (i - (k0 + 1)))) by lia. exact J.
      + intros k s' Lk J'. destruct (Z.eq_dec k 0) as [->|N]; [cbn in J'; injection J' as <-; lia|]. apply (F (k - 1) s'); [lia|]. unfold idx in *. replace (k <? 0) with false in J' by lia. replace (k - 1 <? 0) with false by lia.
        replace (Z.to_nat k) with (S (Z.to_nat (k - 1))) in J' by lia. exact J'. }
  intros H. destruct (G 0) as (_ & s & K); [exact H|]. exists s. now rewrite Z.sub_0_r in K.
Qed.

(** A call that makes a track takes its packet too, and the track is what the packet describes. *)
Lemma step_opened o d a d' e : wf d -> dm_pre d = None -> packet_driven (o, a) -> step o d a = Ok (d', e) ->
  (dm_map d' = dm_map d /\ Forall2 same_up_to_estimates (dm_tracks d) (dm_tracks d')) \/
  exists s p, dm_map d' = dm_map d ++ [(zlen (dm_tracks d), pk_buffer p)] /\ no_buffer d (pk_buffer p) /\ accepted e = [p] /\
    Forall2 same_up_to_estimates (dm_tracks d ++ [s]) (dm_tracks d') /\ opened (dm_tracks d) (zlen (dm_tracks d)) (payload_of p) s.
Proof.
  intros W Pre PD S.
  assert (Cp : forall d1, on_probe_complete o d = Ok (d', d1) -> dm_map d' = dm_map d /\ Forall2 same_up_to_estimates (dm_tracks d) (dm_tracks d')) by (intros d1 C; apply complete_est in C as [? ?]; auto).
  unfold packet_driven in PD. cbn [snd] in PD. destruct a; try discriminate; cbn [step] in S;
    try (injection S as <- <-; left; split; [reflexivity|apply Forall2_est_refl]; fail).
  - unfold on_audio_packet in S. destruct (find_track o d buf) as [r| | |] eqn:F; cbn [bind] in S; try discriminate.
    apply find_track_cases in F as [(-> & N)|(i & s & -> & I & T)].
    + destruct (dm_completed d) eqn:C; [cbn [bind] in S; injection S as <- <-; left; split; [reflexivity|apply Forall2_est_refl]|].
      destruct (extract_audio_extra_data id data) as [[[extra skip] config]| | |] eqn:X; cbn [bind] in S; try discriminate; [|injection S as <- <-; left; split; [reflexivity|apply Forall2_est_refl]].
      destruct (get_timebase (dm_name d)) as [tb| | |] eqn:G; cbn [bind] in S; try discriminate.
      destruct (create_audio_track d buf id tb extra config) as [[d1 t]| | |] eqn:Cr; cbn [bind] in S; try discriminate.
      apply create_audio_track_inv in Cr; auto. destruct Cr as [(-> & ->)|(s & S1 & -> & -> & (T1 & T2 & T3 & T4 & T5 & T6))]; [injection S as <- <-; left; split; [reflexivity|apply Forall2_est_refl]|].
      destruct (process_est _ _ _ _ _ S) as [P1 P2]. destruct (process_events _ _ _ _ _ S) as [P3 _]. right. match type of P3 with accepted _ = [?p] => exists s, p end. split; [exact P2|]. split; [exact N|]. split; [exact P3|]. split; [exact P1|].
      split; [exact T1|]. split; [exact T2|]. left. split; [reflexivity|]. exists extra, skip, config. split; [exact X|]. split; [exact T4|]. split; [exact T5|]. intros _.
      assert (H : (id =? AVCodecIdAAC) && negb (ac_has_adts config) = false).
      { unfold extract_audio_extra_data in X. destruct (id =? AVCodecIdAAC); [|reflexivity]. destruct (_ <? _); [discriminate|]. destruct (read_adts_fixed_header data); cbn [bind] in X; try discriminate. apply (f_equal (fun r => match r with Ok (_, _, k) => ac_has_adts k | _ => true end)) in X. cbv beta iota in X. cbn [ac_has_adts] in X. now rewrite <- X. }
      now rewrite H in T6.
    + cbn [bind] in S. destruct (process_est _ _ _ _ _ S) as [P1 P2]. now left.
  - unfold on_video_packet in S. destruct (find_track o d buf) as [r| | |] eqn:F; cbn [bind] in S; try discriminate.
    assert (Stay : d' = d -> dm_map d' = dm_map d /\ Forall2 same_up_to_estimates (dm_tracks d) (dm_tracks d')) by (intros ->; split; [reflexivity|apply Forall2_est_refl]).
    apply find_track_cases in F as [(-> & N)|(i & s & -> & I & T)].
    + destruct (dm_completed d) eqn:C; cbn [negb andb] in S; [cbn [bind] in S; injection S as <- <-; left; now apply Stay|].
      destruct (Z.eqb_spec (get_pack_type (dm_name d)) PacketTypeAnnexB) as [PT|PT]; [|cbn [bind] in S; injection S as <- <-; left; now apply Stay].
      destruct (if key then match extract_video_extra_data id data with Err => Ok None | r => r end else Ok None) as [extra| | |] eqn:Ex; cbn [bind] in S; try discriminate.
      destruct (match extra with Some e0 => Ok (Some e0) | None => _ end) as [[e1|]| | |] eqn:Ex1; cbn [bind] in S; try discriminate; [|injection S as <- <-; left; now apply Stay].
      destruct (get_timebase (dm_name d)) as [tb| | |] eqn:G; cbn [bind] in S; try discriminate.
      destruct (create_video_track o d buf id tb e1) as [[d1 t]| | |] eqn:Cr; cbn [bind] in S; try discriminate.
      apply create_video_track_inv in Cr; auto. destruct Cr as [(-> & ->)|(s & S1 & -> & -> & (T1 & T2 & T3 & T4 & T5 & T6))]; [injection S as <- <-; left; now apply Stay|].
      change (dm_pre (grow d s buf)) with (dm_pre d) in S. rewrite Pre in S.
      destruct (process_est _ _ _ _ _ S) as [P1 P2]. destruct (process_events _ _ _ _ _ S) as [P3 _]. right. match type of P3 with accepted _ = [?p] => exists s, p end. split; [exact P2|]. split; [exact N|]. split; [exact P3|]. split; [exact P1|].
      split; [exact T1|]. split; [exact T2|]. right. split; [reflexivity|]. exists e1. split; [exact T4|]. split; [rewrite <- T6, PT; apply generate_annexb_grow|].
      destruct extra as [e0|].
      * injection Ex1 as ->. left. destruct key; [|discriminate]. split; [reflexivity|]. change (extract_video_extra_data id data = Ok (Some e1)). destruct (extract_video_extra_data id data); try discriminate. exact Ex.
      * right. split.
        { intros e' (K1 & K2). change (key = true) in K1. change (extract_video_extra_data id data = Ok (Some e')) in K2. rewrite K1, K2 in Ex. discriminate. }
        destruct (tm_find (dm_tracks d) id) as [i|] eqn:Tf; [|discriminate]. unfold tm_get in Ex1. apply tm_find_first in Tf as (s0 & Ii & Ci & Fi). rewrite Ii in Ex1. cbn [of_opt bind] in Ex1. injection Ex1 as Ex1.
        exists i, s0. apply idx_inv in Ii as Li. repeat split; auto; lia.
    + cbn [bind] in S. destruct (process_est _ _ _ _ _ S) as [P1 P2]. now left.
  - left. eapply Cp; eauto.
  - left. unfold try_complete_probe in S. destruct (need_more d); [|eapply Cp; eauto]. injection S as <- <-. split; [reflexivity|apply Forall2_est_refl].
  - left. unfold find_buffer_index in S. destruct (marker_index _ _ _); injection S as <- <-; (split; [reflexivity|apply Forall2_est_refl]).
Qed.

Definition all_opened (d : demuxer) (evs : list event) : Prop :=
  forall i b s, In (i, b) (dm_map d) -> idx (dm_tracks d) i = Some s -> exists x t, for_buffer b (map payload_of (accepted evs)) = x :: t /\ opened (dm_tracks d) i x s.
Lemma reach_opened name h d evs : Forall no_hook h -> Forall packet_driven h -> run (dm_new name) h = Ok (d, evs) -> all_opened d evs.
Proof.
  intros Nh PD R.
  assert (F : Forall (fun x => no_hook x /\ packet_driven x) h) by (rewrite Forall_forall in *; auto).
  refine (proj2 (run_hist (fun x => no_hook x /\ packet_driven x) (fun h d evs => (Forall no_hook h /\ wf d /\ dm_pre d = None) /\ all_opened d evs) (dm_new name) _ _ h d evs F R)).
  - split; [split; [constructor|split; [apply wf_new|reflexivity]]|]. intros i b s [].
  - clear. intros h o a d evs d' e (N & PD) R ((Nh & W & P) & All) S. split; [split; [apply Forall_app; split; [exact Nh|now constructor]|]; split; [eapply step_wf; eauto|eapply step_pre; eauto]|].
    intros i b s' I' J'. rewrite accepted_app, map_app, for_buffer_app.
    destruct (step_opened _ _ _ _ _ W P PD S) as [(M & E)|(s & p & M & Nb & A & E & O)].
    + rewrite M in I'. destruct (est_earlier _ _ _ _ E J') as (s & J & Es). destruct (All _ _ _ I' J) as (x & t & X & O). rewrite X. eexists x, _. split; [reflexivity|]. apply idx_inv in J as L.
      eapply opened_keeps; [|exact O| |exact Es]; [lia|now apply est_keeps].
    + assert (E' : Forall2 same_up_to_estimates (dm_tracks (grow d s (pk_buffer p))) (dm_tracks d')) by exact E.
      assert (K : keeps (dm_tracks d) (dm_tracks d')) by (eapply keeps_trans; [apply keeps_app|exact (est_keeps _ _ E')]).
      destruct (est_earlier _ _ _ _ E' J') as (s1 & J & Es). rewrite M in I'. apply in_app_or in I' as [I'|[I'|[]]].
      * assert (L : 0 <= i < zlen (dm_tracks d)). { apply (in_map fst) in I'. rewrite (proj2 W) in I'. apply in_map_iff in I' as (n & En & In'). apply in_seq in In'. cbn [fst] in En. unfold zlen. lia. }
        change (dm_tracks (grow d s (pk_buffer p))) with (dm_tracks d ++ [s]) in J. rewrite idx_app_l in J by lia. destruct (All _ _ _ I' J) as (x & t & X & O'). rewrite X. eexists x, _. split; [reflexivity|].
        eapply opened_keeps; [|exact O'|exact K|exact Es]; lia.
      * injection I' as <- <-. change (dm_tracks (grow d s (pk_buffer p))) with (dm_tracks d ++ [s]) in J. rewrite idx_app_r, Z.sub_diag in J by lia. cbn in J. injection J as <-.
        assert (Acc : for_buffer (pk_buffer p) (map payload_of (accepted evs)) = []).
        { destruct (reach_packets _ _ _ _ Nh R) as [_ F]. unfold for_buffer. clear -F Nb. induction F as [|q l (_ & s & _ & _ & J) F IH]; [reflexivity|]. cbn [map filter]. rewrite payload_of_buffer.
          destruct (Z.eqb_spec (pk_buffer q) (pk_buffer p)) as [E|]; [exfalso; apply (Nb (pk_index q)); now rewrite <- E|exact IH]. }
        rewrite Acc, A. cbn [app map for_buffer filter]. rewrite payload_of_buffer, Z.eqb_refl. eexists _, _. split; [reflexivity|]. eapply opened_keeps; [|exact O|exact K|exact Es]; lia.
Qed.

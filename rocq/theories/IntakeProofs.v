(** * IntakeProofs: the packets of a buffer that has a track are all taken. *)
From Verif Require Import Base NaluModel AacModel PacketModel DemuxModel DemuxProofs TrackSpec TrackProofs IntakeSpec.
From Coq Require Import String.
Local Open Scope list_scope.

Lemma payload_of_buffer p : payload_buffer (payload_of p) = pk_buffer p.
Proof. reflexivity. Qed.
Lemma for_buffer_app b l l' : for_buffer b (l ++ l') = for_buffer b l ++ for_buffer b l'.
Proof. apply filter_app. Qed.

(** A call is taken when its buffer has a track, or when it can open one before the probe completes. *)
Lemma not_refused o d a d' e x : wf d -> call_payload a = Some x ->
  (exists i, In (i, payload_buffer x) (dm_map d)) \/ (dm_completed d = false /\ opens (dm_name d) x) ->
  step o d a = Ok (d', e) -> accepted e <> [].
Proof.
  intros W Cp H S. assert (K : forall d1 p, process_buffered_packet o d1 p = Ok (d', e) -> accepted e <> []) by (intros d1 p P; apply process_events in P as [P _]; rewrite P; discriminate).
  destruct a; cbn [call_payload] in Cp; try discriminate; injection Cp as <-; cbn [payload_buffer opens step] in *.
  - unfold on_audio_packet in S. destruct (find_track o d buf) as [r| | |] eqn:F; cbn [bind] in S; try discriminate.
    apply find_track_cases in F as [(-> & N)|(i & s & -> & I & T)]; [|cbn [bind] in S; eapply K; exact S].
    destruct H as [(i & I)|(C & [(_ & H)|(H & _)])]; [exfalso; now apply (N i)| |discriminate]. rewrite C in S.
    assert (X : exists extra k cfg, extract_audio_extra_data id data = Ok (extra, k, cfg) /\ (id =? AVCodecIdAAC) && negb (ac_has_adts cfg) = false).
    { unfold extract_audio_extra_data. destruct (id =? AVCodecIdAAC) eqn:E.
      - destruct H as [H|(L & hd & H)]; [lia|]. replace (zlen data <? 7) with false by lia. rewrite H. cbn [bind]. do 3 eexists. split; reflexivity.
      - do 3 eexists. split; reflexivity. }
    destruct X as (extra & k & cfg & X & Y). rewrite X in S. destruct (get_timebase (dm_name d)) as [tb| | |]; cbn [bind] in S; try discriminate.
    unfold create_audio_track in S. rewrite Y in S. unfold add_track in S. rewrite C in S. cbn [bind] in S. eapply K; exact S.
  - unfold on_video_packet in S. destruct (find_track o d buf) as [r| | |] eqn:F; cbn [bind] in S; try discriminate.
    apply find_track_cases in F as [(-> & N)|(i & s & -> & I & T)]; [|cbn [bind] in S; eapply K; exact S].
    destruct H as [(i & I)|(C & [(H & _)|(_ & Pk & -> & ex & cd & X & G)])]; [exfalso; now apply (N i)|discriminate|]. rewrite C in S.
    assert (Pt : get_pack_type (dm_name d) = PacketTypeAnnexB).
    { cbn in Pk. destruct Pk as [Pk|[Pk|[Pk|[Pk|[]]]]]; injection Pk as <-; [discriminate|reflexivity..]. }
    rewrite Pt in S. cbn [negb andb] in S. rewrite Z.eqb_refl, X in S. cbn [bind] in S.
    destruct (get_timebase (dm_name d)) as [tb| | |]; cbn [bind] in S; try discriminate.
    unfold create_video_track in S. rewrite Pt, (generate_annexb_grow _ (fun n => n)), G in S. unfold add_track in S. rewrite C in S. cbn [bind] in S. eapply K; exact S.
Qed.

(** After the probe tracks and buffers stay. *)
Lemma step_frozen o d a d' e : wf d -> dm_completed d = true -> step o d a = Ok (d', e) -> dm_completed d' = true /\ dm_map d' = dm_map d.
Proof.
  intros W C S. destruct (step_cases _ _ _ _ _ W S) as [((_ & M & _ & C') & _)|[(buf & s & _ & C' & _)|[(buf & id & data & dts & _ & P)|(_ & P)]]].
  - split; congruence.
  - congruence.
  - destruct P as [(-> & _)|(d1 & i & s & p & [->|(C' & _)] & _ & _ & _ & _ & _ & _ & _ & _ & _ & P)]; [auto| |congruence].
    apply process_cases in P as (k & l & _ & _ & [(_ & -> & _)|[(l' & q & e' & _ & _ & -> & _)|(e' & _ & C' & _)]]); auto. congruence.
  - apply complete_cases in P as [(_ & -> & _)|[(C' & _)|(C' & _)]]; auto; congruence.
Qed.

Lemma payloads_snoc h o a : payloads (h ++ [(o, a)]) = payloads h ++ match call_payload a with Some c => [c] | None => [] end.
Proof. unfold payloads. rewrite flat_map_app. cbn [flat_map snd]. now rewrite app_nil_r. Qed.

Lemma buffer_dec' (m : list (Z * Z)) b : (exists i, In (i, b) m) \/ (forall i, ~ In (i, b) m).
Proof.
  induction m as [|[i c] t [(j & IH)|IH]]; [right; intros i []|left; exists j; now right|]. destruct (Z.eq_dec c b) as [->|N]; [left; exists i; now left|].
  right. intros j [E|J]; [congruence|now apply (IH j)].
Qed.

(** What is accepted for a buffer is the end of what is handed over for it; all of it when the first call can open a track, unless the
    probe was over by then. *)
Definition intake (name : string) (h : list (oracle * op)) (d : demuxer) (evs : list event) : Prop :=
  forall b, let own := for_buffer b (payloads h) in let acc := for_buffer b (map payload_of (accepted evs)) in
  (exists refused, own = refused ++ acc) /\
  match own with [] => True | x :: _ => opens name x -> acc = own \/ (dm_completed d = true /\ no_buffer d b) end.

Lemma step_intake name h o a d evs d' e : Forall no_hook h -> no_hook (o, a) -> run (dm_new name) h = Ok (d, evs) -> intake name h d evs -> step o d a = Ok (d', e) ->
  intake name (h ++ [(o, a)]) d' (evs ++ e).
Proof.
  intros Nh N R I S b. destruct (I b) as [(refused & E) Fst]. clear I. cbv zeta.
  pose proof (run_wf _ _ _ _ (wf_new name) R) as W.
  assert (Inv : dm_name d = name /\ dm_pre d = None).
  { refine (proj2 (run_hist no_hook (fun _ d _ => wf d /\ dm_name d = name /\ dm_pre d = None) (dm_new name) _ _ h d evs Nh R)).
    - split; [apply wf_new|split; reflexivity].
    - clear. intros h o a d evs d' e N _ (W & Nm & P) S. split; [eapply step_wf; eauto|]. split; [now rewrite (step_name _ _ _ _ _ W S)|eapply step_pre; eauto]. }
  destruct Inv as [Nm Pre]. rewrite payloads_snoc, accepted_app, map_app, !for_buffer_app.
  destruct (step_made _ _ _ _ _ W S) as (d1 & B & _ & Mp & A).
  assert (Acc : no_buffer d b -> for_buffer b (map payload_of (accepted evs)) = []).
  { intros Nb. destruct (reach_packets _ _ _ _ Nh R) as [_ F]. unfold for_buffer. clear -F Nb. induction F as [|p l (_ & s & _ & _ & J) F IH]; [reflexivity|]. cbn [map filter]. rewrite payload_of_buffer.
    destruct (Z.eqb_spec (pk_buffer p) b) as [<-|]; [exfalso; now apply (Nb (pk_index p))|exact IH]. }
  assert (Fz : dm_completed d = true /\ no_buffer d b -> dm_completed d' = true /\ no_buffer d' b).
  { intros [C Nb]. destruct (step_frozen _ _ _ _ _ W C S) as [C' M']. split; [exact C'|]. unfold no_buffer. now rewrite M'. }
  assert (Other : match call_payload a with Some x => payload_buffer x <> b | None => True end ->
    for_buffer b (match call_payload a with Some c => [c] | None => [] end) = [] /\ for_buffer b (map payload_of (accepted e)) = []).
  { intros H. split.
    - destruct (call_payload a) as [x|]; [|reflexivity]. cbn. now destruct (Z.eqb_spec (payload_buffer x) b).
    - destruct A as [->|(s & p & buf & -> & Md & _)]; [reflexivity|]. destruct (made_payload _ _ _ _ _ Pre Md) as (Q1 & _). rewrite Q1 in H. cbn [map for_buffer filter].
      now destruct (Z.eqb_spec (payload_buffer (payload_of p)) b). }
  assert (Cs : match call_payload a with Some x => payload_buffer x <> b | None => True end \/ exists x, call_payload a = Some x /\ payload_buffer x = b).
  { destruct (call_payload a) as [x|]; [|now left]. destruct (Z.eq_dec (payload_buffer x) b); [right; eauto|now left]. }
  destruct Cs as [Cs|(x & Cp & Bx)].
  - destruct (Other Cs) as [-> ->]. rewrite !app_nil_r. split; [now exists refused|].
    destruct (for_buffer b (payloads h)) as [|y t]; [exact I|]. intros O. destruct (Fst O) as [K|K]; [now left|right; now apply Fz].
  - rewrite Cp. assert (X : for_buffer b [x] = [x]) by (cbn; now rewrite Bx, Z.eqb_refl). rewrite X.
    assert (Aa : accepted e <> [] -> for_buffer b (map payload_of (accepted e)) = [x]).
    { intros H. destruct A as [A|(s & p & buf & -> & Md & _)]; [contradiction|]. destruct (made_payload _ _ _ _ _ Pre Md) as (Q1 & _). rewrite Cp in Q1. injection Q1 as ->. exact X. }
    destruct (buffer_dec' (dm_map d) b) as [Hb|Nb].
    + rewrite Aa by (eapply not_refused; [exact W|exact Cp|left; rewrite Bx; exact Hb|exact S]). split; [exists refused; now rewrite E, app_assoc|].
      destruct (for_buffer b (payloads h)) as [|y t] eqn:Eo; cbn [app].
      * intros _. left. destruct (for_buffer b (map payload_of (accepted evs))); [reflexivity|]. destruct refused; discriminate.
      * intros O. destruct (Fst O) as [K|(_ & K)]; [left; now rewrite K|]. destruct Hb as (i & Hb). exfalso. now apply (K i).
    + specialize (Acc Nb). rewrite Acc in *. cbn [app]. rewrite app_nil_r in E. split.
      * destruct A as [A|A]; [exists (refused ++ [x]); rewrite A, E; now rewrite app_nil_r|].
        rewrite Aa by (destruct A as (s & p & buf & -> & _); discriminate). exists refused. now rewrite E.
      * destruct (for_buffer b (payloads h)) as [|y t] eqn:Eo; cbn [app].
        -- intros O. destruct (dm_completed d) eqn:C; [right; now apply Fz|]. left. apply Aa. eapply not_refused; [exact W|exact Cp| |exact S]. right. rewrite Nm. auto.
        -- intros O. destruct (Fst O) as [K|K]; [discriminate|right; now apply Fz].
Qed.
Lemma reach_intake name h d evs : Forall no_hook h -> run (dm_new name) h = Ok (d, evs) -> intake name h d evs.
Proof.
  intros F R. assert (H : Forall no_hook h /\ intake name h d evs); [|apply H].
  refine (run_hist no_hook (fun h d evs => Forall no_hook h /\ intake name h d evs) (dm_new name) _ _ h d evs F R).
  - split; [constructor|]. intros b. split; [now exists []|exact I].
  - clear. intros h o a d evs d' e N R (Nh & It) S. split; [apply Forall_app; split; [exact Nh|now constructor]|]. eapply step_intake; eauto.
Qed.

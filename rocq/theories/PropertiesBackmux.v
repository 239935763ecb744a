(** * PropertiesBackmux: C136, from flv to a container with start codes. *)
From Coq Require Import String List Sorted Lia.
From Verif Require Import Base CollectionsSpec NaluModel NaluSpec NaluProofs SpsModel RecordModel AacModel UtilModel BlockModel BlockSpec PacketModel PacketProofs DemuxModel DemuxProofs DeliverySpec DeliveryProofs TrackSpec TrackProofs
  HandlerModel HandlerSpec HandlerProofs PropertiesNalu PropertiesPacket PropertiesDemux PropertiesTracks PropertiesSps SystemSpec SystemGrowSpec PropertiesSystemGrow
  RecordingModel RecordingProofs PropertiesRecording IntakeSpec IntakeProofs RecordedSpec RecordedProofs PropertiesIntake OpenedSpec OpenedProofs PropertiesOpened FlvRecordSpec FlvRecordProofs PropertiesFlvRecord RecordSafeSpec RecordSafeProofs
  PropertiesRecordSafe PropertiesUnitsOut ArrivalSpec PropertiesArrival FlvSafeSpec PropertiesFlvSafe DetermProofs PropertiesRound RoundProofs RemuxSpec RemuxProofs PropertiesRemux BackmuxSpec SmallProofs.
Import ListNotations.
Local Open Scope list_scope.

Lemma in_removelast {A} (l : list A) x : In x (removelast l) -> In x l.
Proof. intros I. rewrite (app_removelast_last x); [apply in_or_app; now left|]. intros ->. destruct I. Qed.
(** What an flv demuxer delivers for an announced track: what was handed over for its buffer except for the last packet, in the form in which it can be converted. *)
Lemma announced_delivery h1 h2 d1 e1 d2 e2 : let bs := map snd (dm_map d1) in Forall sorting (h1 ++ h2) -> Forall no_hook (h1 ++ h2) -> run (dm_new "flv") h1 = Ok (d1, e1) -> payloads h1 = [] -> NoDup bs ->
  Forall packet_driven h2 -> (forall x, In x (payloads h2) -> In (payload_buffer x) bs) -> buffers_in_turn bs (payloads h2) -> run d1 h2 = Ok (d2, e2) -> dm_completed d2 = true ->
  forall j b, In (Z.of_nat j, b) (dm_map d2) -> let own := for_buffer b (payloads h2) in StronglySorted Z.lt (map payload_dts own) ->
  Forall2 (fun p x => payload_of p = x /\ (pk_media p = AVMediaTypeVideo -> pk_annexb p = None /\ alloc_ok p /\ pk_type p = PacketTypeAVCC)) (of_index (Z.of_nat j) (delivered (e1 ++ e2))) (removelast own).
Proof.
  intros bs So Nh R1 P1 Nd Pd K T R2 Cd j b Jb own As. pose proof Nh as Nh0. apply Forall_app in Nh0 as [N1 N2].
  destruct (C130_announced "flv" h1 h2 d1 e1 d2 e2 N1 N2 R1 P1 Nd Pd K R2) as (R & M & A & Al). apply Al in T.
  pose proof (delivered_sent "flv" _ d2 _ So Nh R T ltac:(rewrite M; exact Nd) Cd j b Jb) as E. rewrite A in E. specialize (E As). fold own in E.
  assert (G : forall p, In p (of_index (Z.of_nat j) (delivered (e1 ++ e2))) -> In p (delivered (e1 ++ e2))) by (intros p I; now apply filter_In in I).
  revert E. generalize (removelast own). revert G. generalize (of_index (Z.of_nat j) (delivered (e1 ++ e2))). induction l as [|p l IH]; intros G m E; destruct m as [|x m]; try discriminate E; [constructor|].
  cbn [map] in E. apply cons_eq in E as [E1 E2]. constructor; [|apply IH; [intros; apply G; now right|exact E2]]. split; [exact E1|]. intros Mp.
  destruct (delivered_form "flv" _ d2 _ So Nh R p (G p (or_introl eq_refl)) Mp) as (_ & F1 & F2 & F3). split; [exact F1|]. split; [unfold alloc_ok; now rewrite F2|exact F3].
Qed.

(* ---------------------------------------------------------------------------------------- *)
(** ** C136 The way of the units from flv into a container with start codes *)
(** The sending side: tracks are announced before the first packet and heard of in this order. Every packet delivered for an H.264 track can be turned into start code form, which holds its units. *)
Theorem C136_packets_avc : forall h1 h2 d1 e1 d2 e2, let bs := map snd (dm_map d1) in Forall sorting (h1 ++ h2) -> Forall no_hook (h1 ++ h2) -> run (dm_new "flv") h1 = Ok (d1, e1) -> payloads h1 = [] -> NoDup bs ->
  Forall packet_driven h2 -> (forall x, In x (payloads h2) -> In (payload_buffer x) bs) -> buffers_in_turn bs (payloads h2) -> run d1 h2 = Ok (d2, e2) -> dm_completed d2 = true ->
  forall j b s c sets units, nth_error (dm_tracks d2) j = Some s -> In (Z.of_nat j, b) (dm_map d2) -> st_codec s = AVCodecIdH264 -> st_params s = Some c -> cd_annexb c = annexb sets ->
  let own := for_buffer b (payloads h2) in StronglySorted Z.lt (map payload_dts own) ->
  (forall x, In x own -> payload_media x = AVMediaTypeVideo /\ payload_codec x = AVCodecIdH264 /\ payload_data x = avcc (units x) /\ Forall avcc_unit_ok (units x)) ->
  Forall2 (fun p x => payload_of p = x /\ let R := annexb (out_avc sets units x) in avcc_packet_to_annexb s p = Ok (set_annexb p R, R)) (of_index (Z.of_nat j) (delivered (e1 ++ e2))) (removelast own).
Proof.
  intros h1 h2 d1 e1 d2 e2 bs So Nh R1 P1 Nd Pd K T R2 Cd j b s c sets units J Jb Cs Sp An own As U.
  pose proof (announced_delivery h1 h2 d1 e1 d2 e2 So Nh R1 P1 Nd Pd K T R2 Cd j b Jb As) as F. fold own in F.
  assert (G : forall x, In x (removelast own) -> In x own) by (intros x; apply in_removelast). revert G. induction F as [|p x l m [E H] F IH]; intros G; constructor; [|apply IH; intros; apply G; now right].
  split; [exact E|]. subst x. destruct (U _ (G _ (or_introl eq_refl))) as (Um & Uc & Ud & Uo). unfold payload_of in Um, Uc, Ud at 1. cbn [payload_media payload_codec payload_data] in Um, Uc, Ud. destruct (H Um) as (H1 & H2 & H3).
  pose proof (avcc_avc s p c (units (payload_of p)) [] Um H3 ltac:(now rewrite Cs) Uc H1 Sp H2) as Y. rewrite app_nil_r in Y. specialize (Y Ud Uo ltac:(left; vm_compute; congruence) ltac:(constructor)).
  cbv zeta in Y |- *. unfold out_avc. rewrite annexb_app, <- PropertiesUnitsOut.norm_annexb. unfold key_extra in Y. change (payload_key (payload_of p)) with (pk_key p). destruct (pk_key p); [now rewrite <- An|exact Y].
Qed.
Theorem C136_packets_hevc : forall h1 h2 d1 e1 d2 e2, let bs := map snd (dm_map d1) in Forall sorting (h1 ++ h2) -> Forall no_hook (h1 ++ h2) -> run (dm_new "flv") h1 = Ok (d1, e1) -> payloads h1 = [] -> NoDup bs ->
  Forall packet_driven h2 -> (forall x, In x (payloads h2) -> In (payload_buffer x) bs) -> buffers_in_turn bs (payloads h2) -> run d1 h2 = Ok (d2, e2) -> dm_completed d2 = true ->
  forall j b s cc k v sp pp sets units, let c := CdHevc cc (Z.of_nat k) v sp pp in nth_error (dm_tracks d2) j = Some s -> In (Z.of_nat j, b) (dm_map d2) -> st_codec s = AVCodecIdH265 -> st_params s = Some c -> (1 <= k <= 4)%nat ->
  cd_annexb c = annexb sets -> let own := for_buffer b (payloads h2) in StronglySorted Z.lt (map payload_dts own) ->
  (forall x, In x own -> payload_media x = AVMediaTypeVideo /\ payload_codec x = AVCodecIdH265 /\ payload_data x = lp k (units x) /\ Forall (lp_unit_ok k) (units x) /\ (4 - Z.of_nat k) * zlen (units x) <= 256) ->
  Forall2 (fun p x => payload_of p = x /\ let R := annexb (out_hevc sets units x) in avcc_packet_to_annexb s p = Ok (set_annexb p R, R)) (of_index (Z.of_nat j) (delivered (e1 ++ e2))) (removelast own).
Proof.
  intros h1 h2 d1 e1 d2 e2 bs So Nh R1 P1 Nd Pd K T R2 Cd j b s cc k v sp pp sets units c J Jb Cs Sp Bk An own As U.
  pose proof (announced_delivery h1 h2 d1 e1 d2 e2 So Nh R1 P1 Nd Pd K T R2 Cd j b Jb As) as F. fold own in F.
  assert (G : forall x, In x (removelast own) -> In x own) by (intros x; apply in_removelast). revert G. induction F as [|p x l m [E H] F IH]; intros G; constructor; [|apply IH; intros; apply G; now right].
  split; [exact E|]. subst x. destruct (U _ (G _ (or_introl eq_refl))) as (Um & Uc & Ud & Uo & Ul). unfold payload_of in Um, Uc, Ud at 1. cbn [payload_media payload_codec payload_data] in Um, Uc, Ud. destruct (H Um) as (H1 & H2 & H3).
  pose proof (avcc_hevc s p cc k v sp pp (units (payload_of p)) Um H3 ltac:(now rewrite Cs) Uc H1 Sp H2 Bk Ud Uo Ul) as Y.
  cbv zeta in Y |- *. unfold out_hevc. rewrite annexb_app, <- annexb4_annexb. fold c in Y. unfold key_extra in Y. change (payload_key (payload_of p)) with (pk_key p). destruct (pk_key p); [now rewrite <- An|exact Y].
Qed.

Definition passed_back (out : payload -> list (bool * list Z)) (z x : payload) : Prop :=
  payload_media z = payload_media x /\ payload_codec z = payload_codec x /\ payload_key z = payload_key x /\ payload_data z = annexb (out x).
Lemma passed_back_on s out : forall ps own zs, Forall2 (fun p x => payload_of p = x /\ let R := annexb (out x) in avcc_packet_to_annexb s p = Ok (set_annexb p R, R)) ps own -> Forall2 (sent_annexb s) ps zs -> Forall2 (passed_back out) zs own.
Proof.
  intros ps own zs F. revert zs. induction F as [|p x ps own [<- E] F IH]; intros zs G; inversion G as [|? z ? zs' S G']; subst; [constructor|]. constructor; [|now apply IH]. cbv zeta in E.
  destruct S as (M & C & K & p' & E'). rewrite E in E'. assert (X : annexb (out (payload_of p)) = payload_data z) by congruence. unfold passed_back. unfold payload_of at 1 2 3. cbn [payload_media payload_codec payload_key]. auto.
Qed.
Lemma passed_back_units out zs own : Forall2 (passed_back out) zs own -> StronglySorted Z.lt (map payload_dts zs) -> exists f, Forall2 (fun z x => passed_back out z x /\ f z = out x) zs own.
Proof.
  intros F S. destruct (choose payload_dts Z.eq_dec (@nil (bool * list Z)) zs (map out own)) as [f E]; [rewrite map_length; now apply forall2_len in F|now apply sorted_nodup|].
  exists f. now apply (forall2_map (passed_back out) f out).
Qed.
Lemma norm_snd l : map snd (norm_units l) = l.
Proof. destruct l as [|n r]; [reflexivity|]. cbn [norm_units map snd]. f_equal. rewrite map_map. cbn [snd]. apply map_id. Qed.
Lemma out_avc_ok sets units x : Forall unit_ok sets -> Forall nalu_ok (units x) -> Forall unit_ok (out_avc sets units x).
Proof.
  intros S U. apply Forall_app. split; [destruct (payload_key x); [exact S|constructor]|].
  assert (Q : Forall nalu_ok (map snd (norm_units (filter not_sei (units x))))) by (rewrite norm_snd; apply Forall_forall; intros n I; apply filter_In in I as [I _]; rewrite Forall_forall in U; now apply U).
  rewrite Forall_map in Q. exact Q.
Qed.
Lemma out_hevc_ok sets units x : Forall unit_ok sets -> Forall nalu_ok (units x) -> Forall unit_ok (out_hevc sets units x).
Proof. intros S U. apply Forall_app. split; [destruct (payload_key x); [exact S|constructor]|]. apply Forall_map. exact U. Qed.
Lemma for_first b id data dts pts l : for_buffer b ((AVMediaTypeVideo, b, id, data, true, dts, pts) :: l) = (AVMediaTypeVideo, b, id, data, true, dts, pts) :: for_buffer b l.
Proof. unfold for_buffer. cbn [filter payload_buffer]. now rewrite Z.eqb_refl. Qed.

(** H.264, from the calls of the flv session to the file of the second session: the units in the form of [out_avc], with the parameter sets [sps] and [pps] of the first key frame in front of key frames that
    lack them; the last packet of either session is missing. *)
Theorem C136_h264 : forall h1 h2 d1 e1 d2 e2, let bs := map snd (dm_map d1) in Forall sorting (h1 ++ h2) -> Forall no_hook (h1 ++ h2) -> run (dm_new "flv") h1 = Ok (d1, e1) -> payloads h1 = [] -> NoDup bs ->
  Forall packet_driven h2 -> (forall x, In x (payloads h2) -> In (payload_buffer x) bs) -> buffers_in_turn bs (payloads h2) -> run d1 h2 = Ok (d2, e2) -> dm_completed d2 = true ->
  forall j b s c sets units x0 rest sps pps info, nth_error (dm_tracks d2) j = Some s -> In (Z.of_nat j, b) (dm_map d2) -> st_codec s = AVCodecIdH264 -> st_params s = Some c -> cd_annexb c = annexb sets -> Forall unit_ok sets ->
  for_buffer b (payloads h2) = x0 :: rest -> StronglySorted Z.lt (map payload_dts (x0 :: rest)) ->
  (forall x, In x (x0 :: rest) -> payload_media x = AVMediaTypeVideo /\ payload_codec x = AVCodecIdH264 /\ payload_data x = avcc (units x) /\ Forall avcc_unit_ok (units x) /\ Forall nalu_ok (units x) /\ out_avc sets units x <> []) ->
  avc_sets (out_avc sets units x0) sps pps -> avc_parse_sps (start4 ++ sps) = Ok info ->
  forall path name o1 c1 o2 c2 o3 b2 data dts pts c3 l,
  let session := ((o1, OpSetAutoFree true), c1) :: ((o2, OpSetHandler), c2) :: ((o3, OpVideo b2 AVCodecIdH264 data true dts pts), c3) :: l in let h := map fst session in In (name, 1) packing ->
  Forall sorting h -> Forall no_hook h -> Forall delivery_op h -> Forall safe_call h -> sys_fits (sys_new name) session -> (exists o, In (o, OpProbeComplete) h) ->
  Forall2 (sent_annexb s) (of_index (Z.of_nat j) (delivered (e1 ++ e2))) (for_buffer b2 (payloads h)) -> StronglySorted Z.lt (map payload_dts (for_buffer b2 (payloads h))) ->
  exists y f, rec_run path (sys_new name) (fh_start (fun _ => [])) session = Ok (y, f) /\
    let file := fh_disk f (path ++ ".video.0.H264")%string in
    let written := concat (map (fun x => recorded_units [(true, sps); (true, pps)] (payload_key x) (out_avc sets units x)) (removelast (removelast (x0 :: rest)))) in
    file = annexb written /\ (removelast (removelast (x0 :: rest)) <> [] -> split_nalu file = Ok (map sc_unit written)).
Proof.
  intros h1 h2 d1 e1 d2 e2 bs So Nh R1 P1 Nd Pd K T R2 Cd j b s c sets units x0 rest sps pps info J Jb Cs Sp An Fs Ex As U Se Pi path name o1 c1 o2 c2 o3 b2 data dts pts c3 l session h Pk So2 Nh2 D2 Sc2 Su2 Ic2 F2 As2.
  pose proof (C136_packets_avc h1 h2 d1 e1 d2 e2 So Nh R1 P1 Nd Pd K T R2 Cd j b s c sets units J Jb Cs Sp An) as P. cbv zeta in P. rewrite Ex in P. specialize (P As ltac:(intros x Ix; destruct (U x Ix) as (X1 & X2 & X3 & X4 & _); auto)).
  pose proof (passed_back_on s (out_avc sets units) _ _ _ P F2) as Q. destruct (passed_back_units _ _ _ Q As2) as (f & Pf). clear P Q.
  change (payloads h) with ((AVMediaTypeVideo, b2, AVCodecIdH264, data, true, dts, pts) :: payloads (map fst l)) in Pf, As2. rewrite for_first in Pf, As2. set (z0 := (AVMediaTypeVideo, b2, AVCodecIdH264, data, true, dts, pts)) in *.
  assert (Ez : for_buffer b2 (payloads h) = z0 :: for_buffer b2 (payloads (map fst l))) by apply for_first. set (rest2 := for_buffer b2 (payloads (map fst l))) in *.
  assert (E0 : f z0 = out_avc sets units x0).
  { destruct rest as [|x1 r]; [inversion Pf|]. cbn [removelast] in Pf. inversion Pf as [|? ? ? ? [_ H] _]; subst. exact H. }
  destruct (C129_h264 path name o1 c1 o2 c2 o3 b2 data dts pts c3 l Pk So2 Nh2 D2 Sc2 Su2 Ic2) with (units := f) (sps := sps) (pps := pps) (info := info) (rest := rest2) as (y & fh & E & W).
  - fold session h. rewrite Ez. exact As2.
  - fold session h. rewrite Ez. intros z Iz. destruct (forall2_in_l _ _ _ Pf z Iz) as (x & Ix & (Z1 & Z2 & Z3 & Z4) & Z5). apply in_removelast in Ix. destruct (U x Ix) as (X1 & X2 & X3 & X4 & X5 & X6). rewrite Z5. split; [exact Z4|]. split; [exact X6|]. now apply out_avc_ok.
  - fold z0. now rewrite E0.
  - exact Pi.
  - exact Ez.
  - exists y, fh. split; [exact E|]. cbv zeta in W |- *. fold z0 in W.
    assert (X : map (fun x => recorded_units [(true, sps); (true, pps)] (payload_key x) (out_avc sets units x)) (removelast (removelast (x0 :: rest))) = map (fun x => recorded_units [(true, sps); (true, pps)] (payload_key x) (f x)) (removelast (z0 :: rest2))).
    { rewrite map_removelast, (map_removelast _ (z0 :: rest2)). f_equal. symmetry. apply forall2_map_eq. eapply Forall2_impl_in; [|exact Pf]. intros z x ((_ & _ & Z3 & _) & Z5). cbv beta. now rewrite Z3, Z5. }
    rewrite X. destruct W as [W1 W2]. split; [exact W1|]. intros Ne. apply W2. intros ->. apply Ne. apply (f_equal (@length _)) in X. rewrite !map_length in X. cbn [removelast length] in X. now apply length_zero_iff_nil in X.
Qed.
(** The same for H.265. *)
Theorem C136_h265 : forall h1 h2 d1 e1 d2 e2, let bs := map snd (dm_map d1) in Forall sorting (h1 ++ h2) -> Forall no_hook (h1 ++ h2) -> run (dm_new "flv") h1 = Ok (d1, e1) -> payloads h1 = [] -> NoDup bs ->
  Forall packet_driven h2 -> (forall x, In x (payloads h2) -> In (payload_buffer x) bs) -> buffers_in_turn bs (payloads h2) -> run d1 h2 = Ok (d2, e2) -> dm_completed d2 = true ->
  forall j b s cc k v sp pp sets units x0 rest vps sps pps info, let c := CdHevc cc (Z.of_nat k) v sp pp in nth_error (dm_tracks d2) j = Some s -> In (Z.of_nat j, b) (dm_map d2) -> st_codec s = AVCodecIdH265 -> st_params s = Some c -> (1 <= k <= 4)%nat -> cd_annexb c = annexb sets -> Forall unit_ok sets ->
  for_buffer b (payloads h2) = x0 :: rest -> StronglySorted Z.lt (map payload_dts (x0 :: rest)) ->
  (forall x, In x (x0 :: rest) -> payload_media x = AVMediaTypeVideo /\ payload_codec x = AVCodecIdH265 /\ payload_data x = lp k (units x) /\ Forall (lp_unit_ok k) (units x) /\ (4 - Z.of_nat k) * zlen (units x) <= 256 /\ Forall nalu_ok (units x) /\ out_hevc sets units x <> []) ->
  hevc_sets (out_hevc sets units x0) vps sps pps -> hevc_parse_sps (start4 ++ sps) = Ok info ->
  forall path name o1 c1 o2 c2 o3 b2 data dts pts c3 l,
  let session := ((o1, OpSetAutoFree true), c1) :: ((o2, OpSetHandler), c2) :: ((o3, OpVideo b2 AVCodecIdH265 data true dts pts), c3) :: l in let h := map fst session in In (name, 1) packing ->
  Forall sorting h -> Forall no_hook h -> Forall delivery_op h -> Forall safe_call h -> sys_fits (sys_new name) session -> (exists o, In (o, OpProbeComplete) h) ->
  Forall2 (sent_annexb s) (of_index (Z.of_nat j) (delivered (e1 ++ e2))) (for_buffer b2 (payloads h)) -> StronglySorted Z.lt (map payload_dts (for_buffer b2 (payloads h))) ->
  exists y f, rec_run path (sys_new name) (fh_start (fun _ => [])) session = Ok (y, f) /\
    let file := fh_disk f (path ++ ".video.0.H265")%string in
    let written := concat (map (fun x => recorded_units [(true, vps); (true, sps); (true, pps)] (payload_key x) (out_hevc sets units x)) (removelast (removelast (x0 :: rest)))) in
    file = annexb written /\ (removelast (removelast (x0 :: rest)) <> [] -> split_nalu file = Ok (map sc_unit written)).
Proof.
  intros h1 h2 d1 e1 d2 e2 bs So Nh R1 P1 Nd Pd K T R2 Cd j b s cc k v sp pp sets units x0 rest vps sps pps info c J Jb Cs Sp Bk An Fs Ex As U Se Pi path name o1 c1 o2 c2 o3 b2 data dts pts c3 l session h Pk So2 Nh2 D2 Sc2 Su2 Ic2 F2 As2.
  pose proof (C136_packets_hevc h1 h2 d1 e1 d2 e2 So Nh R1 P1 Nd Pd K T R2 Cd j b s cc k v sp pp sets units J Jb Cs Sp Bk An) as P. cbv zeta in P. rewrite Ex in P. specialize (P As ltac:(intros x Ix; destruct (U x Ix) as (X1 & X2 & X3 & X4 & X5 & _); auto)).
  pose proof (passed_back_on s (out_hevc sets units) _ _ _ P F2) as Q. destruct (passed_back_units _ _ _ Q As2) as (f & Pf). clear P Q.
  change (payloads h) with ((AVMediaTypeVideo, b2, AVCodecIdH265, data, true, dts, pts) :: payloads (map fst l)) in Pf, As2. rewrite for_first in Pf, As2. set (z0 := (AVMediaTypeVideo, b2, AVCodecIdH265, data, true, dts, pts)) in *.
  assert (Ez : for_buffer b2 (payloads h) = z0 :: for_buffer b2 (payloads (map fst l))) by apply for_first. set (rest2 := for_buffer b2 (payloads (map fst l))) in *.
  assert (E0 : f z0 = out_hevc sets units x0).
  { destruct rest as [|x1 r]; [inversion Pf|]. cbn [removelast] in Pf. inversion Pf as [|? ? ? ? [_ H] _]; subst. exact H. }
  destruct (C129_h265 path name o1 c1 o2 c2 o3 b2 data dts pts c3 l Pk So2 Nh2 D2 Sc2 Su2 Ic2) with (units := f) (vps := vps) (sps := sps) (pps := pps) (info := info) (rest := rest2) as (y & fh & E & W).
  - fold session h. rewrite Ez. exact As2.
  - fold session h. rewrite Ez. intros z Iz. destruct (forall2_in_l _ _ _ Pf z Iz) as (x & Ix & (Z1 & Z2 & Z3 & Z4) & Z5). apply in_removelast in Ix. destruct (U x Ix) as (X1 & X2 & X3 & X4 & _ & X5 & X6). rewrite Z5. split; [exact Z4|]. split; [exact X6|]. now apply out_hevc_ok.
  - fold z0. now rewrite E0.
  - exact Pi.
  - exact Ez.
  - exists y, fh. split; [exact E|]. cbv zeta in W |- *. fold z0 in W.
    assert (X : map (fun x => recorded_units [(true, vps); (true, sps); (true, pps)] (payload_key x) (out_hevc sets units x)) (removelast (removelast (x0 :: rest))) = map (fun x => recorded_units [(true, vps); (true, sps); (true, pps)] (payload_key x) (f x)) (removelast (z0 :: rest2))).
    { rewrite map_removelast, (map_removelast _ (z0 :: rest2)). f_equal. symmetry. apply forall2_map_eq. eapply Forall2_impl_in; [|exact Pf]. intros z x ((_ & _ & Z3 & _) & Z5). cbv beta. now rewrite Z3, Z5. }
    rewrite X. destruct W as [W1 W2]. split; [exact W1|]. intros Ne. apply W2. intros ->. apply Ne. apply (f_equal (@length _)) in X. rewrite !map_length in X. cbn [removelast length] in X. now apply length_zero_iff_nil in X.
Qed.

(** The parameter sets of the second session are those of the record if the key frame brings none of its own, and key frames then are written as they were sent. *)
Lemma last_none type t l : Forall (fun n => type n <> t) l -> forall a, last_of_type type t (a ++ l) = last_of_type type t a.
Proof.
  intros F a. unfold last_of_type. rewrite rev_app_distr. assert (G : Forall (fun n => type n <> t) (rev l)) by (apply Forall_forall; intros n I; apply in_rev in I; rewrite Forall_forall in F; now apply F).
  induction G as [|n r Hn G IH]; [reflexivity|]. cbn [app find]. destruct (Z.eqb_spec (type n) t); [contradiction|exact IH].
Qed.
Theorem C136_sets : forall units x,
  (forall sps pps, let sets := [(true, sps); (true, pps)] in payload_key x = true -> avc_nal_type sps = 7 -> avc_nal_type pps = 8 -> Forall (fun n => avc_nal_type n <> 7 /\ avc_nal_type n <> 8) (units x) -> avc_sets (out_avc sets units x) sps pps) /\
  (forall vps sps pps, let sets := [(true, vps); (true, sps); (true, pps)] in payload_key x = true -> hevc_nal_type vps = 32 -> hevc_nal_type sps = 33 -> hevc_nal_type pps = 34 ->
     Forall (fun n => hevc_nal_type n <> 32 /\ hevc_nal_type n <> 33 /\ hevc_nal_type n <> 34) (units x) -> hevc_sets (out_hevc sets units x) vps sps pps) /\
  (forall sets, sets <> [] -> recorded_units sets (payload_key x) (out_avc sets units x) = out_avc sets units x /\ recorded_units sets (payload_key x) (out_hevc sets units x) = out_hevc sets units x).
Proof.
  intros units x. split; [|split].
  - intros sps pps sets Kx Ts Tp F. unfold out_avc. rewrite Kx. unfold avc_sets. rewrite map_app, norm_snd.
    assert (G : Forall (fun n => avc_nal_type n <> 7 /\ avc_nal_type n <> 8) (filter not_sei (units x))) by (apply Forall_forall; intros n I; apply filter_In in I as [I _]; rewrite Forall_forall in F; now apply F).
    rewrite !last_none by (eapply Forall_impl; [|exact G]; intros n [? ?]; assumption). unfold sets, last_of_type. cbn [map snd rev app find]. rewrite Ts, Tp. cbn. auto.
  - intros vps sps pps sets Kx Tv Ts Tp F. unfold out_hevc. rewrite Kx. unfold hevc_sets. rewrite map_app, map_map. cbn [snd]. rewrite map_id.
    rewrite !last_none by (eapply Forall_impl; [|exact F]; intros n (? & ? & ?); assumption). unfold sets, last_of_type. cbn [map snd rev app find]. rewrite Tv, Ts, Tp. cbn. auto.
  - intros sets Ne. unfold recorded_units, out_avc, out_hevc. destruct sets as [|[u n] r]; [congruence|]. destruct (payload_key x); cbn [andb app]; [|auto]. assert (H : forall t, unit_head ((u, n) :: r) =? unit_head ((u, n) :: t) = true) by (intros t; apply Z.eqb_refl).
    rewrite !H. auto.
Qed.

(** The second session made from the first one. *)
Definition C136_call (s : stream) (p : packet) : res call := '(_, data) <- avcc_packet_to_annexb s p;; Ok ((o0, OpVideo 0 (pk_codec p) data (pk_key p) (pk_dts p) (pk_pts p)), [data]).
Fixpoint C136_calls (s : stream) (l : list packet) : res (list call) := match l with [] => Ok [] | p :: t => x <- C136_call s p;; r <- C136_calls s t;; Ok (x :: r) end.
Definition C136_remux (calls : list call) : res (list call) :=
  '(d, evs) <- run (dm_new "flv") (map fst calls);; s <- of_opt (idx (dm_tracks d) 0);; l <- C136_calls s (of_index 0 (delivered evs));;
  match l with [] => Err | x :: t => Ok ([((o0, OpSetAutoFree true), []); ((o0, OpSetHandler), []); x; ((o0, OpProbeComplete), [])] ++ t) end.
Definition C136_flv : list call :=
  [((o0, OpSetAutoFree true), []); ((o0, OpSetHandler), []); ((o0, OpNewVideo 0 AVCodecIdH264 1000 avcc_720), [avcc_720]); ((o0, OpVideo 0 AVCodecIdH264 (avcc [[6; 5]; [101; 5; 5]]) true 0 0), [avcc [[6; 5]; [101; 5; 5]]]);
   ((o0, OpProbeComplete), []); ((o0, OpVideo 0 AVCodecIdH264 (avcc [[97; 7]; [97; 8]]) false 40 80), [avcc [[97; 7]; [97; 8]]]); ((o0, OpVideo 0 AVCodecIdH264 (avcc [[97; 9]]) false 80 80), [avcc [[97; 9]]]);
   ((o0, OpVideo 0 AVCodecIdH264 (avcc [[97; 10]]) false 120 120), [avcc [[97; 10]]])].
Lemma C136_calls_o0 s l : forall r, C136_calls s l = Ok r -> Forall sorting (map fst r).
Proof.
  induction l as [|p t IH]; intros r E; cbn [C136_calls] in E; [injection E as <-; constructor|]. unfold C136_call in E. destruct (avcc_packet_to_annexb s p) as [[]| | |]; cbn [bind] in E; try discriminate.
  destruct (C136_calls s t) as [r'| | |]; cbn [bind] in E; try discriminate. injection E as <-. constructor; [exact o0_ok|auto].
Qed.
Lemma C136_remux_o0 calls l : C136_remux calls = Ok l -> Forall sorting (map fst l).
Proof.
  unfold C136_remux. intros E. destruct (run _ _) as [[d evs]| | |]; cbn [bind] in E; try discriminate. destruct (idx (dm_tracks d) 0) as [s|]; cbn [of_opt bind] in E; try discriminate.
  destruct (C136_calls _ _) as [[|x t]| | |] eqn:C; cbn [bind] in E; try discriminate. apply C136_calls_o0 in C. apply Forall_cons_iff in C as [Cx Ct].
  injection E as <-. cbn [map fst app]. repeat (constructor; [first [exact o0_ok|exact Cx]|]). exact Ct.
Qed.
Definition C136_hflv : list call := C133_head ++ C133_calls (lp 4 [[78; 1; 5]; [38; 1; 5]]) ++ [C133_video false (lp 4 [[2; 1; 9]]) 120].
Example C136_example :
  (l <- C136_remux C136_flv;; '(_, f) <- rec_run "t" (sys_new "ts") (fh_start (fun _ => [])) l;; split_nalu (fh_disk f "t.video.0.H264"%string)) =
     (c <- parse_avc_record avcc_720;; sets <- split_nalu (cd_annexb c);; Ok (sets ++ map sc_unit [(true, [101; 5; 5]); (true, [97; 7]); (false, [97; 8])])) /\
  (l <- C136_remux C136_flv;; Ok (small "ts" l, map payload_dts (payloads (map fst l)))) = Ok (true, [0; 40; 80]) /\
  (l <- C136_remux C136_hflv;; '(_, f) <- rec_run "t" (sys_new "ps") (fh_start (fun _ => [])) l;; split_nalu (fh_disk f "t.video.0.H265"%string)) =
     (c <- parse_hevc_record (fun n => n) C133_record;; sets <- split_nalu (cd_annexb c);; Ok (sets ++ map sc_unit [(true, [78; 1; 5]); (true, [38; 1; 5]); (true, [2; 1; 7]); (true, [2; 1; 8])])).
Proof.
  assert (S1 : match C136_remux C136_flv with Ok l => small "ts" l | _ => false end = true) by (vm_compute; reflexivity).
  assert (S2 : match C136_remux C136_hflv with Ok l => small "ps" l | _ => false end = true) by (vm_compute; reflexivity).
  split; [|split; [vm_compute; reflexivity|]].
  - destruct (C136_remux C136_flv) as [l| | |] eqn:E; try discriminate S1. destruct (small_rec "t" (fh_start (fun _ => [])) "ts" l S1 (C136_remux_o0 _ _ E)) as (_ & y & R). cbn [bind]. rewrite R. clear S1 S2 R.
    transitivity (l <- C136_remux C136_flv;; '(_, f) <- ('(_, evs) <- run (dm_new "ts") (map fst l);; f <- fh_session "t" (fh_start (fun _ => [])) evs;; Ok (y, f));; split_nalu (fh_disk f "t.video.0.H264"%string)); [rewrite E; reflexivity|]. clear E. vm_compute. reflexivity.
  - destruct (C136_remux C136_hflv) as [l| | |] eqn:E; try discriminate S2. destruct (small_rec "t" (fh_start (fun _ => [])) "ps" l S2 (C136_remux_o0 _ _ E)) as (_ & y & R). cbn [bind]. rewrite R. clear S1 S2 R.
    transitivity (l <- C136_remux C136_hflv;; '(_, f) <- ('(_, evs) <- run (dm_new "ps") (map fst l);; f <- fh_session "t" (fh_start (fun _ => [])) evs;; Ok (y, f));; split_nalu (fh_disk f "t.video.0.H265"%string)); [rewrite E; reflexivity|]. clear E. vm_compute. reflexivity.
Qed.
Print Assumptions C136_packets_avc.
Print Assumptions C136_packets_hevc.
Print Assumptions C136_h264.
Print Assumptions C136_h265.
Print Assumptions C136_sets.

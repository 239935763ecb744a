(** * PropertiesRemux: C135, from a container with start codes to flv. *)
From Coq Require Import String List Sorted Lia.
From Verif Require Import Base CollectionsSpec NaluModel NaluSpec NaluProofs SpsModel RecordModel AacModel UtilModel BlockModel BlockSpec PacketModel PacketProofs DemuxModel DemuxProofs DeliverySpec DeliveryProofs TrackSpec TrackProofs
  HandlerModel HandlerSpec HandlerProofs PropertiesNalu PropertiesPacket PropertiesDemux PropertiesTracks PropertiesSps SystemSpec SystemGrowSpec PropertiesSystemGrow
  RecordingModel RecordingProofs PropertiesRecording IntakeSpec IntakeProofs RecordedSpec RecordedProofs PropertiesIntake OpenedSpec OpenedProofs PropertiesOpened FlvRecordSpec FlvRecordProofs PropertiesFlvRecord RecordSafeSpec RecordSafeProofs
  PropertiesRecordSafe PropertiesUnitsOut ArrivalSpec FlvSafeSpec PropertiesFlvSafe DetermProofs PropertiesRound RoundProofs RemuxSpec RemuxProofs SmallProofs.
Import ListNotations.
Local Open Scope list_scope.

(* ---------------------------------------------------------------------------------------- *)
(** ** C135 The way of the units from a container with start codes through AVCC *)
(** The sending side: the first packet of buffer [b] is a key frame with its parameter sets. Every packet delivered for its track can be turned into AVCC form, which holds the units handed over;
    the packets are those of the calls, except for the last one. *)
Theorem C135_packets : forall name h d evs, In (name, 1) packing -> Forall sorting h -> Forall no_hook h -> Forall packet_driven h -> run (dm_new name) h = Ok (d, evs) -> dm_completed d = true ->
  forall j b x0 rest units, In (Z.of_nat j, b) (dm_map d) -> for_buffer b (payloads h) = x0 :: rest -> opens name x0 -> StronglySorted Z.lt (map payload_dts (x0 :: rest)) ->
  (forall x, In x (x0 :: rest) -> payload_media x = AVMediaTypeVideo /\ is_h26x (payload_codec x) = true /\ payload_data x = annexb (units x) /\ sendable (units x)) ->
  Forall2 (fun p x => payload_of p = x /\ annexb_packet_to_avcc p = Ok (set_avcc p (avcc (map snd (units x))), avcc (map snd (units x)))) (of_index (Z.of_nat j) (delivered evs)) (removelast (x0 :: rest)).
Proof.
  intros name h d evs Pk So Nh Pd R Cd j b x0 rest units Jb Ex O As U.
  assert (W : Forall (fun x => op_hook_ok x /\ packet_driven x) h).
  { apply Forall_forall. intros x Ix. pose proof (hooks_ok h So Nh) as H. rewrite Forall_forall in H, Pd. split; [exact (proj2 (H x Ix))|exact (Pd x Ix)]. }
  destruct (reach_driven name h d evs W R) as ((Al & _ & N) & _).
  destruct (C124_all name h d evs Nh R b x0 rest Ex O) as [K|(_ & K & _)]; [|exfalso; now apply (K (Z.of_nat j))]. rewrite Ex in K.
  pose proof (delivered_sent name h d evs So Nh R Al N Cd j b Jb ltac:(now rewrite K)) as E. rewrite K in E.
  assert (G : forall p, In p (of_index (Z.of_nat j) (delivered evs)) -> In p (delivered evs)) by (intros p I; now apply filter_In in I).
  assert (G2 : forall x, In x (removelast (x0 :: rest)) -> In x (x0 :: rest)).
  { clear. generalize (x0 :: rest). intros l x I. rewrite (app_removelast_last x); [apply in_or_app; now left|]. intros ->. destruct I. }
  revert G2 E. generalize (removelast (x0 :: rest)). revert G. generalize (of_index (Z.of_nat j) (delivered evs)). induction l as [|p l IH]; intros G m G2 E; destruct m as [|x m]; try discriminate E; [constructor|].
  cbn [map] in E. apply cons_eq in E as [E1 E2]. constructor; [|apply IH; [intros; apply G; now right|intros; apply G2; now right|exact E2]]. split; [exact E1|]. subst x.
  destruct (U _ (G2 _ (or_introl eq_refl))) as (Um & Uc & Ud & Us). unfold payload_of in Um, Uc, Ud at 1. cbn [payload_media payload_codec payload_data] in Um, Uc, Ud.
  destruct (delivered_form name h d evs So Nh R p (G p (or_introl eq_refl)) Um) as (F1 & _ & F2 & F3). now apply (converts name p (pk_codec p) (units (payload_of p))).
Qed.
(** The record of the track, written by MP4ExtraData, is read back as the same parameter sets, by a demuxer of flv. *)
Theorem C135_record_avc : forall name h d evs, Forall no_hook h -> Forall packet_driven h -> run (dm_new name) h = Ok (d, evs) ->
  forall i b s dts pts l t sps pps, In (i, b) (dm_map d) -> idx (dm_tracks d) i = Some s ->
  for_buffer b (map payload_of (accepted evs)) = (AVMediaTypeVideo, b, AVCodecIdH264, annexb l, true, dts, pts) :: t -> l <> [] -> Forall unit_ok l -> avc_sets l sps pps -> 11 + zlen sps + zlen pps <= 1024 ->
  exists c record c', st_params s = Some c /\ cd_mp4 c = Ok (Some record) /\ parse_avc_record record = Ok c' /\ cd_annexb c' = annexb [(true, sps); (true, pps)] /\ cd_width c' = cd_width c /\ cd_height c' = cd_height c.
Proof.
  intros name h d evs N P R i b s dts pts l t sps pps I J E Nl Fl Se L. destruct (C126_opened _ _ _ _ N P R i b s I J) as (x & t' & E' & O). rewrite E in E'. apply cons_eq in E' as [<- _].
  destruct (opened_own _ _ _ _ _ _ _ _ _ O (avc_extract _ _ _ Nl Fl Se)) as (_ & _ & _ & G). rewrite (avc_generate l) in G by assumption.
  destruct (new_avc_codec_data (start4 ++ sps) (start4 ++ pps)) as [c| | |] eqn:Ec; cbn [bind] in G; try discriminate. injection G as G.
  destruct Se as [Es Ep]. destruct (sets_ok _ _ _ _ Fl Es) as [(Bs & _) _]. destruct (sets_ok _ _ _ _ Fl Ep) as [(Bp & _) _].
  destruct (avc_codec_round_trip sps pps c Bs Bp Ec L) as (rec & c' & M & Pr & A & Wd & Ht & _). exists c, rec, c'. split; [now symmetry|]. split; [exact M|]. split; [exact Pr|]. split; [|auto]. rewrite A.
  unfold new_avc_codec_data in Ec. destruct (avc_parse_sps (start4 ++ sps)) as [info| | |]; cbn [bind] in Ec; try discriminate. injection Ec as <-. cbn. now rewrite ?app_nil_r, <- ?app_assoc.
Qed.
Theorem C135_record_hevc : forall grow name h d evs, Forall no_hook h -> Forall packet_driven h -> run (dm_new name) h = Ok (d, evs) ->
  forall i b s dts pts l t vps sps pps, In (i, b) (dm_map d) -> idx (dm_tracks d) i = Some s ->
  for_buffer b (map payload_of (accepted evs)) = (AVMediaTypeVideo, b, AVCodecIdH265, annexb l, true, dts, pts) :: t -> l <> [] -> Forall unit_ok l -> hevc_sets l vps sps pps -> 38 + zlen vps + zlen sps + zlen pps <= 1024 ->
  exists c record cc, let c' := CdHevc cc 4 [start4 ++ vps] [start4 ++ sps] [start4 ++ pps] in
    st_params s = Some c /\ cd_mp4 c = Ok (Some record) /\ parse_hevc_record grow record = Ok c' /\ cd_annexb c' = annexb [(true, vps); (true, sps); (true, pps)] /\ cd_width c' = cd_width c /\ cd_height c' = cd_height c.
Proof.
  intros grow name h d evs N P R i b s dts pts l t vps sps pps I J E Nl Fl Se L. destruct (C126_opened _ _ _ _ N P R i b s I J) as (x & t' & E' & O). rewrite E in E'. apply cons_eq in E' as [<- _].
  destruct (opened_own _ _ _ _ _ _ _ _ _ O (hevc_extract _ _ _ _ Nl Fl Se)) as (_ & _ & _ & G). rewrite (hevc_generate l) in G by assumption.
  destruct (new_hevc_codec_data (start4 ++ vps) (start4 ++ sps) (start4 ++ pps)) as [c| | |] eqn:Ec; cbn [bind] in G; try discriminate. injection G as G.
  destruct Se as (Ev & Es & Ep). destruct (sets_ok _ _ _ _ Fl Ev) as [(Bv & _) Tv]. destruct (sets_ok _ _ _ _ Fl Es) as [(Bs & _) Ts]. destruct (sets_ok _ _ _ _ Fl Ep) as [(Bp & _) Tp].
  destruct (hevc_codec_round_trip grow vps sps pps c Bv Bs Bp Tv Ts Tp Ec L) as (rec & c' & M & Pr & A & Wd & Ht & _).
  destruct (hevc_codec_parsed grow vps sps pps c Bv Bs Bp Tv Ts Tp Ec L) as (rec' & cc & M' & Pr'). rewrite M in M'. assert (rec' = rec) as -> by congruence. assert (Ec' : c' = CdHevc cc 4 [start4 ++ vps] [start4 ++ sps] [start4 ++ pps]) by (rewrite Pr in Pr'; injection Pr' as ->; reflexivity).
  exists c, rec, cc. cbv zeta. rewrite <- Ec'. split; [now symmetry|]. split; [exact M|]. split; [exact Pr|]. split; [|auto]. rewrite A.
  unfold new_hevc_codec_data in Ec. destruct (hevc_parse_sps (start4 ++ sps)) as [info| | |]; cbn [bind] in Ec; try discriminate. injection Ec as <-. cbn. now rewrite ?app_nil_r, <- ?app_assoc.
Qed.

Lemma forall2_map {A B C} (R : A -> B -> Prop) (f : A -> C) (g : B -> C) l m : Forall2 R l m -> map f l = map g m -> Forall2 (fun a b => R a b /\ f a = g b) l m.
Proof. induction 1 as [|a b l m H F IH]; intros E; [constructor|]. cbn [map] in E. apply cons_eq in E as [E1 E2]. constructor; auto. Qed.
Lemma forall2_map_eq {A B C} (f : A -> C) (g : B -> C) l m : Forall2 (fun a b => f a = g b) l m -> map f l = map g m.
Proof. induction 1 as [|a b l m H F IH]; [reflexivity|]. cbn [map]. now rewrite H, IH. Qed.
Lemma forall2_in_l {A B} (R : A -> B -> Prop) l m : Forall2 R l m -> forall a, In a l -> exists b, In b m /\ R a b.
Proof. induction 1 as [|a b l m H F IH]; intros x I; [destruct I|]. destruct I as [<-|I]; [exists b; split; [now left|exact H]|]. destruct (IH x I) as (y & J & Y). exists y. split; [now right|exact Y]. Qed.
Lemma forall2_len {A B} (R : A -> B -> Prop) l m : Forall2 R l m -> length l = length m.
Proof. induction 1; cbn; congruence. Qed.
Lemma Forall2_impl_in {A B} (P Q : A -> B -> Prop) l m : (forall a b, P a b -> Q a b) -> Forall2 P l m -> Forall2 Q l m.
Proof. intros H. induction 1; constructor; auto. Qed.
Definition passed (units : payload -> list (bool * list Z)) (z x : payload) : Prop :=
  payload_media z = payload_media x /\ payload_codec z = payload_codec x /\ payload_key z = payload_key x /\ payload_data z = avcc (map snd (units x)).
Lemma passed_on units : forall ps own zs, Forall2 (fun p x => payload_of p = x /\ annexb_packet_to_avcc p = Ok (set_avcc p (avcc (map snd (units x))), avcc (map snd (units x)))) ps own -> Forall2 sent_avcc ps zs -> Forall2 (passed units) zs own.
Proof.
  intros ps own zs F. revert zs. induction F as [|p x ps own [<- E] F IH]; intros zs G; inversion G as [|? z ? zs' S G']; subst; [constructor|]. constructor; [|now apply IH].
  destruct S as (M & C & K & p' & E'). rewrite E in E'. assert (X : avcc (map snd (units (payload_of p))) = payload_data z) by congruence. unfold passed. unfold payload_of at 1 2 3. cbn [payload_media payload_codec payload_key]. auto.
Qed.
Lemma passed_units units zs own : Forall2 (passed units) zs own -> StronglySorted Z.lt (map payload_dts zs) -> exists f, Forall2 (fun z x => passed units z x /\ f z = map snd (units x)) zs own.
Proof.
  intros F S. destruct (choose payload_dts Z.eq_dec (@nil (list Z)) zs (map (fun x => map snd (units x)) own)) as [f E]; [rewrite map_length; now apply forall2_len in F|now apply sorted_nodup|].
  exists f. now apply (forall2_map (passed units) f (fun x => map snd (units x))).
Qed.
Lemma last_in (x0 : payload) rest x : In x (removelast (x0 :: rest)) -> In x (x0 :: rest).
Proof. generalize (x0 :: rest). intros l I. rewrite (app_removelast_last x); [apply in_or_app; now left|]. intros ->. destruct I. Qed.

(** H.264, from the calls of the first session to the file of the second: the units handed over, except for those of the last packet of either session; SEI units are lost, every key frame stands behind the
    parameter sets, which flv recordings hold twice. *)
Theorem C135_h264 : forall name h d evs j b s data dts pts rest units sps pps c record, let x0 := (AVMediaTypeVideo, b, AVCodecIdH264, data, true, dts, pts) in let sets := [(true, sps); (true, pps)] in
  In (name, 1) packing -> Forall sorting h -> Forall no_hook h -> Forall packet_driven h -> run (dm_new name) h = Ok (d, evs) -> dm_completed d = true ->
  In (Z.of_nat j, b) (dm_map d) -> nth_error (dm_tracks d) j = Some s -> for_buffer b (payloads h) = x0 :: rest -> StronglySorted Z.lt (map payload_dts (x0 :: rest)) ->
  (forall x, In x (x0 :: rest) -> payload_media x = AVMediaTypeVideo /\ payload_codec x = AVCodecIdH264 /\ payload_data x = annexb (units x) /\ sendable (units x)) ->
  avc_sets (units x0) sps pps -> (exists info, avc_parse_sps (start4 ++ sps) = Ok info) -> 11 + zlen sps + zlen pps <= 1024 -> st_params s = Some c -> cd_mp4 c = Ok (Some record) ->
  forall path o1 c1 o2 c2 o3 b2 tb c3 l,
  let session := ((o1, OpSetAutoFree true), c1) :: ((o2, OpSetHandler), c2) :: ((o3, OpNewVideo b2 AVCodecIdH264 tb record), c3) :: l in let h2 := map fst session in
  Forall sorting h2 -> Forall no_hook h2 -> Forall delivery_op h2 -> Forall flv_call h2 -> Forall (for_only b2) (map fst l) -> sys_fits (sys_new "flv") session -> (exists o, In (o, OpProbeComplete) h2) ->
  Forall2 sent_avcc (of_index (Z.of_nat j) (delivered evs)) (payloads h2) -> StronglySorted Z.lt (map payload_dts (payloads h2)) ->
  exists y f, rec_run path (sys_new "flv") (fh_start (fun _ => [])) session = Ok (y, f) /\
    let file := fh_disk f (path ++ ".video.0.H264")%string in
    let written := concat (map (fun x => (if payload_key x then sets ++ sets else []) ++ norm_units (filter not_sei (map snd (units x)))) (removelast (removelast (x0 :: rest)))) in
    file = annexb written /\ (written <> [] -> split_nalu file = Ok (map sc_unit written)).
Proof.
  intros name h d evs j b s data dts pts rest units sps pps c record x0 sets Pk So Nh Pd R Cd Jb J Ex As U Se (info & Pi) L Sp Mp path o1 c1 o2 c2 o3 b2 tb c3 l session h2 So2 Nh2 D2 Sc2 Fo2 Su2 Ic2 F2 As2.
  destruct (U x0) as (_ & _ & Ud & Un & Uk & _); [now left|]. change (payload_data x0) with data in Ud. assert (Uo : Forall unit_ok (units x0)) by (eapply Forall_impl; [|exact Uk]; intros u Hu; exact (proj1 Hu)).
  assert (O : opens name x0).
  { right. split; [reflexivity|]. split; [exact Pk|]. split; [reflexivity|]. exists (annexb sets). eexists. split; [rewrite Ud; now apply avc_extract|]. unfold sets. rewrite (avc_generate (units x0)) by assumption. unfold new_avc_codec_data. rewrite Pi. reflexivity. }
  destruct (C124_all name h d evs Nh R b x0 rest Ex O) as [K|(_ & K & _)]; [|exfalso; now apply (K (Z.of_nat j))]. rewrite Ex in K.
  assert (K' : for_buffer b (map payload_of (accepted evs)) = (AVMediaTypeVideo, b, AVCodecIdH264, annexb (units x0), true, dts, pts) :: rest) by (rewrite K, <- Ud; reflexivity).
  destruct (C135_record_avc name h d evs Nh Pd R (Z.of_nat j) b s dts pts (units x0) rest sps pps Jb (eq_trans (idx_nat (dm_tracks d) j) J) K' Un Uo Se L) as (c0 & rec0 & c' & S1 & M1 & Pr & An & _).
  assert (c0 = c) as -> by congruence. assert (rec0 = record) as -> by congruence.
  pose proof (C135_packets name h d evs Pk So Nh Pd R Cd j b x0 rest units Jb Ex O As) as P. 
  assert (P1 : Forall2 (fun p x => payload_of p = x /\ annexb_packet_to_avcc p = Ok (set_avcc p (avcc (map snd (units x))), avcc (map snd (units x)))) (of_index (Z.of_nat j) (delivered evs)) (removelast (x0 :: rest))).
  { apply P. intros x Ix. destruct (U x Ix) as (X1 & X2 & X3). rewrite X2. auto. }
  destruct (passed_units units _ _ (passed_on units _ _ _ P1 F2) As2) as (f & Pf).
  destruct (C129_flv path o1 c1 o2 c2 o3 b2 tb record c3 l c' sets So2 Nh2 D2 Sc2 Fo2 Su2 Ic2 Pr An) with (units := f) as (y & fh & E & W); [|exact As2| |].
  - destruct Se as [Es Ep]. constructor; [exact (proj1 (sets_ok _ _ _ _ Uo Es))|]. constructor; [exact (proj1 (sets_ok _ _ _ _ Uo Ep))|constructor].
  - intros z Iz. destruct (forall2_in_l _ _ _ Pf z Iz) as (x & Ix & (Z1 & Z2 & Z3 & Z4) & Z5). apply last_in in Ix. destruct (U x Ix) as (X1 & X2 & X3 & (_ & X4 & _)). split; [congruence|]. split; [congruence|]. rewrite Z5. split; [exact Z4|].
    split; apply Forall_map; (eapply Forall_impl; [|exact X4]); intros u ((B & Ne & Q) & Hd & Lu).
    + split; [exact B|]. split; [|exact Lu]. destruct (snd u); [contradiction|]. rewrite zlen_cons. pose proof (zlen_nonneg l0). lia.
    + exact (conj B (conj Ne Q)).
  - exists y, fh. split; [exact E|]. cbv zeta in W |- *. fold session in W. fold h2 in W.
    replace (map (fun x => (if payload_key x then sets ++ sets else []) ++ norm_units (filter not_sei (map snd (units x)))) (removelast (removelast (x0 :: rest)))) with (map (flv_units sets f) (removelast (payloads h2))); [exact W|].
    rewrite map_removelast, map_removelast. f_equal. apply forall2_map_eq. eapply Forall2_impl_in; [|exact Pf]. intros z x ((_ & _ & Z3 & _) & Z5). unfold flv_units. now rewrite Z3, Z5.
Qed.
(** The same for H.265, where SEI units are kept. *)
Theorem C135_h265 : forall name h d evs j b s data dts pts rest units vps sps pps c record, let x0 := (AVMediaTypeVideo, b, AVCodecIdH265, data, true, dts, pts) in let sets := [(true, vps); (true, sps); (true, pps)] in
  In (name, 1) packing -> Forall sorting h -> Forall no_hook h -> Forall packet_driven h -> run (dm_new name) h = Ok (d, evs) -> dm_completed d = true ->
  In (Z.of_nat j, b) (dm_map d) -> nth_error (dm_tracks d) j = Some s -> for_buffer b (payloads h) = x0 :: rest -> StronglySorted Z.lt (map payload_dts (x0 :: rest)) ->
  (forall x, In x (x0 :: rest) -> payload_media x = AVMediaTypeVideo /\ payload_codec x = AVCodecIdH265 /\ payload_data x = annexb (units x) /\ sendable (units x) /\ Forall (fun u => 2 <= zlen (snd u)) (units x)) ->
  hevc_sets (units x0) vps sps pps -> (exists info, hevc_parse_sps (start4 ++ sps) = Ok info) -> 38 + zlen vps + zlen sps + zlen pps <= 1024 -> st_params s = Some c -> cd_mp4 c = Ok (Some record) ->
  forall path o1 c1 o2 c2 o3 b2 tb c3 l,
  let session := ((o1, OpSetAutoFree true), c1) :: ((o2, OpSetHandler), c2) :: ((o3, OpNewVideo b2 AVCodecIdH265 tb record), c3) :: l in let h2 := map fst session in
  Forall sorting h2 -> Forall no_hook h2 -> Forall delivery_op h2 -> Forall flv_source h2 -> Forall (for_only b2) (map fst l) -> sys_fits (sys_new "flv") session -> (exists o, In (o, OpProbeComplete) h2) ->
  Forall2 sent_avcc (of_index (Z.of_nat j) (delivered evs)) (payloads h2) -> StronglySorted Z.lt (map payload_dts (payloads h2)) ->
  exists y f, rec_run path (sys_new "flv") (fh_start (fun _ => [])) session = Ok (y, f) /\
    let file := fh_disk f (path ++ ".video.0.H265")%string in
    let written := concat (map (fun x => (if payload_key x then sets ++ sets else []) ++ map (pair true) (map snd (units x))) (removelast (removelast (x0 :: rest)))) in
    file = annexb written /\ (written <> [] -> split_nalu file = Ok (map sc_unit written)).
Proof.
  intros name h d evs j b s data dts pts rest units vps sps pps c record x0 sets Pk So Nh Pd R Cd Jb J Ex As U Se (info & Pi) L Sp Mp path o1 c1 o2 c2 o3 b2 tb c3 l session h2 So2 Nh2 D2 Sc2 Fo2 Su2 (oc & Ic2) F2 As2.
  destruct (U x0) as (_ & _ & Ud & (Un & Uk & _) & _); [now left|]. change (payload_data x0) with data in Ud. assert (Uo : Forall unit_ok (units x0)) by (eapply Forall_impl; [|exact Uk]; intros u Hu; exact (proj1 Hu)).
  assert (O : opens name x0).
  { right. split; [reflexivity|]. split; [exact Pk|]. split; [reflexivity|]. exists (annexb sets). eexists. split; [rewrite Ud; now apply hevc_extract|]. unfold sets. rewrite (hevc_generate (units x0)) by assumption. unfold new_hevc_codec_data. rewrite Pi. reflexivity. }
  destruct (C124_all name h d evs Nh R b x0 rest Ex O) as [K|(_ & K & _)]; [|exfalso; now apply (K (Z.of_nat j))]. rewrite Ex in K.
  assert (K' : for_buffer b (map payload_of (accepted evs)) = (AVMediaTypeVideo, b, AVCodecIdH265, annexb (units x0), true, dts, pts) :: rest) by (rewrite K, <- Ud; reflexivity).
  destruct (C135_record_hevc (or_grow o3) name h d evs Nh Pd R (Z.of_nat j) b s dts pts (units x0) rest vps sps pps Jb (eq_trans (idx_nat (dm_tracks d) j) J) K' Un Uo Se L) as (c0 & rec0 & cc & X). cbv zeta in X. destruct X as (S1 & M1 & Pr & An & _).
  assert (c0 = c) as -> by congruence. assert (rec0 = record) as -> by congruence. set (c' := CdHevc cc 4 [start4 ++ vps] [start4 ++ sps] [start4 ++ pps]) in *.
  pose proof (C135_packets name h d evs Pk So Nh Pd R Cd j b x0 rest units Jb Ex O As) as P.
  assert (P1 : Forall2 (fun p x => payload_of p = x /\ annexb_packet_to_avcc p = Ok (set_avcc p (avcc (map snd (units x))), avcc (map snd (units x)))) (of_index (Z.of_nat j) (delivered evs)) (removelast (x0 :: rest))).
  { apply P. intros x Ix. destruct (U x Ix) as (X1 & X2 & X3 & X4 & _). rewrite X2. auto. }
  clear P. destruct (passed_units units _ _ (passed_on units _ _ _ P1 F2) As2) as (f & Pf).
  set (s0 := mkStream AVMediaTypeVideo 0 AVCodecIdH265 (Some c') (Some record) tb audio_config_zero). set (d0 := with_handler (with_autofree (dm_new "flv") true) true). set (d1 := with_tracks d0 [s0] [(0, b2)]).
  assert (St : step o3 d0 (OpNewVideo b2 AVCodecIdH265 tb record) = Ok (d1, discard_if (0 <? zlen record) b2)).
  { cbn [step]. unfold on_new_video_track. cbn [dm_tracks d0 with_handler with_autofree dm_new tm_find_type tm_find_from]. unfold create_video_track, generate_video_codec_data. cbn. rewrite Pr. reflexivity. }
  set (h1 := [(o1, OpSetAutoFree true); (o2, OpSetHandler); (o3, OpNewVideo b2 AVCodecIdH265 tb record)]).
  assert (R1 : exists e1, run (dm_new "flv") h1 = Ok (d1, e1)).
  { change (run (dm_new "flv") h1) with ('(d2, e2) <- ('(d2, e2) <- ('(d3, e3) <- step o3 d0 (OpNewVideo b2 AVCodecIdH265 tb record);; Ok (d3, e3 ++ []));; Ok (d2, [] ++ e2));; Ok (d2, [] ++ e2)). rewrite St. cbn [bind]. eauto. }
  destruct R1 as (e1 & R1). change (payloads h2) with (payloads (map fst l)) in *.
  assert (In2 : forall z, In z (payloads (map fst l)) -> payload_buffer z = b2).
  { clear -Fo2. intros z I. unfold payloads in I. apply in_flat_map in I as (x & Ix & Iz). rewrite Forall_forall in Fo2. destruct (Fo2 x Ix) as [_ Q]. destruct (call_payload (snd x)) as [p|]; [|destruct Iz]. destruct Iz as [<-|[]]. exact Q. }
  assert (Own : for_buffer b2 (payloads (map fst l)) = payloads (map fst l)).
  { clear -In2. unfold for_buffer. induction (payloads (map fst l)) as [|z t IH]; [reflexivity|]. cbn [filter]. rewrite (In2 z (or_introl eq_refl)), Z.eqb_refl, IH; [reflexivity|]. intros y I. apply In2. now right. }
  assert (Fz : forall z, In z (payloads (map fst l)) -> payload_media z = AVMediaTypeVideo /\ payload_codec z = AVCodecIdH265 /\ payload_data z = lp 4 (f z) /\ Forall (lp_unit_ok 4) (f z) /\ Forall nalu_ok (f z)).
  { intros z Iz. destruct (forall2_in_l _ _ _ Pf z Iz) as (x & Ix & (Z1 & Z2 & Z3 & Z4) & Z5). apply last_in in Ix. destruct (U x Ix) as (X1 & X2 & X3 & (_ & X4 & _) & X5). split; [congruence|]. split; [congruence|]. rewrite Z5, lp4_avcc. split; [exact Z4|].
    rewrite Forall_forall in X4, X5. split; apply Forall_map, Forall_forall; intros u Iu; destruct (X4 u Iu) as ((B & Ne & Q) & Hd & Lu); [|exact (conj B (conj Ne Q))]. specialize (X5 u Iu). split; [exact B|]. split; [exact X5|exact Lu]. }
  destruct (C133_units path o1 c1 o2 c2 [((o3, OpNewVideo b2 AVCodecIdH265 tb record), c3)] l d1 e1 f So2 Nh2 D2 Sc2 Su2) as (y & fh & E & W); [|exact R1|reflexivity| | | | | |].
  - exists oc. destruct Ic2 as [Q|[Q|[Q|Q]]]; try discriminate Q. exact Q.
  - constructor; [intros []|constructor].
  - eapply Forall_impl; [|exact Fo2]. intros x Hx. exact (proj1 Hx).
  - intros z Iz. left. symmetry. now apply In2.
  - intros a z t _ k i Hk Hi. destruct k as [|k]; [lia|]. destruct k; discriminate Hk.
  - intros z Iz _ _. destruct (Fz z Iz) as (_ & _ & Z1 & Z2 & _). exists 0%nat, s0, cc, 4%nat, [start4 ++ vps], [start4 ++ sps], [start4 ++ pps]. rewrite (In2 z Iz). change (4 - Z.of_nat 4) with 0. repeat (split; [reflexivity || assumption|]). pose proof (zlen_nonneg (f z)). lia.
  - exists y, fh. split; [exact E|]. destruct (W 0%nat s0 b2 (path ++ ".video.0.H265")%string eq_refl eq_refl eq_refl) as [W' _]; [now rewrite Own|]. specialize (W' eq_refl c' sets eq_refl An).
    rewrite Own in W'. cbv zeta in W' |- *.
    replace (map (fun x => (if payload_key x then sets ++ sets else []) ++ map (pair true) (map snd (units x))) (removelast (removelast (x0 :: rest)))) with (map (flv_units_hevc sets f) (removelast (payloads (map fst l)))).
    + apply W'; [|intros z Iz; destruct (Fz z Iz) as (Z1 & Z2 & _ & _ & Z3); auto].
      destruct Se as (Ev & Es & Ep). constructor; [exact (proj1 (sets_ok _ _ _ _ Uo Ev))|]. constructor; [exact (proj1 (sets_ok _ _ _ _ Uo Es))|]. constructor; [exact (proj1 (sets_ok _ _ _ _ Uo Ep))|constructor].
    + rewrite map_removelast, map_removelast. f_equal. apply forall2_map_eq. eapply Forall2_impl_in; [|exact Pf]. intros z x ((_ & _ & Z3 & _) & Z5). unfold flv_units_hevc. now rewrite Z3, Z5.
Qed.

(** The second session made from the first one. *)
Definition C135_call (p : packet) : res call := '(_, data) <- annexb_packet_to_avcc p;; Ok ((o0, OpVideo 0 (pk_codec p) data (pk_key p) (pk_dts p) (pk_pts p)), [data]).
Fixpoint C135_calls (l : list packet) : res (list call) := match l with [] => Ok [] | p :: t => x <- C135_call p;; r <- C135_calls t;; Ok (x :: r) end.
Definition C135_remux (name : string) (calls : list call) : res (list call) :=
  '(d, evs) <- run (dm_new name) (map fst calls);; s <- of_opt (idx (dm_tracks d) 0);; c <- of_opt (st_params s);; record <- cd_mp4 c;; record <- of_opt record;; l <- C135_calls (of_index 0 (delivered evs));;
  match l with
  | [] => Err
  | x :: t => Ok ([((o0, OpSetAutoFree true), []); ((o0, OpSetHandler), []); ((o0, OpNewVideo 0 (st_codec s) 1000 record), [record]); x; ((o0, OpProbeComplete), [])] ++ t)
  end.
Definition C135_hcalls : list call :=
  [((o0, OpSetAutoFree true), []); ((o0, OpSetHandler), []); ((o0, OpVideo 0 AVCodecIdH265 (annexb hevc_key) true 3000 6000), [annexb hevc_key]); ((o0, OpProbeComplete), []);
   ((o0, OpVideo 0 AVCodecIdH265 (annexb [(false, [78; 1; 5]); (true, [2; 1; 6])]) false 6000 9000), [annexb [(false, [78; 1; 5]); (true, [2; 1; 6])]]);
   ((o0, OpVideo 0 AVCodecIdH265 (annexb [(false, [38; 1; 9])]) true 9000 9000), [annexb [(false, [38; 1; 9])]]); ((o0, OpVideo 0 AVCodecIdH265 (annexb [(false, [2; 1; 6])]) false 12000 15000), [annexb [(false, [2; 1; 6])]])].
Lemma C135_calls_o0 l : forall r, C135_calls l = Ok r -> Forall sorting (map fst r).
Proof.
  induction l as [|p t IH]; intros r E; cbn [C135_calls] in E; [injection E as <-; constructor|]. unfold C135_call in E. destruct (annexb_packet_to_avcc p) as [[]| | |]; cbn [bind] in E; try discriminate.
  destruct (C135_calls t) as [r'| | |]; cbn [bind] in E; try discriminate. injection E as <-. constructor; [exact o0_ok|auto].
Qed.
Lemma C135_remux_o0 name calls l : C135_remux name calls = Ok l -> Forall sorting (map fst l).
Proof.
  unfold C135_remux. intros E. destruct (run _ _) as [[d evs]| | |]; cbn [bind] in E; try discriminate. destruct (idx (dm_tracks d) 0) as [s|]; cbn [of_opt bind] in E; try discriminate. destruct (st_params s) as [c|]; cbn [of_opt bind] in E; try discriminate.
  destruct (cd_mp4 c) as [[record|]| | |]; cbn [of_opt bind] in E; try discriminate. destruct (C135_calls _) as [[|x t]| | |] eqn:C; cbn [bind] in E; try discriminate. apply C135_calls_o0 in C. apply Forall_cons_iff in C as [Cx Ct].
  injection E as <-. cbn [map fst app]. repeat (constructor; [first [exact o0_ok|exact Cx]|]). exact Ct.
Qed.
Example C135_example :
  (l <- C135_remux "ps" C129_calls;; '(_, f) <- rec_run "t" (sys_new "flv") (fh_start (fun _ => [])) l;; split_nalu (fh_disk f "t.video.0.H264"%string)) =
     Ok (map sc_unit [(true, sps_y); (true, pps_x); (true, sps_y); (true, pps_x); (true, sps_y); (false, pps_x); (false, [101; 1; 2]); (true, [97; 5]); (false, [97; 6])]) /\
  (l <- C135_remux "ps" C129_calls;; Ok (small "flv" l, map payload_dts (payloads (map fst l)))) = Ok (true, [3000; 6000; 9000]) /\
  (l <- C135_remux "ts" C135_hcalls;; '(_, f) <- rec_run "t" (sys_new "flv") (fh_start (fun _ => [])) l;; split_nalu (fh_disk f "t.video.0.H265"%string)) =
     Ok (map sc_unit (let sets := [(true, [64; 1; 12]); (true, hsps_z); (true, [68; 1; 193])] in sets ++ sets ++ sets ++ [(true, [38; 1; 175; 6]); (true, [78; 1; 5]); (true, [2; 1; 6])])).
Proof.
  assert (S1 : match C135_remux "ps" C129_calls with Ok l => small "flv" l | _ => false end = true) by (vm_compute; reflexivity).
  assert (S2 : match C135_remux "ts" C135_hcalls with Ok l => small "flv" l | _ => false end = true) by (vm_compute; reflexivity).
  split; [|split; [vm_compute; reflexivity|]].
  - destruct (C135_remux "ps" C129_calls) as [l| | |] eqn:E; try discriminate S1. destruct (small_rec "t" (fh_start (fun _ => [])) "flv" l S1 (C135_remux_o0 _ _ _ E)) as (_ & y & R). cbn [bind]. rewrite R. clear S1 S2 R.
    transitivity (l <- C135_remux "ps" C129_calls;; '(_, f) <- ('(_, evs) <- run (dm_new "flv") (map fst l);; f <- fh_session "t" (fh_start (fun _ => [])) evs;; Ok (y, f));; split_nalu (fh_disk f "t.video.0.H264"%string)); [rewrite E; reflexivity|]. clear E. vm_compute. reflexivity.
  - destruct (C135_remux "ts" C135_hcalls) as [l| | |] eqn:E; try discriminate S2. destruct (small_rec "t" (fh_start (fun _ => [])) "flv" l S2 (C135_remux_o0 _ _ _ E)) as (_ & y & R). cbn [bind]. rewrite R. clear S1 S2 R.
    transitivity (l <- C135_remux "ts" C135_hcalls;; '(_, f) <- ('(_, evs) <- run (dm_new "flv") (map fst l);; f <- fh_session "t" (fh_start (fun _ => [])) evs;; Ok (y, f));; split_nalu (fh_disk f "t.video.0.H265"%string)); [rewrite E; reflexivity|]. clear E. vm_compute. reflexivity.
Qed.
Print Assumptions C135_packets.
Print Assumptions C135_record_avc.
Print Assumptions C135_record_hevc.
Print Assumptions C135_h264.
Print Assumptions C135_h265.

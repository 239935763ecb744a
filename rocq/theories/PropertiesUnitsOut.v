(** * PropertiesUnitsOut: C129, units handed over, units in the file. *)
From Coq Require Import String List Sorted.
From Verif Require Import Base CollectionsSpec NaluModel NaluSpec NaluProofs SpsModel RecordModel AacModel UtilModel BlockModel BlockSpec PacketModel PacketProofs DemuxModel DemuxProofs DeliverySpec DeliveryProofs TrackSpec TrackProofs
  HandlerModel HandlerSpec HandlerProofs PropertiesNalu PropertiesPacket PropertiesDemux PropertiesTracks PropertiesSps SystemSpec SystemGrowSpec PropertiesSystemGrow
  RecordingModel RecordingProofs PropertiesRecording IntakeSpec IntakeProofs RecordedSpec RecordedProofs PropertiesIntake OpenedSpec OpenedProofs PropertiesOpened FlvRecordSpec FlvRecordProofs PropertiesFlvRecord RecordSafeSpec RecordSafeProofs PropertiesRecordSafe SmallProofs.
Import ListNotations.
Local Open Scope list_scope.

(** The map from tracks to buffers only grows. *)
Lemma step_map o d a d' e x : wf d -> step o d a = Ok (d', e) -> In x (dm_map d) -> In x (dm_map d').
Proof.
  intros W S I. destruct (step_cases _ _ _ _ _ W S) as [((_ & M & _) & _)|[(buf & s & _ & _ & _ & -> & _)|[(buf & id & data & dts & _ & P)|(_ & P)]]].
  - congruence.
  - cbn. apply in_or_app. now left.
  - destruct P as [(-> & _)|(d1 & i & s & p & G & _ & _ & _ & _ & _ & _ & _ & _ & _ & P)]; [exact I|]. destruct (process_same _ _ _ _ _ P) as [_ ->].
    destruct G as [->|(_ & _ & _ & _ & _ & ->)]; [exact I|]. cbn. apply in_or_app. now left.
  - destruct (complete_same _ _ _ _ P) as [_ ->]. exact I.
Qed.
Lemma run_map h x : forall d d' evs, wf d -> run d h = Ok (d', evs) -> In x (dm_map d) -> In x (dm_map d').
Proof.
  induction h as [|[o a] t IH]; intros d d' evs W R I; cbn [run] in R; [injection R as <- _; exact I|].
  destruct (step o d a) as [[d1 e1]| | |] eqn:S; cbn [bind] in R; try discriminate. destruct (run d1 t) as [[d2 e2]| | |] eqn:R2; cbn [bind] in R; try discriminate. injection R as <- _.
  eapply IH; [eapply step_wf; eauto|exact R2|]. eapply step_map; eauto.
Qed.
(** The first packet of a session that can open a track opens track 0. *)
Lemma first_track o d a t d' evs x : wf d -> dm_tracks d = [] -> dm_completed d = false -> call_payload a = Some x -> opens (dm_name d) x -> run d ((o, a) :: t) = Ok (d', evs) -> In (0, payload_buffer x) (dm_map d').
Proof.
  intros W T C Cp O R. cbn [run] in R. destruct (step o d a) as [[d1 e1]| | |] eqn:S; cbn [bind] in R; try discriminate. destruct (run d1 t) as [[d2 e2]| | |] eqn:R2; cbn [bind] in R; try discriminate. injection R as <- _.
  eapply run_map; [eapply step_wf; eauto|exact R2|].
  assert (A : accepted e1 <> []) by (eapply not_refused; eauto).
  destruct (step_cases _ _ _ _ _ W S) as [(_ & _ & Op)|[(buf & s & Op & _)|[(buf & id & data & dts & Op & P)|([-> | ->] & _)]]]; [destruct a; discriminate|destruct a; discriminate| |discriminate|discriminate].
  assert (payload_buffer x = buf) as -> by (destruct a; try discriminate; cbn in Cp, Op; injection Cp as <-; injection Op; intros; subst; reflexivity).
  destruct P as [(_ & ->)|(d0 & i & s & p & G & I & J & _ & _ & _ & _ & _ & _ & _ & P)]; [now destruct A|]. destruct (process_same _ _ _ _ _ P) as [_ ->].
  assert (W0 : wf d0) by (destruct G as [->|(_ & _ & G & _ & _ & ->)]; [exact W|now apply wf_grow]).
  assert (i = 0) as ->; [|exact I]. pose proof (wf_key d0 i W0 (in_map fst _ _ I)) as B. destruct G as [->|(_ & _ & _ & _ & _ & ->)]; cbn [grow dm_tracks with_tracks] in B; rewrite T in B; cbn in B; lia.
Qed.
(** OnProbeComplete completes the probe for good. *)
Lemma probe_completes o t d d' evs : wf d -> In (o, OpProbeComplete) t -> run d t = Ok (d', evs) -> dm_completed d' = true.
Proof.
  intros W I R. apply in_split in I as (t1 & t2 & ->). rewrite run_app in R. destruct (run d t1) as [[d1 e1]| | |] eqn:R1; cbn [bind] in R; try discriminate. pose proof (run_wf _ _ _ _ W R1) as W1.
  cbn [run step] in R. destruct (on_probe_complete o d1) as [[d2 e2]| | |] eqn:C; cbn [bind] in R; try discriminate. destruct (run d2 t2) as [[d3 e3]| | |] eqn:R3; cbn [bind] in R; try discriminate. injection R as <- _.
  assert (W2 : wf d2) by exact (step_wf o d1 OpProbeComplete d2 e2 W1 C). destruct (run_ext _ _ _ _ W2 R3) as [_ X]. apply X. eapply complete_true; eauto.
Qed.

Definition sc_unit (u : bool * list Z) : list Z := sc (fst u) ++ snd u.
Lemma recorded_ok sets key l : Forall unit_ok sets -> Forall unit_ok l -> l <> [] -> Forall unit_ok (recorded_units sets key l) /\ recorded_units sets key l <> [].
Proof. intros Fs Fl N. unfold recorded_units. destruct (_ && _); [|auto]. split; [now apply Forall_app|]. destruct sets; [exact N|discriminate]. Qed.
Lemma all_ok sets (units : payload -> list (bool * list Z)) l : Forall unit_ok sets -> l <> [] -> (forall x, In x l -> units x <> [] /\ Forall unit_ok (units x)) ->
  let a := concat (map (fun x => recorded_units sets (payload_key x) (units x)) l) in Forall unit_ok a /\ a <> [].
Proof.
  intros Fs N U. destruct l as [|x t]; [congruence|]. cbv zeta. split.
  - apply Forall_concat, Forall_map, Forall_forall. intros y Iy. destruct (U y Iy). now apply recorded_ok.
  - cbn [map concat]. destruct (U x (or_introl eq_refl)) as [Ux Fx]. destruct (recorded_ok sets (payload_key x) (units x) Fs Fx Ux) as [_ K]. destruct (recorded_units sets (payload_key x) (units x)); [congruence|discriminate].
Qed.

(** A session of safe calls whose first packet [a] can open a track: it runs to its end and that packet opens track 0. *)
Lemma session_core path name o1 c1 o2 c2 o3 a c3 l b dts pts id data : let x0 := (AVMediaTypeVideo, b, id, data, true, dts, pts) in
  let session := ((o1, OpSetAutoFree true), c1) :: ((o2, OpSetHandler), c2) :: ((o3, a), c3) :: l in let h := map fst session in a = OpVideo b id data true dts pts -> In (name, 1) packing ->
  Forall sorting h -> Forall no_hook h -> Forall delivery_op h -> Forall safe_call h -> sys_fits (sys_new name) session ->
  (exists o, In (o, OpProbeComplete) h) -> opens name x0 -> forall rest, for_buffer b (payloads h) = x0 :: rest ->
  exists y f d evs s, rec_run path (sys_new name) (fh_start (fun _ => [])) session = Ok (y, f) /\ run (dm_new name) h = Ok (d, evs) /\ Forall packet_driven h /\ dm_completed d = true /\
    In (0, b) (dm_map d) /\ idx (dm_tracks d) 0 = Some s /\ st_index s = 0 /\ for_buffer b (map payload_of (accepted evs)) = x0 :: rest.
Proof.
  intros x0 session h Ea Pk So Nh D Sc Su (oc & Ic) O rest Ex. subst h session. cbn [map fst] in *. pose proof Nh as Nh0. pose proof Sc as Sc0.
  rewrite Forall_cons_iff in So, Nh, D, Sc. destruct So as [O1 So], Nh as [_ Nh], D as [_ D], Sc as [_ Sc].
  set (l1 := ((o3, a), c3) :: l) in *. set (h := map fst l1). change ((o3, a) :: map fst l) with h in *.
  rewrite Forall_cons_iff in So, Nh, D, Sc. destruct So as [O2 So], Nh as [_ Nh], D as [_ D], Sc as [_ Sc].
  destruct (C128_records path (fun _ => []) name o1 c1 o2 c2 l1 Pk O1 O2 So Nh D Sc Su) as (y & f & E).
  assert (Cl : exists t, In (name, t) clock).
  { unfold packing in Pk. unfold clock. repeat (destruct Pk as [Pk|Pk]; [injection Pk as <-; eexists; cbn; eauto 6; fail|]). destruct Pk. }
  destruct Cl as (t & Cl).
  assert (W : Forall well_behaved h).
  { apply Forall_forall. intros [o a1] I1. rewrite Forall_forall in So, Nh. split; [now apply So|]. specialize (Nh _ I1). unfold op_hook_ok, no_hook in *. cbn [snd] in *. destruct a1; auto. destruct f0; [contradiction|exact Logic.I]. }
  destruct (C128_demuxes name t o1 o2 h Cl O1 O2 W Sc) as (d & evs & R & _).
  assert (Jb : In (0, b) (dm_map d)).
  { clear Ic. set (d0 := with_handler (with_autofree (dm_new name) true) true).
    change (run (dm_new name) ((o1, OpSetAutoFree true) :: (o2, OpSetHandler) :: h)) with ('(d2, e2) <- ('(d2, e2) <- run d0 h;; Ok (d2, [] ++ e2));; Ok (d2, [] ++ e2)) in R.
    destruct (run d0 h) as [[d' e']| | |] eqn:R'; cbn [bind] in R; try discriminate. injection R as <- _.
    apply (first_track o3 d0 a (map fst l) d' e' x0); [apply wf_new|reflexivity|reflexivity|rewrite Ea; reflexivity|exact O|exact R']. }
  assert (Cd : dm_completed d = true) by (eapply probe_completes; [apply wf_new|exact Ic|exact R]).
  pose proof (run_wf _ _ _ _ (wf_new name) R) as Wd. destruct (idx_some (dm_tracks d) 0) as (s & J); [apply (wf_key d); [exact Wd|exact (in_map fst _ _ Jb)]|].
  exists y, f, d, evs, s. split; [exact E|]. split; [exact R|]. split; [eapply Forall_impl; [|exact Sc0]; intros; now apply safe_driven|]. split; [exact Cd|]. split; [exact Jb|]. split; [exact J|]. split; [exact (proj1 Wd _ _ J)|].
  destruct (C124_all name _ d evs Nh0 R b x0 rest Ex O) as [K|(_ & K & _)]; [now rewrite Ex in K|exfalso; now apply (K 0)].
Qed.
(** Reading the units back. *)
Lemma split_written sets units (x0 : payload) rest own file : Forall unit_ok sets -> own = x0 :: rest -> (forall x, In x own -> payload_data x = annexb (units x) /\ units x <> [] /\ Forall unit_ok (units x)) ->
  let written := concat (map (fun x => recorded_units sets (payload_key x) (units x)) (removelast (x0 :: rest))) in
  file = annexb written -> rest <> [] -> split_nalu file = Ok (map sc_unit written).
Proof.
  intros Fs Ex U written -> Nr. destruct (all_ok sets units (removelast (x0 :: rest)) Fs) as [A1 A2].
  - destruct rest; [congruence|discriminate].
  - intros x Ix. destruct (U x) as (_ & X & Y); [|auto]. rewrite Ex. clear -Ix. set (q := x0 :: rest) in *. clearbody q. rewrite (app_removelast_last x0); [apply in_or_app; now left|]. intros ->. destruct Ix.
  - apply C26_split_units; assumption.
Qed.

(* ---------------------------------------------------------------------------------------- *)
(** ** C129 Units handed over, units in the file *)
(** The session begins with a key frame with its parameter sets in buffer [b]; other buffers may carry anything that is safe. The recording then succeeds, and the file of the buffer,
    taken apart at its start codes, is the units handed over for the buffer except for the last packet, with the parameter sets in front of key frames that lack them. *)
Theorem C129_h264 : forall path name o1 c1 o2 c2 o3 b data dts pts c3 l, let x0 := (AVMediaTypeVideo, b, AVCodecIdH264, data, true, dts, pts) in
  let session := ((o1, OpSetAutoFree true), c1) :: ((o2, OpSetHandler), c2) :: ((o3, OpVideo b AVCodecIdH264 data true dts pts), c3) :: l in let h := map fst session in In (name, 1) packing ->
  Forall sorting h -> Forall no_hook h -> Forall delivery_op h -> Forall safe_call h -> sys_fits (sys_new name) session ->
  (exists o, In (o, OpProbeComplete) h) ->
  StronglySorted Z.lt (map payload_dts (for_buffer b (payloads h))) ->
  forall units, (forall x, In x (for_buffer b (payloads h)) -> payload_data x = annexb (units x) /\ units x <> [] /\ Forall unit_ok (units x)) ->
  forall sps pps info rest, avc_sets (units x0) sps pps -> avc_parse_sps (start4 ++ sps) = Ok info -> for_buffer b (payloads h) = x0 :: rest ->
  exists y f, rec_run path (sys_new name) (fh_start (fun _ => [])) session = Ok (y, f) /\
    let file := fh_disk f (path ++ ".video.0.H264")%string in
    let written := concat (map (fun x => recorded_units [(true, sps); (true, pps)] (payload_key x) (units x)) (removelast (x0 :: rest))) in
    file = annexb written /\ (rest <> [] -> split_nalu file = Ok (map sc_unit written)).
Proof.
  intros path name o1 c1 o2 c2 o3 b data dts pts c3 l x0 session h Pk So Nh D Sc Su Ic As units U sps pps info rest Se Pi Ex.
  destruct (U x0) as (Ud & Un & Uo); [rewrite Ex; now left|]. change (payload_data x0) with data in Ud.
  assert (O : opens name x0).
  { right. split; [reflexivity|]. split; [exact Pk|]. split; [reflexivity|]. exists (annexb [(true, sps); (true, pps)]). eexists. split; [rewrite Ud; now apply avc_extract|]. rewrite (avc_generate (units x0)) by assumption. unfold new_avc_codec_data. rewrite Pi. reflexivity. }
  destruct (session_core path name o1 c1 o2 c2 o3 _ c3 l b dts pts AVCodecIdH264 data eq_refl Pk So Nh D Sc Su Ic O rest Ex) as (y & f & d & evs & s & E & R & P & Cd & Jb & J & Si & K). fold session in E. exists y, f. split; [exact E|].
  rewrite Ud in K. destruct (C126_avc name _ d evs Nh P R 0 b s dts pts (units x0) rest sps pps Jb J K Un Uo Se) as (Md & Co & _).
  assert (Fn : file_name path s = Ok (path ++ ".video.0.H264")%string) by (unfold file_name; rewrite Md, Co, Si; reflexivity).
  subst h session. cbn [map fst] in *. rewrite Forall_cons_iff in So, Nh, D, P. destruct So as [O1 So], Nh as [_ Nh], D as [_ D], P as [_ P].
  pose proof (C125_h264_all path (fun _ => []) name o1 c1 (((o2, OpSetHandler), c2) :: ((o3, OpVideo b AVCodecIdH264 data true dts pts), c3) :: l) d evs y f Pk O1 So Nh D P R Su E Cd 0%nat s _ b J Jb Fn As units U dts pts data rest sps pps info Ex Se Pi) as F.
  cbv zeta in F. rewrite skipn_nil, app_nil_r in F. cbv zeta. split; [exact F|]. apply (split_written _ units x0 rest _ _) with (2 := Ex) (3 := U) (4 := F).
  destruct Se as [S1 S2]. repeat (apply Forall_cons; [eapply sets_ok; eassumption|]). apply Forall_nil.
Qed.
Theorem C129_h265 : forall path name o1 c1 o2 c2 o3 b data dts pts c3 l, let x0 := (AVMediaTypeVideo, b, AVCodecIdH265, data, true, dts, pts) in
  let session := ((o1, OpSetAutoFree true), c1) :: ((o2, OpSetHandler), c2) :: ((o3, OpVideo b AVCodecIdH265 data true dts pts), c3) :: l in let h := map fst session in In (name, 1) packing ->
  Forall sorting h -> Forall no_hook h -> Forall delivery_op h -> Forall safe_call h -> sys_fits (sys_new name) session ->
  (exists o, In (o, OpProbeComplete) h) ->
  StronglySorted Z.lt (map payload_dts (for_buffer b (payloads h))) ->
  forall units, (forall x, In x (for_buffer b (payloads h)) -> payload_data x = annexb (units x) /\ units x <> [] /\ Forall unit_ok (units x)) ->
  forall vps sps pps info rest, hevc_sets (units x0) vps sps pps -> hevc_parse_sps (start4 ++ sps) = Ok info -> for_buffer b (payloads h) = x0 :: rest ->
  exists y f, rec_run path (sys_new name) (fh_start (fun _ => [])) session = Ok (y, f) /\
    let file := fh_disk f (path ++ ".video.0.H265")%string in
    let written := concat (map (fun x => recorded_units [(true, vps); (true, sps); (true, pps)] (payload_key x) (units x)) (removelast (x0 :: rest))) in
    file = annexb written /\ (rest <> [] -> split_nalu file = Ok (map sc_unit written)).
Proof.
  intros path name o1 c1 o2 c2 o3 b data dts pts c3 l x0 session h Pk So Nh D Sc Su Ic As units U vps sps pps info rest Se Pi Ex.
  destruct (U x0) as (Ud & Un & Uo); [rewrite Ex; now left|]. change (payload_data x0) with data in Ud.
  assert (O : opens name x0).
  { right. split; [reflexivity|]. split; [exact Pk|]. split; [reflexivity|]. exists (annexb [(true, vps); (true, sps); (true, pps)]). eexists. split; [rewrite Ud; now apply hevc_extract|]. rewrite (hevc_generate (units x0)) by assumption. unfold new_hevc_codec_data. rewrite Pi. reflexivity. }
  destruct (session_core path name o1 c1 o2 c2 o3 _ c3 l b dts pts AVCodecIdH265 data eq_refl Pk So Nh D Sc Su Ic O rest Ex) as (y & f & d & evs & s & E & R & P & Cd & Jb & J & Si & K). fold session in E. exists y, f. split; [exact E|].
  rewrite Ud in K. destruct (C126_hevc name _ d evs Nh P R 0 b s dts pts (units x0) rest vps sps pps Jb J K Un Uo Se) as (Md & Co & _).
  assert (Fn : file_name path s = Ok (path ++ ".video.0.H265")%string) by (unfold file_name; rewrite Md, Co, Si; reflexivity).
  subst h session. cbn [map fst] in *. rewrite Forall_cons_iff in So, Nh, D, P. destruct So as [O1 So], Nh as [_ Nh], D as [_ D], P as [_ P].
  pose proof (C125_h265_all path (fun _ => []) name o1 c1 (((o2, OpSetHandler), c2) :: ((o3, OpVideo b AVCodecIdH265 data true dts pts), c3) :: l) d evs y f Pk O1 So Nh D P R Su E Cd 0%nat s _ b J Jb Fn As units U dts pts data rest vps sps pps info Ex Se Pi) as F.
  cbv zeta in F. rewrite skipn_nil, app_nil_r in F. cbv zeta. split; [exact F|]. apply (split_written _ units x0 rest _ _) with (2 := Ex) (3 := U) (4 := F).
  destruct Se as (S1 & S2 & S3). repeat (apply Forall_cons; [eapply sets_ok; eassumption|]). apply Forall_nil.
Qed.

(** *** flv: the track is announced, the packets have length prefixes *)
(** A buffer with a track: no call for it opens another, and every packet is taken. *)
Definition for_only (b : Z) (x : oracle * op) : Prop := packet_driven x /\ match call_payload (snd x) with Some p => payload_buffer p = b | None => True end.
Lemma announced_step b i o d a d' e : wf d -> dm_pre d = None -> In (i, b) (dm_map d) -> for_only b (o, a) -> step o d a = Ok (d', e) ->
  dm_map d' = dm_map d /\ map payload_of (accepted e) = payloads [(o, a)].
Proof.
  intros W Pre I [P F] S. unfold packet_driven in P. cbn [snd] in *. split.
  - destruct (step_cases _ _ _ _ _ W S) as [((_ & M & _) & _)|[(buf & s & Q & _)|[(buf & id & data & dts & Op & Q)|(_ & Q)]]]; [exact M|congruence| |now apply complete_same in Q].
    destruct Q as [(-> & _)|(d1 & j & s & p & G & _ & _ & _ & _ & _ & _ & _ & _ & _ & Q)]; [reflexivity|]. apply process_same in Q as [_ ->]. destruct G as [->|(_ & Nb & _)]; [reflexivity|].
    exfalso. assert (buf = b) as ->; [|now apply (Nb i)]. destruct a; try discriminate; cbn in F, Op; injection Op; intros; congruence.
  - unfold payloads. cbn [flat_map snd]. rewrite app_nil_r. destruct (step_made _ _ _ _ _ W S) as (d1 & _ & _ & _ & A). destruct (call_payload a) as [x|] eqn:Cp.
    + pose proof (not_refused _ _ _ _ _ _ W Cp (or_introl (ex_intro _ i (eq_ind_r (fun z => In (i, z) (dm_map d)) I F))) S) as Ne. destruct A as [A|(s & p & buf & -> & Md & _)]; [contradiction|].
      destruct (made_payload _ _ _ _ _ Pre Md) as (Q & _). rewrite Cp in Q. injection Q as ->. reflexivity.
    + destruct A as [->|(s & p & buf & _ & Md & _)]; [reflexivity|]. destruct (made_payload _ _ _ _ _ Pre Md) as (Q & _). congruence.
Qed.
Lemma announced_run b i h : forall d d' evs, wf d -> dm_pre d = None -> In (i, b) (dm_map d) -> Forall no_hook h -> Forall (for_only b) h -> run d h = Ok (d', evs) ->
  dm_map d' = dm_map d /\ map payload_of (accepted evs) = payloads h.
Proof.
  induction h as [|[o a] t IH]; intros d d' evs W Pre I N F R; cbn [run] in R; [injection R as <- <-; split; reflexivity|].
  destruct (step o d a) as [[d1 e1]| | |] eqn:S; cbn [bind] in R; try discriminate. destruct (run d1 t) as [[d2 e2]| | |] eqn:R2; cbn [bind] in R; try discriminate. injection R as <- <-.
  rewrite Forall_cons_iff in N, F. destruct N as [Na N], F as [Fa F]. destruct (announced_step _ _ _ _ _ _ _ W Pre I Fa S) as [M A].
  destruct (IH d1 d2 e2) as [M2 A2]; [eapply step_wf; eauto|eapply step_pre; eauto|now rewrite M|exact N|exact F|exact R2|]. split; [congruence|].
  rewrite accepted_app, map_app, A, A2. unfold payloads. cbn [flat_map]. now rewrite app_nil_r.
Qed.
Lemma own_all b h : Forall (for_only b) h -> for_buffer b (payloads h) = payloads h.
Proof.
  intros F. unfold for_buffer, payloads. induction F as [|[o a] t [_ Fa] F IH]; [reflexivity|]. cbn [flat_map snd] in *. rewrite filter_app, IH. destruct (call_payload a) as [x|]; [|reflexivity]. cbn. now rewrite Fa, Z.eqb_refl.
Qed.
(** Start codes as the converter writes them: four bytes for the first unit, three for the others. *)
Definition norm_units (l : list (list Z)) : list (bool * list Z) := match l with [] => [] | n :: r => (true, n) :: map (pair false) r end.
Lemma norm_annexb l : annexb_norm l = annexb (norm_units l).
Proof. destruct l as [|n r]; [reflexivity|]. cbn [annexb_norm norm_units annexb]. do 2 f_equal. induction r as [|m r IH]; [reflexivity|]. cbn [map concat annexb]. rewrite <- app_assoc. do 2 f_equal. exact IH. Qed.
Definition flv_units (sets : list (bool * list Z)) (units : payload -> list (list Z)) (x : payload) : list (bool * list Z) :=
  (if payload_key x then sets ++ sets else []) ++ norm_units (filter not_sei (units x)).

Theorem C129_flv : forall path o1 c1 o2 c2 o3 b tb record c3 l c sets,
  let session := ((o1, OpSetAutoFree true), c1) :: ((o2, OpSetHandler), c2) :: ((o3, OpNewVideo b AVCodecIdH264 tb record), c3) :: l in let h := map fst session in
  Forall sorting h -> Forall no_hook h -> Forall delivery_op h -> Forall flv_call h -> Forall (for_only b) (map fst l) -> sys_fits (sys_new "flv") session ->
  (exists o, In (o, OpProbeComplete) h) -> parse_avc_record record = Ok c -> cd_annexb c = annexb sets -> Forall unit_ok sets ->
  StronglySorted Z.lt (map payload_dts (payloads h)) ->
  forall units, (forall x, In x (payloads h) -> payload_media x = AVMediaTypeVideo /\ payload_codec x = AVCodecIdH264 /\ payload_data x = avcc (units x) /\ Forall avcc_unit_ok (units x) /\ Forall nalu_ok (units x)) ->
  exists y f, rec_run path (sys_new "flv") (fh_start (fun _ => [])) session = Ok (y, f) /\
    let file := fh_disk f (path ++ ".video.0.H264")%string in
    let written := concat (map (flv_units sets units) (removelast (payloads h))) in
    file = annexb written /\ (written <> [] -> split_nalu file = Ok (map sc_unit written)).
Proof.
  intros path o1 c1 o2 c2 o3 b tb record c3 l c sets session h So Nh D Sc Fo Su (oc & Ic) Pc An Fs As units U. subst h session. cbn [map fst] in *. pose proof Nh as Nh0.
  rewrite Forall_cons_iff in So, Nh, D, Sc. destruct So as [O1 So], Nh as [_ Nh], D as [_ D], Sc as [_ Sc].
  set (l1 := ((o3, OpNewVideo b AVCodecIdH264 tb record), c3) :: l) in *. set (h := map fst l1). change ((o3, OpNewVideo b AVCodecIdH264 tb record) :: map fst l) with h in *.
  change (payloads ((o1, OpSetAutoFree true) :: (o2, OpSetHandler) :: h)) with (payloads (map fst l)) in *.
  pose proof So as So2. pose proof Nh as Nh2. pose proof D as D2.
  rewrite Forall_cons_iff in So, Nh, D, Sc. destruct So as [O2 So], Nh as [_ Nh], D as [_ D], Sc as [_ Sc].
  destruct (C128_flv path (fun _ => []) o1 c1 o2 c2 l1 O1 O2 So Nh D Sc) as (d & evs & R & Rec). fold h in R.
  (* the header opens track 0 *)
  set (s0 := mkStream AVMediaTypeVideo 0 AVCodecIdH264 (Some c) (Some record) tb audio_config_zero). set (d0 := with_handler (with_autofree (dm_new "flv") true) true). set (d1 := with_tracks d0 [s0] [(0, b)]).
  assert (St : step o3 d0 (OpNewVideo b AVCodecIdH264 tb record) = Ok (d1, discard_if (0 <? zlen record) b)).
  { cbn [step]. unfold on_new_video_track. cbn [dm_tracks d0 with_handler with_autofree dm_new tm_find_type tm_find_from]. unfold create_video_track, generate_video_codec_data. cbn. rewrite Pc. reflexivity. }
  assert (R' : exists e2, run d1 (map fst l) = Ok (d, e2) /\ evs = discard_if (0 <? zlen record) b ++ e2).
  { change (run (dm_new "flv") ((o1, OpSetAutoFree true) :: (o2, OpSetHandler) :: h)) with
      ('(d2, e2) <- ('(d2, e2) <- ('(d3, e3) <- step o3 d0 (OpNewVideo b AVCodecIdH264 tb record);; '(d4, e4) <- run d3 (map fst l);; Ok (d4, e3 ++ e4));; Ok (d2, [] ++ e2));; Ok (d2, [] ++ e2)) in R.
    rewrite St in R. cbn [bind] in R. destruct (run d1 (map fst l)) as [[d' e']| | |]; cbn [bind] in R; try discriminate. injection R as <- <-. eauto. }
  destruct R' as (e2 & R' & Ev).
  assert (W1 : wf d1) by (eapply step_wf; [|exact St]; apply wf_new).
  assert (Nl : Forall no_hook (map fst l)) by now apply Forall_inv_tail in Nh.
  destruct (announced_run b 0 (map fst l) d1 d e2 W1 eq_refl (or_introl eq_refl) Nl Fo R') as [M A]. change (dm_map d1) with [(0, b)] in M.
  pose proof (run_wf _ _ _ _ (wf_new "flv") R) as Wd.
  assert (L1 : (length (dm_tracks d) = 1)%nat) by (rewrite <- (seq_length (length (dm_tracks d)) 0), <- (map_length Z.of_nat), <- (proj2 Wd), M; reflexivity).
  assert (Hk : Forall op_hook_ok ((o1, OpSetAutoFree true) :: (o2, OpSetHandler) :: h)).
  { eapply Forall_impl; [|exact Nh0]. intros [o a] X. unfold op_hook_ok, no_hook in *. cbn [snd] in *. destruct a; auto. destruct f; [contradiction|exact Logic.I]. }
  destruct (C127_one_track "flv" _ d evs Hk R) as [Al Nd]; [lia|].
  destruct (Rec Al Nd Su) as (y & f & E). exists y, f. split; [exact E|].
  assert (Cd : dm_completed d = true) by (eapply probe_completes; [apply wf_new|exact Ic|exact R]).
  destruct (dm_tracks d) as [|s [|z t]] eqn:Et; try discriminate.
  assert (Ji : idx (dm_tracks d) 0 = Some s) by now rewrite Et.
  assert (Ms : st_media s = AVMediaTypeVideo /\ st_codec s = AVCodecIdH264).
  { destruct (run_ext _ _ _ _ W1 R') as [(ta & tb' & X & Fx) _]. rewrite Et in X. change (dm_tracks d1) with [s0] in Fx. inversion Fx as [|? q ? q' Sx Fx' E1 E2]; subst. inversion Fx'; subst. injection X as -> _.
    unfold same_track in Sx. destruct Sx as (X1 & _ & X2 & _). now rewrite X1, X2. }
  destruct Ms as [Ms Mc].
  assert (Fn : file_name path s = Ok (path ++ ".video.0.H264")%string) by (unfold file_name; rewrite Ms, Mc, (proj1 Wd _ _ Ji); reflexivity).
  assert (Own : for_buffer b (payloads (map fst l)) = payloads (map fst l)) by now apply own_all.
  assert (Jn : nth_error (dm_tracks d) 0 = Some s) by now rewrite Et.
  assert (Jb : In (Z.of_nat 0, b) (dm_map d)) by (rewrite M; now left).
  destruct (C127_file path (fun _ => []) o1 c1 (((o2, OpSetHandler), c2) :: l1) d evs y f O1 So2 Nh2 D2 R Al Nd Su E Cd 0%nat s _ b Jn Jb Fn Ms Mc) with (units := units) as (refused & kept & o' & tb' & record' & c' & Ek & _ & Kp & Ir & Pc' & F).
  - change (payloads (map fst (((o2, OpSetHandler), c2) :: l1))) with (payloads (map fst l)). now rewrite Own.
  - intros x Ix _. change (payloads (map fst (((o2, OpSetHandler), c2) :: l1))) with (payloads (map fst l)) in Ix. rewrite Own in Ix. destruct (U x Ix) as (_ & U1 & U2 & U3 & _). auto.
  - assert (record' = record) as ->.
    { destruct Ir as [X|[X|Ir]]; [discriminate|injection X; congruence|]. rewrite Forall_forall in Fo. destruct (Fo _ Ir) as [Q _]. discriminate. }
    rewrite Pc in Pc'. injection Pc' as <-.
    assert (Kq : kept = payloads (map fst l)).
    { rewrite Kp, Ev, accepted_app, map_app, for_buffer_app, A, Own. unfold discard_if. now destruct (_ <? _). }
    assert (G : forall x, In x (removelast (payloads (map fst l))) -> In x (payloads (map fst l))).
    { intros x Ix. set (q := payloads (map fst l)) in *. clearbody q. rewrite (app_removelast_last x); [apply in_or_app; now left|]. intros ->. destruct Ix. }
    assert (F' : fh_disk f (path ++ ".video.0.H264")%string = annexb (concat (map (flv_units sets units) (removelast (payloads (map fst l)))))).
    { cbv zeta in F. rewrite skipn_nil, app_nil_r, Kq in F. rewrite F. revert G. generalize (removelast (payloads (map fst l))). induction l0 as [|x t IH]; intros G; [reflexivity|]. cbn [map concat]. rewrite annexb_app, <- IH by (intros; apply G; now right). f_equal.
      destruct (U x (G x (or_introl eq_refl))) as (Um & _). destruct x as [[[[[[m b'] id'] data] key] dts] pts]. cbn [payload_media] in Um. subst m. unfold recorded_flv, flv_units. cbn [payload_key]. rewrite Z.eqb_refl, annexb_app, norm_annexb, An. f_equal. destruct key; [now rewrite annexb_app|reflexivity]. }
    cbv zeta. split; [exact F'|]. intros Nw. rewrite F'. apply C26_split_units; [exact Nw|]. apply Forall_concat, Forall_map, Forall_forall. intros x Ix. destruct (U x (G x Ix)) as (_ & _ & _ & _ & Un).
    unfold flv_units. apply Forall_app. split; [destruct (payload_key x); [now apply Forall_app|constructor]|].
    assert (Ff : Forall nalu_ok (filter not_sei (units x))) by (apply Forall_forall; intros n In; apply filter_In in In as [In _]; rewrite Forall_forall in Un; now apply Un).
    destruct (filter not_sei (units x)) as [|n r]; [constructor|]. inversion Ff; subst. cbn [norm_units]. constructor; [assumption|]. apply Forall_map. assumption.
Qed.
(** A key frame with its parameter sets, a picture, a sound, a second key frame without parameter sets, and a picture that is held. *)
Definition C129_calls : list call :=
  [((o0, OpSetAutoFree true), []); ((o0, OpSetHandler), []); ((o0, OpVideo 0 AVCodecIdH264 key_frame true 3000 6000), [key_frame]);
   ((o0, OpVideo 0 AVCodecIdH264 (annexb [(false, [97; 5]); (true, [97; 6])]) false 6000 9000), [[0; 0; 1; 97; 5; 0]; [0; 0; 1; 97; 6]]); ((o0, OpAudio 1 G711A [7] 6000), [[7]]); ((o0, OpProbeComplete), []);
   ((o0, OpVideo 0 AVCodecIdH264 (annexb [(false, [101; 9])]) true 9000 9000), [[0; 0; 1; 101; 9]]); ((o0, OpVideo 0 AVCodecIdH264 (annexb [(false, [97; 6])]) false 12000 15000), [[0; 0; 1; 97; 6]])].
Example C129_example : sys_fits (sys_new "ps") C129_calls /\ Forall safe_call (map fst C129_calls) /\ StronglySorted Z.lt (map payload_dts (for_buffer 0 (payloads (map fst C129_calls)))) /\
  match rec_run "t" (sys_new "ps") (fh_start (fun _ => [])) C129_calls with Ok (_, f) => split_nalu (fh_disk f "t.video.0.H264"%string) | _ => Err end =
  Ok (map sc_unit [(true, sps_y); (true, pps_x); (false, [101; 1; 2]); (false, [97; 5]); (true, [97; 6]); (true, sps_y); (true, pps_x); (false, [101; 9])]).
Proof.
  small_run E F "t"%string (fh_start (fun _ => [])) "ps"%string C129_calls o0_ok. split; [exact F|]. split; [|split; [|rewrite E; vm_compute; reflexivity]]; clear E F.
  - change key_frame with (annexb [(true, sps_y); (true, pps_x); (false, [101; 1; 2])]). unfold C129_calls. repeat (apply Forall_cons; [first [exact Logic.I|apply C128_units]|]); try apply Forall_nil. all: first [discriminate|nok].
  - change (map payload_dts (for_buffer 0 (payloads (map fst C129_calls)))) with [3000; 6000; 9000; 12000]. repeat (constructor; [|repeat (constructor; [lia|]); constructor]). constructor.
Qed.
Example C129_flv_example : Forall (for_only 0) (map fst (skipn 3 C127_calls)) /\
  match rec_run "t" (sys_new "flv") (fh_start (fun _ => [])) C127_calls with Ok (_, f) => split_nalu (fh_disk f "t.video.0.H264"%string) | _ => Err end =
  match parse_avc_record avcc_720 with Ok c => (sets <- split_nalu (cd_annexb c);; Ok (sets ++ sets ++ map sc_unit [(true, [101; 5; 5]); (true, [97; 7]); (false, [97; 8])])) | _ => Err end.
Proof. split; [repeat (constructor; [split; reflexivity|]); constructor|]. small_run E F "t"%string (fh_start (fun _ => [])) "flv"%string C127_calls o0_ok. rewrite E. vm_compute. reflexivity. Qed.
Print Assumptions C129_h264.
Print Assumptions C129_h265.
Print Assumptions C129_flv.

(** * PropertiesRecordSafe: C128, when a recording runs to its end. *)
From Coq Require Import String List.
From Verif Require Import Base NaluModel NaluSpec NaluProofs AacModel PacketModel PacketProofs DemuxModel DemuxProofs DeliverySpec DeliveryProofs TrackSpec TrackProofs PropertiesNalu PropertiesPacket PropertiesDemux PropertiesTracks
  HandlerModel HandlerSpec HandlerProofs SystemSpec PropertiesSystem SystemGrowSpec PropertiesSystemGrow RecordingModel RecordingProofs PropertiesRecording IntakeSpec RecordedSpec RecordedProofs PropertiesIntake PropertiesSps RecordSafeSpec RecordSafeProofs SmallProofs.
Import ListNotations.
Local Open Scope list_scope.

(* ---------------------------------------------------------------------------------------- *)
(** ** C128 A recording of well formed packets runs to its end *)
(** The demuxer accepts every sequence of such calls. *)
Theorem C128_demuxes : forall name t o1 o2 h, In (name, t) clock -> oracle_ok o1 -> oracle_ok o2 -> Forall well_behaved h -> Forall safe_call h ->
  exists d evs, run (dm_new name) ((o1, OpSetAutoFree true) :: (o2, OpSetHandler) :: h) = Ok (d, evs) /\ dm_handler d = true.
Proof.
  intros name t o1 o2 h C O1 O2 W S. apply safe_run; auto. unfold clock in C. repeat (destruct C as [C|C]; [injection C as <- _; discriminate|]). destruct C.
Qed.
(** Once the demuxer is through, in a container with start codes, the recording fails exactly if a key frame without any unit is delivered. *)
Theorem C128_recording_iff : forall path k name o0 c0 l d evs, let h := map fst l in In (name, 1) packing ->
  oracle_ok o0 -> Forall sorting h -> Forall no_hook h -> Forall delivery_op h -> run (dm_new name) ((o0, OpSetAutoFree true) :: h) = Ok (d, evs) ->
  aligned evs -> NoDup (map snd (dm_map d)) -> sys_fits (sys_new name) (((o0, OpSetAutoFree true), c0) :: l) ->
  (exists y f, rec_run path (sys_new name) (fh_start k) (((o0, OpSetAutoFree true), c0) :: l) = Ok (y, f)) <-> Forall (fun p => ~ headless (dm_tracks d) p) (delivered evs).
Proof.
  intros path k name o c0 l d evs h Pk Oo So Nh D R Al N Su.
  assert (Nh' : Forall no_hook ((o, OpSetAutoFree true) :: h)) by (constructor; [exact Logic.I|exact Nh]).
  assert (So' : Forall sorting ((o, OpSetAutoFree true) :: h)) by (constructor; [exact Oo|exact So]).
  assert (W : Forall well_behaved ((o, OpSetAutoFree true) :: h)).
  { apply Forall_forall. intros [o1 a1] I1. rewrite Forall_forall in So', Nh'. split; [now apply So'|]. specialize (Nh' _ I1). unfold op_hook_ok, no_hook in *. cbn [snd] in *. destruct a1; auto. destruct f; [contradiction|exact Logic.I]. }
  destruct (C122_recorded path k name o c0 l d evs W D R Al N Su) as (y & _ & E). rewrite E, <- (session_safe path k name _ d evs (packing_ok _ _ Pk) So' Nh' R). split.
  - intros (y' & f & X). destruct (fh_session path (fh_start k) evs) as [f'| | |]; try discriminate. eauto.
  - intros (f & X). rewrite X. cbn [bind]. eauto.
Qed.
(** Together: the whole chain, from the calls on. *)
Theorem C128_records : forall path k name o1 c1 o2 c2 l, let h := map fst l in In (name, 1) packing ->
  oracle_ok o1 -> oracle_ok o2 -> Forall sorting h -> Forall no_hook h -> Forall delivery_op h -> Forall safe_call h ->
  sys_fits (sys_new name) (((o1, OpSetAutoFree true), c1) :: ((o2, OpSetHandler), c2) :: l) ->
  exists y f, rec_run path (sys_new name) (fh_start k) (((o1, OpSetAutoFree true), c1) :: ((o2, OpSetHandler), c2) :: l) = Ok (y, f).
Proof.
  intros path k name o1 c1 o2 c2 l h Pk O1 O2 So Nh D S Su.
  assert (W : Forall well_behaved h).
  { apply Forall_forall. intros [o a1] I1. rewrite Forall_forall in So, Nh. split; [now apply So|]. specialize (Nh _ I1). unfold op_hook_ok, no_hook in *. cbn [snd] in *. destruct a1; auto. destruct f; [contradiction|exact Logic.I]. }
  assert (Cl : exists t, In (name, t) clock).
  { unfold packing in Pk. unfold clock. repeat (destruct Pk as [Pk|Pk]; [injection Pk as <-; eexists; cbn; eauto 6; fail|]). destruct Pk. }
  destruct Cl as (t & Cl). destruct (C128_demuxes name t o1 o2 h Cl O1 O2 W S) as (d & evs & R & _).
  assert (So' : Forall sorting (map fst (((o2, OpSetHandler), c2) :: l))) by (constructor; [exact O2|exact So]).
  assert (Nh' : Forall no_hook (map fst (((o2, OpSetHandler), c2) :: l))) by (constructor; [exact Logic.I|exact Nh]).
  assert (D' : Forall delivery_op (map fst (((o2, OpSetHandler), c2) :: l))) by (constructor; [exact Logic.I|exact D]).
  destruct (reach_driven name ((o1, OpSetAutoFree true) :: (o2, OpSetHandler) :: h) d evs) as ((Al & _ & N) & _); [|exact R|].
  { constructor; [split; [exact Logic.I|reflexivity]|]. constructor; [split; [exact Logic.I|reflexivity]|]. apply Forall_forall. intros x Ix. rewrite Forall_forall in W, S. split; [now apply W|now apply safe_driven, S]. }
  apply (C128_recording_iff path k name o1 c1 (((o2, OpSetHandler), c2) :: l) d evs); auto. apply Forall_forall. intros p Ip (M & K & Nn & _).
  destruct (delivered_facts name _ d evs (Forall_cons _ (O1 : sorting (o1, OpSetAutoFree true)) So') (Forall_cons _ (Logic.I : no_hook (o1, OpSetAutoFree true)) Nh') R p Ip) as (_ & Pl & _).
  unfold payloads in Pl. apply in_flat_map in Pl as ((o & a) & Ja & I). cbn [snd] in I. destruct Ja as [Ja|[Ja|Ja]]; [injection Ja as <- <-; destruct I|injection Ja as <- <-; destruct I|].
  rewrite Forall_forall in S. specialize (S _ Ja). unfold safe_call in S. cbn [snd] in S. destruct a; cbn [call_payload] in I; try contradiction; destruct I as [E|[]]; injection E; intros; subst.
  - congruence.
  - rewrite K in *. destruct S as (_ & _ & X). congruence.
Qed.
(** NAL units behind start codes are such data. *)
Lemma key_ok_safe id data : bytes_ok data -> key_ok id data -> ~ key_panics id data.
Proof.
  intros B K P. set (d := with_handler (dm_new "ps") true). assert (Lv : live d) by (split; [apply wf_new|split; [exact Logic.I|constructor]]).
  destruct (video_total o0 d 0 id data true 0 0) as (r & R); [exact o0_ok|exact Lv|reflexivity|constructor|auto|].
  rewrite (key_panics_panic o0 d 0 id data 0 0) in R; [discriminate|exact B|apply Lv|intros i []|reflexivity|reflexivity|exact P].
Qed.
Theorem C128_units : forall o b id l key dts pts, l <> [] -> Forall unit_ok l -> safe_call (o, OpVideo b id (annexb l) key dts pts).
Proof.
  intros o b id l [|] dts pts N F; [|exact Logic.I]. cbn. split; [now apply annexb_ok|]. split; [apply key_ok_safe; [now apply annexb_ok|now apply key_ok_units]|]. rewrite annexb_header by auto. discriminate.
Qed.
(** flv with H.264 video: no data, however broken, stops the demuxer or the recording. *)
Theorem C128_flv : forall path k o1 c1 o2 c2 l, let h := map fst l in oracle_ok o1 -> oracle_ok o2 -> Forall sorting h -> Forall no_hook h -> Forall delivery_op h -> Forall flv_call h ->
  exists d evs, run (dm_new "flv") ((o1, OpSetAutoFree true) :: (o2, OpSetHandler) :: h) = Ok (d, evs) /\
    (aligned evs -> NoDup (map snd (dm_map d)) -> sys_fits (sys_new "flv") (((o1, OpSetAutoFree true), c1) :: ((o2, OpSetHandler), c2) :: l) ->
     exists y f, rec_run path (sys_new "flv") (fh_start k) (((o1, OpSetAutoFree true), c1) :: ((o2, OpSetHandler), c2) :: l) = Ok (y, f)).
Proof.
  intros path k o1 c1 o2 c2 l h O1 O2 So Nh D S.
  assert (W : Forall well_behaved h).
  { apply Forall_forall. intros [o a1] I1. rewrite Forall_forall in So, Nh. split; [now apply So|]. specialize (Nh _ I1). unfold op_hook_ok, no_hook in *. cbn [snd] in *. destruct a1; auto. destruct f; [contradiction|exact Logic.I]. }
  destruct (flv_run o1 o2 h O1 O2 W S) as (d & evs & R & _). exists d, evs. split; [exact R|]. intros Al N Su.
  assert (D' : Forall delivery_op (map fst (((o2, OpSetHandler), c2) :: l))) by (constructor; [exact Logic.I|exact D]).
  assert (W' : Forall well_behaved ((o1, OpSetAutoFree true) :: map fst (((o2, OpSetHandler), c2) :: l))).
  { constructor; [split; [exact O1|exact Logic.I]|]. constructor; [split; [exact O2|exact Logic.I]|exact W]. }
  destruct (C122_recorded path k "flv" o1 c1 (((o2, OpSetHandler), c2) :: l) d evs W' D' R Al N Su) as (y & _ & E).
  destruct (flv_session path k ((o1, OpSetAutoFree true) :: (o2, OpSetHandler) :: h) d evs) as (f & X).
  - constructor; [exact O1|constructor; [exact O2|exact So]].
  - constructor; [exact Logic.I|constructor; [exact Logic.I|exact Nh]].
  - constructor; [exact Logic.I|constructor; [exact Logic.I|exact S]].
  - exact R.
  - rewrite X in E. cbn [bind] in E. eauto.
Qed.
Print Assumptions C128_demuxes.
Print Assumptions C128_recording_iff.
Print Assumptions C128_records.
Print Assumptions C128_units.
Print Assumptions C128_flv.

(** A key frame [[0; 0; 1]] after the probe: accepted by the demuxer, held, and fatal for the recording with the next packet. *)
Definition C128_calls (data : list Z) : list call :=
  [((o0, OpSetAutoFree true), []); ((o0, OpSetHandler), []); ((o0, OpVideo 0 AVCodecIdH264 key_frame true 0 0), [key_frame]); ((o0, OpProbeComplete), []);
   ((o0, OpVideo 0 AVCodecIdH264 data true 3000 3000), [data]); ((o0, OpAudio 1 G711A [7] 3000), [[7]]); ((o0, OpVideo 0 AVCodecIdH264 [0; 0; 1; 97; 6] false 6000 6000), [[0; 0; 1; 97; 6]])].
Example C128_example :
  (sys_fits (sys_new "ps") (C128_calls [0; 0; 1; 101; 9]) /\ Forall safe_call (map fst (C128_calls (annexb [(false, [101; 9])]))) /\
   match rec_run "t" (sys_new "ps") (fh_start (fun _ => [])) (C128_calls [0; 0; 1; 101; 9]) with Ok _ => true | _ => false end = true) /\
  (sys_fits (sys_new "ps") (C128_calls [0; 0; 1]) /\ match run (dm_new "ps") (map fst (C128_calls [0; 0; 1])) with Ok _ => true | _ => false end = true /\
   rec_run "t" (sys_new "ps") (fh_start (fun _ => [])) (C128_calls [0; 0; 1]) = Panic).
Proof.
  small_run E F "t"%string (fh_start (fun _ => [])) "ps"%string (C128_calls [0; 0; 1; 101; 9]) o0_ok. small_run E' F' "t"%string (fh_start (fun _ => [])) "ps"%string (C128_calls [0; 0; 1]) o0_ok.
  split; split; [exact F| |exact F'|].
  - split; [|rewrite E; vm_compute; reflexivity]. clear E F E' F'. repeat (apply Forall_cons; [first [exact Logic.I|apply C128_units]|]); try apply Forall_nil.
    all: first [discriminate|nok].
  - split; [|rewrite E']; vm_compute; reflexivity.
Qed.
(** The same [[0; 0; 1]], and a unit cut short, in flv. *)
Definition C128_flv_calls : list call :=
  [((o0, OpSetAutoFree true), []); ((o0, OpSetHandler), []); ((o0, OpNewVideo 0 AVCodecIdH264 1000 avcc_720), [avcc_720]); ((o0, OpVideo 0 AVCodecIdH264 [0; 0; 1] true 0 0), [[0; 0; 1]]);
   ((o0, OpProbeComplete), []); ((o0, OpVideo 0 AVCodecIdH264 [0; 0; 0; 9; 101] true 40 40), [[0; 0; 0]; [9; 101]]); ((o0, OpVideo 0 AVCodecIdH264 [5] false 80 80), [[5]])].
Example C128_flv_example : sys_fits (sys_new "flv") C128_flv_calls /\ Forall flv_call (map fst C128_flv_calls) /\
  match rec_run "t" (sys_new "flv") (fh_start (fun _ => [])) C128_flv_calls with Ok (_, f) => map fst (fh_files f) | _ => [] end = ["t.video.0.H264"%string].
Proof.
  small_run E F "t"%string (fh_start (fun _ => [])) "flv"%string C128_flv_calls o0_ok. split; [exact F|]. split; [|rewrite E; vm_compute; reflexivity]. clear E F.
  assert (B : forall data, forallb (fun x => (0 <=? x) && (x <? 256)) data = true -> bytes_ok data) by (intros data X; rewrite forallb_forall in X; apply Forall_forall; intros x Ix; apply X in Ix; unfold byte_ok; lia).
  repeat (apply Forall_cons; [first [exact Logic.I|split; [reflexivity|first [apply B; reflexivity|split; [apply B; reflexivity|vm_compute; reflexivity]]]]|]). apply Forall_nil.
Qed.

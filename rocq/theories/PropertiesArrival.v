(** * PropertiesArrival: C130, the order in which streams are heard of, and flv recordings of several streams. *)
From Coq Require Import String List Sorted.
From Verif Require Import Base CollectionsSpec NaluModel NaluSpec NaluProofs SpsModel RecordModel AacModel UtilModel BlockModel BlockSpec PacketModel PacketProofs DemuxModel DemuxProofs DeliverySpec DeliveryProofs TrackSpec TrackProofs
  HandlerModel HandlerSpec HandlerProofs PropertiesNalu PropertiesPacket PropertiesDemux PropertiesTracks PropertiesSps SystemSpec SystemGrowSpec PropertiesSystemGrow
  RecordingModel RecordingProofs PropertiesRecording IntakeSpec IntakeProofs RecordedSpec RecordedProofs PropertiesIntake OpenedSpec OpenedProofs PropertiesOpened FlvRecordSpec FlvRecordProofs PropertiesFlvRecord RecordSafeSpec RecordSafeProofs PropertiesRecordSafe
  PropertiesUnitsOut ArrivalSpec ArrivalProofs SmallProofs.
Import ListNotations.
Local Open Scope list_scope.

(** *** Announced tracks *)
Definition known (d : demuxer) (b : Z) : Prop := In b (map snd (dm_map d)).
Definition for_known (d : demuxer) (x : oracle * op) : Prop := packet_driven x /\ match call_payload (snd x) with Some p => known d (payload_buffer p) | None => True end.
Lemma known_step o d a d' e : wf d -> dm_pre d = None -> for_known d (o, a) -> step o d a = Ok (d', e) -> dm_map d' = dm_map d /\ map payload_of (accepted e) = payloads [(o, a)].
Proof.
  intros W Pre [P F] S. destruct (call_payload a) as [x|] eqn:Cp; cbn [snd] in F; rewrite Cp in F.
  - unfold known in F. apply in_map_iff in F as ([i b] & Eb & I). cbn in Eb. subst b. apply (announced_step (payload_buffer x) i o d a d' e W Pre I); [|exact S]. split; [exact P|]. cbn [snd]. now rewrite Cp.
  - destruct (step_cases _ _ _ _ _ W S) as [((_ & M & _) & Q & _)|[(buf & s & Q & _)|[(buf & id & data & dts & Op & Q)|(_ & Q)]]].
    + split; [exact M|]. apply quiet_facts in Q as (_ & -> & _). unfold payloads. cbn [flat_map snd]. now rewrite Cp.
    + unfold packet_driven in P. cbn [snd] in P. congruence.
    + destruct a; discriminate.
    + split; [now apply complete_same in Q|]. apply complete_events in Q as [-> _]. unfold payloads. cbn [flat_map snd]. now rewrite Cp.
Qed.
Lemma known_run h : forall d d' evs, wf d -> dm_pre d = None -> Forall no_hook h -> Forall (for_known d) h -> run d h = Ok (d', evs) -> dm_map d' = dm_map d /\ map payload_of (accepted evs) = payloads h.
Proof.
  induction h as [|[o a] t IH]; intros d d' evs W Pre N F R; cbn [run] in R; [injection R as <- <-; split; reflexivity|].
  destruct (step o d a) as [[d1 e1]| | |] eqn:S; cbn [bind] in R; try discriminate. destruct (run d1 t) as [[d2 e2]| | |] eqn:R2; cbn [bind] in R; try discriminate. injection R as <- <-.
  rewrite Forall_cons_iff in N, F. destruct N as [Na N], F as [Fa F]. destruct (known_step _ _ _ _ _ W Pre Fa S) as [M A].
  destruct (IH d1 d2 e2) as [M2 A2]; [eapply step_wf; eauto|eapply step_pre; eauto|exact N|unfold for_known, known in *; now rewrite M|exact R2|]. split; [congruence|].
  rewrite accepted_app, map_app, A, A2. unfold payloads. cbn [flat_map]. now rewrite app_nil_r.
Qed.
Lemma pre_none name h d evs : Forall no_hook h -> run (dm_new name) h = Ok (d, evs) -> wf d /\ dm_pre d = None.
Proof.
  intros F R. refine (run_hist no_hook (fun _ d _ => wf d /\ dm_pre d = None) (dm_new name) _ _ h d evs F R).
  - split; [apply wf_new|reflexivity].
  - clear. intros h o a d evs d' e N _ [W P] S. split; [eapply step_wf; eauto|eapply step_pre; eauto].
Qed.
(** Track numbers are positions in the list of buffers. *)
Lemma position d i b : wf d -> In (i, b) (dm_map d) -> nth_error (map snd (dm_map d)) (Z.to_nat i) = Some b /\ 0 <= i.
Proof.
  intros W I. pose proof (wf_key d i W (in_map fst _ _ I)) as B. split; [|lia]. apply In_nth_error in I as [n I]. pose proof (proj2 W) as K.
  assert (X : nth_error (map fst (dm_map d)) n = Some i) by (erewrite map_nth_error; [|exact I]; reflexivity).
  assert (L : (n < length (dm_tracks d))%nat).
  { assert (nth_error (map fst (dm_map d)) n <> None) as Y by congruence. apply nth_error_Some in Y. rewrite K, map_length, seq_length in Y. exact Y. }
  rewrite K in X. rewrite (map_nth_error Z.of_nat n (seq 0 (length (dm_tracks d))) (d := n)) in X by (rewrite nth_error_nth' with (d := 0%nat); [now rewrite seq_nth|now rewrite seq_length]).
  injection X as <-. rewrite Nat2Z.id. now rewrite (map_nth_error snd n (dm_map d) I).
Qed.
Lemma turn_same d ps : wf d -> NoDup (map snd (dm_map d)) -> Forall (fun p => In (pk_index p, pk_buffer p) (dm_map d)) ps ->
  (in_turn (map pk_index ps) <-> buffers_in_turn (map snd (dm_map d)) (map payload_of ps)).
Proof.
  intros W N F. set (bs := map snd (dm_map d)) in *.
  assert (P : forall p, In p ps -> nth_error bs (Z.to_nat (pk_index p)) = Some (pk_buffer p) /\ 0 <= pk_index p) by (intros p I; rewrite Forall_forall in F; apply position; auto).
  assert (U : forall j k z, nth_error bs j = Some z -> nth_error bs k = Some z -> j = k).
  { intros j k z J K. rewrite NoDup_nth_error in N. apply N; [|congruence]. apply nth_error_Some. congruence. }
  split.
  - intros T a x b E k j K B. apply map_eq_app in E as (a' & b' & Ep & Ea & Eb). apply map_eq_cons in Eb as (p & b'' & -> & Ex & Eb).
    assert (Ip : In p ps) by (rewrite Ep; apply in_or_app; right; now left). destruct (P p Ip) as [Pp Pz]. rewrite <- Ex in K. change (payload_buffer (payload_of p)) with (pk_buffer p) in K. pose proof (U _ _ _ K Pp) as ->.
    assert (I : In (Z.of_nat j) (map pk_index a')) by (apply (T (map pk_index a') (pk_index p) (map pk_index b'')); [now rewrite Ep, map_app|lia]).
    apply in_map_iff in I as (q & Eq & Iq). exists (payload_of q). split; [rewrite <- Ea; now apply in_map|]. change (payload_buffer (payload_of q)) with (pk_buffer q).
    destruct (P q) as [Pq _]; [rewrite Ep; apply in_or_app; now left|]. now rewrite Eq, Nat2Z.id in Pq.
  - intros T a i b E k B. apply map_eq_app in E as (a' & b' & Ep & Ea & Eb). apply map_eq_cons in Eb as (p & b'' & -> & Ei & Eb).
    assert (Ip : In p ps) by (rewrite Ep; apply in_or_app; right; now left). destruct (P p Ip) as [Pp Pz].
    destruct (T (map payload_of a') (payload_of p) (map payload_of b'')) with (k := Z.to_nat i) (j := Z.to_nat k) as (y & Iy & Yb); [now rewrite Ep, map_app|now rewrite <- Ei|lia|].
    apply in_map_iff in Iy as (q & <- & Iq). change (payload_buffer (payload_of q)) with (pk_buffer q) in Yb. destruct (P q) as [Pq Qz]; [rewrite Ep; apply in_or_app; now left|].
    pose proof (U _ _ _ Yb Pq). rewrite <- Ea. apply in_map_iff. exists q. split; [lia|exact Iq].
Qed.

(* ---------------------------------------------------------------------------------------- *)
(** ** C130 Streams heard of in turn *)
(** The demuxer keeps each stream in a list of its own exactly if the streams are heard of in the order of their tracks. *)
Theorem C130_iff : forall name h d evs, run (dm_new name) h = Ok (d, evs) -> (aligned evs <-> in_turn (map pk_index (accepted evs))).
Proof. intros name h d evs R. exact (proj1 (reach_listed _ _ _ _ R)). Qed.
(** In terms of the calls, for tracks that are announced before the first packet. *)
Theorem C130_announced : forall name h1 h2 d1 e1 d2 e2, Forall no_hook h1 -> Forall no_hook h2 -> run (dm_new name) h1 = Ok (d1, e1) -> payloads h1 = [] -> let bs := map snd (dm_map d1) in NoDup bs ->
  Forall packet_driven h2 -> (forall x, In x (payloads h2) -> In (payload_buffer x) bs) -> run d1 h2 = Ok (d2, e2) ->
  run (dm_new name) (h1 ++ h2) = Ok (d2, e1 ++ e2) /\ dm_map d2 = dm_map d1 /\ map payload_of (accepted (e1 ++ e2)) = payloads h2 /\ (aligned (e1 ++ e2) <-> buffers_in_turn bs (payloads h2)).
Proof.
  intros name h1 h2 d1 e1 d2 e2 N1 N2 R1 P1 bs Nd Pd K R2. destruct (pre_none _ _ _ _ N1 R1) as [W1 Pre].
  assert (R : run (dm_new name) (h1 ++ h2) = Ok (d2, e1 ++ e2)) by (rewrite run_app, R1; cbn [bind]; rewrite R2; reflexivity).
  assert (Fk : Forall (for_known d1) h2).
  { apply Forall_forall. intros [o a] I. rewrite Forall_forall in Pd. split; [now apply Pd|]. cbn [snd]. destruct (call_payload a) as [x|] eqn:Cp; [|exact Logic.I]. apply K. unfold payloads. apply in_flat_map. exists (o, a). split; [exact I|]. cbn [snd]. rewrite Cp. now left. }
  destruct (known_run h2 d1 d2 e2 W1 Pre N2 Fk R2) as [M A].
  assert (A1 : map payload_of (accepted e1) = []) by (destruct (reach_packets _ _ _ _ N1 R1) as [S _]; rewrite P1 in S; inversion S; reflexivity).
  assert (Aa : map payload_of (accepted (e1 ++ e2)) = payloads h2) by (rewrite accepted_app, map_app, A1, A; reflexivity).
  assert (N : Forall no_hook (h1 ++ h2)) by now apply Forall_app.
  split; [exact R|]. split; [exact M|]. split; [exact Aa|]. rewrite (C130_iff _ _ _ _ R). destruct (reach_packets _ _ _ _ N R) as [_ Pok]. pose proof (run_wf _ _ _ _ (wf_new name) R) as W2.
  rewrite <- Aa. subst bs. rewrite <- M. apply turn_same; [exact W2|now rewrite M|]. eapply Forall_impl; [|exact Pok]. intros p (_ & s & _ & _ & H). exact H.
Qed.

(** *** C129 for flv sessions with several streams *)
Lemma flv_core path o1 c1 o2 c2 la l d1 e1 : let h1 := (o1, OpSetAutoFree true) :: (o2, OpSetHandler) :: map fst la in let h := h1 ++ map fst l in
  let session := ((o1, OpSetAutoFree true), c1) :: ((o2, OpSetHandler), c2) :: la ++ l in let bs := map snd (dm_map d1) in
  Forall sorting h -> Forall no_hook h -> Forall delivery_op h -> Forall flv_call h -> sys_fits (sys_new "flv") session ->
  run (dm_new "flv") h1 = Ok (d1, e1) -> payloads h1 = [] -> NoDup bs -> Forall packet_driven (map fst l) -> (forall x, In x (payloads (map fst l)) -> In (payload_buffer x) bs) -> buffers_in_turn bs (payloads (map fst l)) ->
  exists y f d evs, rec_run path (sys_new "flv") (fh_start (fun _ => [])) session = Ok (y, f) /\ run (dm_new "flv") h = Ok (d, evs) /\ aligned evs /\ dm_map d = dm_map d1 /\ map payload_of (accepted evs) = payloads (map fst l) /\
    Forall2 same_track (dm_tracks d1) (dm_tracks d).
Proof.
  intros h1 h session bs So Nh D Sc Su R1 P1 Nd Pd K T. assert (Eh : h = (o1, OpSetAutoFree true) :: (o2, OpSetHandler) :: map fst (la ++ l)) by (subst h h1; rewrite map_app; reflexivity).
  pose proof Nh as Nh0. rewrite Eh in So, Nh, D, Sc. rewrite Forall_cons_iff in So, Nh, D, Sc. destruct So as [O1 So], Nh as [_ Nh], D as [_ D], Sc as [_ Sc]. rewrite Forall_cons_iff in So, Nh, D, Sc. destruct So as [O2 So], Nh as [_ Nh], D as [_ D], Sc as [_ Sc].
  destruct (C128_flv path (fun _ => []) o1 c1 o2 c2 (la ++ l) O1 O2 So Nh D Sc) as (d & evs & R & Rec). rewrite <- Eh in R.
  assert (N1 : Forall no_hook h1) by (subst h; now apply Forall_app in Nh0). assert (N2 : Forall no_hook (map fst l)) by (subst h; now apply Forall_app in Nh0).
  pose proof R as R'. subst h. rewrite run_app, R1 in R'. cbn [bind] in R'. destruct (run d1 (map fst l)) as [[d2 e2]| | |] eqn:R2; cbn [bind] in R'; try discriminate. injection R' as -> <-.
  destruct (C130_announced "flv" h1 (map fst l) d1 e1 d e2 N1 N2 R1 P1 Nd Pd K R2) as (_ & M & A & Al). apply Al in T.
  destruct (Rec T) as (y & f & E); [now rewrite M|exact Su|]. exists y, f, d, (e1 ++ e2). split; [exact E|]. split; [exact R|]. split; [exact T|]. split; [exact M|]. split; [exact A|].
  pose proof (run_wf _ _ _ _ (wf_new "flv") R1) as W1. pose proof (run_wf _ _ _ _ W1 R2) as W2. destruct (run_ext _ _ _ _ W1 R2) as [(ta & tb & X & Fx) _].
  assert (tb = []) as ->; [|now rewrite app_nil_r in X; subst ta].
  pose proof (Forall2_len _ _ _ Fx) as L. assert (L1 : length (dm_map d) = length (dm_tracks d)) by (rewrite <- (map_length fst), (proj2 W2), map_length; apply seq_length).
  assert (L2 : length (dm_map d1) = length (dm_tracks d1)) by (rewrite <- (map_length fst), (proj2 W1), map_length; apply seq_length). rewrite M in L1. rewrite X, app_length in L1. destruct tb; [reflexivity|cbn in L1; lia].
Qed.
(** Tracks are announced before the first packet, and the streams are heard of in the order of the announcements. The recording succeeds. The file of an H.264 track, taken apart at its start
    codes, is the units handed over for its buffer except for the last packet; the file of an audio track is the data handed over except for the last packet. *)
Theorem C129_flv_streams : forall path o1 c1 o2 c2 la l d1 e1, let h1 := (o1, OpSetAutoFree true) :: (o2, OpSetHandler) :: map fst la in let h := h1 ++ map fst l in
  let session := ((o1, OpSetAutoFree true), c1) :: ((o2, OpSetHandler), c2) :: la ++ l in let bs := map snd (dm_map d1) in
  Forall sorting h -> Forall no_hook h -> Forall delivery_op h -> Forall flv_call h -> sys_fits (sys_new "flv") session -> (exists o, In (o, OpProbeComplete) (map fst l)) ->
  run (dm_new "flv") h1 = Ok (d1, e1) -> payloads h1 = [] -> NoDup bs -> Forall packet_driven (map fst l) -> (forall x, In x (payloads (map fst l)) -> In (payload_buffer x) bs) -> buffers_in_turn bs (payloads (map fst l)) ->
  exists y f, rec_run path (sys_new "flv") (fh_start (fun _ => [])) session = Ok (y, f) /\
    forall j s b n, nth_error (dm_tracks d1) j = Some s -> nth_error bs j = Some b -> file_name path s = Ok n -> let own := for_buffer b (payloads (map fst l)) in StronglySorted Z.lt (map payload_dts own) ->
      (st_media s = AVMediaTypeVideo -> st_codec s = AVCodecIdH264 -> forall units sets, Forall unit_ok sets ->
         (forall o tb record c, In (o, OpNewVideo b AVCodecIdH264 tb record) h1 -> parse_avc_record record = Ok c -> cd_annexb c = annexb sets) ->
         (forall x, In x own -> payload_media x = AVMediaTypeVideo /\ payload_codec x = AVCodecIdH264 /\ payload_data x = avcc (units x) /\ Forall avcc_unit_ok (units x) /\ Forall nalu_ok (units x)) ->
         let written := concat (map (flv_units sets units) (removelast own)) in fh_disk f n = annexb written /\ (written <> [] -> split_nalu (fh_disk f n) = Ok (map sc_unit written))) /\
      ((forall x, In x own -> payload_media x = AVMediaTypeAudio) -> fh_disk f n = concat (map payload_data (removelast own))).
Proof.
  intros path o1 c1 o2 c2 la l d1 e1 h1 h session bs So Nh D Sc Su (oc & Ic) R1 P1 Nd Pd K T. destruct (flv_core path o1 c1 o2 c2 la l d1 e1 So Nh D Sc Su R1 P1 Nd Pd K T) as (y & f & d & evs & E & R & Al & M & A & Tr).
  fold session in E. fold h1 h in R. exists y, f. split; [exact E|]. intros j s b n J Jb Fn own As. pose proof (run_wf _ _ _ _ (wf_new "flv") R1) as W1.
  assert (Cd : dm_completed d = true) by (eapply probe_completes; [apply wf_new| |exact R]; subst h; apply in_or_app; right; exact Ic).
  assert (Js : exists s', nth_error (dm_tracks d) j = Some s' /\ same_track s s').
  { clear -Tr J. revert j J. induction Tr as [|x x' t t' Sx _ IH]; intros [|j] J; cbn in *; try discriminate; [injection J as <-; eauto|apply IH; exact J]. }
  destruct Js as (s' & J' & Sm). unfold same_track in Sm. destruct Sm as (S1 & S2 & S3 & _).
  assert (Fn' : file_name path s' = Ok n) by (unfold file_name in *; now rewrite S1, S2, S3).
  assert (Jm : In (Z.of_nat j, b) (dm_map d)).
  { rewrite M. apply nth_error_In with (n := j). pose proof (proj2 W1) as Kw. subst bs. clear -Jb Kw. rewrite nth_error_map in Jb. destruct (nth_error (dm_map d1) j) as [[i b']|] eqn:X; [|discriminate]. cbn in Jb. injection Jb as ->. do 2 f_equal.
    assert (Y : nth_error (map fst (dm_map d1)) j = Some i) by now rewrite nth_error_map, X. rewrite Kw, nth_error_map in Y. destruct (nth_error (seq 0 (length (dm_tracks d1))) j) as [k|] eqn:Z; [|discriminate]. cbn in Y. injection Y as <-. f_equal.
    assert (Lj : (j < length (dm_tracks d1))%nat) by (rewrite <- (seq_length (length (dm_tracks d1)) 0); apply nth_error_Some; congruence). apply nth_error_nth with (d := 0%nat) in Z. now rewrite seq_nth in Z. }
  assert (Eh : h = map fst session) by (subst h h1 session; cbn [map fst]; rewrite map_app; reflexivity).
  set (l1 := ((o2, OpSetHandler), c2) :: la ++ l) in *. assert (Pl : payloads (map fst l1) = payloads (map fst l)).
  { transitivity (payloads h); [rewrite Eh; reflexivity|]. subst h. unfold payloads in *. now rewrite flat_map_app, P1. }
  pose proof So as So1. pose proof Nh as Nh1. pose proof D as D1. rewrite Eh in So1, Nh1, D1. unfold session in So1, Nh1, D1. cbn [map fst] in So1, Nh1, D1. rewrite Forall_cons_iff in So1, Nh1, D1. destruct So1 as [O1 So1], Nh1 as [_ Nh1], D1 as [_ D1].
  assert (Nd' : NoDup (map snd (dm_map d))) by now rewrite M. assert (As' : StronglySorted Z.lt (map payload_dts (for_buffer b (payloads (map fst l1))))) by now rewrite Pl.
  assert (Rs : run (dm_new "flv") ((o1, OpSetAutoFree true) :: map fst l1) = Ok (d, evs)) by (rewrite Eh in R; exact R).
  assert (G : forall x, In x (removelast own) -> In x own).
  { intros x Ix. clearbody own. rewrite (app_removelast_last x); [apply in_or_app; now left|]. intros ->. destruct Ix. }
  split.
  - intros Ms Mc units sets Fs Hd U. rewrite <- S1 in Ms. rewrite <- S3 in Mc.
    destruct (C127_file path (fun _ => []) o1 c1 l1 d evs y f O1 So1 Nh1 D1 Rs Al Nd' Su E Cd j s' n b J' Jm Fn' Ms Mc As') with (units := units) as (refused & kept & o' & tb' & record & c & Ek & _ & Kp & Ir & Pc & F).
    { intros x Ix _. rewrite Pl in Ix. destruct (U x Ix) as (_ & U1 & U2 & U3 & _). auto. }
    assert (An : cd_annexb c = annexb sets).
    { apply (Hd o' tb' record c); [|exact Pc]. assert (I : In (o', OpNewVideo b AVCodecIdH264 tb' record) h) by (rewrite Eh; right; exact Ir). apply in_app_or in I as [I|I]; [exact I|]. rewrite Forall_forall in Pd. specialize (Pd _ I). discriminate. }
    assert (Kq : kept = own) by (rewrite Kp, A; reflexivity).
    assert (F' : fh_disk f n = annexb (concat (map (flv_units sets units) (removelast own)))).
    { cbv zeta in F. rewrite skipn_nil, app_nil_r, Kq in F. rewrite F. revert G. generalize (removelast own). induction l0 as [|x t IH]; intros G; [reflexivity|]. cbn [map concat]. rewrite annexb_app, <- IH by (intros; apply G; now right). f_equal.
      destruct (U x (G x (or_introl eq_refl))) as (Um & _). destruct x as [[[[[[m b'] id'] data] key] dts] pts]. cbn [payload_media] in Um. subst m. unfold recorded_flv, flv_units. cbn [payload_key]. rewrite Z.eqb_refl, annexb_app, norm_annexb, An. f_equal. destruct key; [now rewrite annexb_app|reflexivity]. }
    cbv zeta. split; [exact F'|]. intros Nw. rewrite F'. apply C26_split_units; [exact Nw|]. apply Forall_concat, Forall_map, Forall_forall. intros x Ix. destruct (U x (G x Ix)) as (_ & _ & _ & _ & Un).
    unfold flv_units. apply Forall_app. split; [destruct (payload_key x); [now apply Forall_app|constructor]|].
    assert (Ff : Forall nalu_ok (filter not_sei (units x))) by (apply Forall_forall; intros u In; apply filter_In in In as [In _]; rewrite Forall_forall in Un; now apply Un).
    destruct (filter not_sei (units x)) as [|u r]; [constructor|]. inversion Ff; subst. cbn [norm_units]. constructor; [assumption|]. apply Forall_map. assumption.
  - intros Au. destruct (file_by path (fun _ => []) "flv" o1 c1 l1 d evs y f payload_data O1 So1 Nh1 D1 Rs Al Nd' Su E Cd j s' n b J' Jm Fn' As') as (refused & kept & _ & (_ & Kp) & F).
    + intros p w _ _ Ij Ip (dd & Ax & ->). rewrite Pl in Ip. specialize (Au _ Ip). unfold payload_of in Au. cbn [payload_media] in Au. unfold access_unit in Ax. rewrite Au in Ax. change (AVMediaTypeAudio =? AVMediaTypeVideo) with false in Ax. change (AVMediaTypeVideo =? AVMediaTypeAudio) with false in Ax. cbv iota in Ax.
      cbn [payload_data]. rewrite Au. cbn. now rewrite app_nil_r, Ax.
    + cbv zeta in F. rewrite skipn_nil, app_nil_r, Kp, A in F. exact F.
Qed.
(** Video is announced before audio; [C130_calls] hands over video first, [C130_late] audio first: the first sound then gets the time to the next picture as its duration. *)
Definition C130_head : list call :=
  [((o0, OpNewVideo 0 AVCodecIdH264 1000 avcc_720), [avcc_720]); ((o0, OpNewAudio 1 G711A 1000 None audio_config_zero), [])].
Definition C130_video (key : bool) (units : list (list Z)) (t : Z) : call := ((o0, OpVideo 0 AVCodecIdH264 (avcc units) key t t), [avcc units]).
Definition C130_audio (data : list Z) (t : Z) : call := ((o0, OpAudio 1 G711A data t), [data]).
Definition C130_calls : list call :=
  [C130_video true [[6; 1]; [101; 5; 5]] 0; C130_audio [7; 8] 10; ((o0, OpProbeComplete), []); C130_audio [9] 30; C130_video false [[97; 7]; [97; 8]] 40; C130_video true [[101; 9]] 80; C130_audio [4] 90].
Definition C130_late : list call :=
  [C130_audio [7; 8] 10; C130_video true [[101; 5; 5]] 20; C130_audio [9] 30; ((o0, OpProbeComplete), [])].
Definition C130_start : list call := [((o0, OpSetAutoFree true), []); ((o0, OpSetHandler), [])].
Example C130_example : sys_fits (sys_new "flv") (C130_start ++ C130_head ++ C130_calls) /\
  ('(d, e) <- run (dm_new "flv") (map fst (C130_start ++ C130_head));; Ok (map snd (dm_map d), payloads (map fst (C130_start ++ C130_head)))) = Ok ([0; 1], []) /\
  buffers_in_turn [0; 1] (payloads (map fst C130_calls)) /\ ~ buffers_in_turn [0; 1] (payloads (map fst C130_late)) /\
  ('(_, f) <- rec_run "t" (sys_new "flv") (fh_start (fun _ => [])) (C130_start ++ C130_head ++ C130_calls);; Ok (map fst (fh_files f), fh_disk f "t.audio.1.PCMA"%string)) = Ok (["t.video.0.H264"; "t.audio.1.PCMA"]%string, [7; 8; 9]) /\
  ('(_, e) <- run (dm_new "flv") (map fst (C130_start ++ C130_head ++ C130_late));; Ok (map (fun p => (pk_index p, pk_dts p, pk_duration p)) (delivered e))) = Ok [(1, 10, 10)].
Proof.
  small_run E F "t"%string (fh_start (fun _ => [])) "flv"%string (C130_start ++ C130_head ++ C130_calls) o0_ok.
  split; [exact F|]. split; [vm_compute; reflexivity|]. split; [|split; [|split; [rewrite E|]; vm_compute; reflexivity]]; clear E F.
  - intros a x b E k j Hk Hj. unfold payloads in E. cbn in E.
    destruct a as [|x0 a]; injection E as E0 E; subst x0 || subst x; cbn in Hk.
    + destruct k as [|[|[|k]]]; cbn in Hk; try discriminate; lia.
    + eexists. split; [left; reflexivity|]. assert (j = 0%nat) as ->; [|reflexivity]. destruct k as [|[|[|k]]]; cbn in Hk; try discriminate; lia.
  - intros T. destruct (T [] _ _ eq_refl 1%nat 0%nat eq_refl) as (z & [] & _). lia.
Qed.
Print Assumptions C130_iff.
Print Assumptions C130_announced.
Print Assumptions C129_flv_streams.

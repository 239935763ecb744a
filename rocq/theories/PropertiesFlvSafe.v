(** * PropertiesFlvSafe: C133, when an flv recording runs to its end. *)
From Coq Require Import String List Sorted Lia.
From Verif Require Import Base CollectionsSpec NaluModel NaluSpec NaluProofs SpsModel RecordModel AacModel UtilModel BlockModel BlockSpec PacketModel PacketProofs RoundProofs DemuxModel DemuxProofs DeliverySpec DeliveryProofs TrackSpec TrackProofs
  HandlerModel HandlerSpec HandlerProofs PropertiesNalu PropertiesPacket PropertiesDemux PropertiesTracks PropertiesSps PropertiesParams SystemSpec SystemGrowSpec PropertiesSystemGrow
  RecordingModel RecordingProofs PropertiesRecording IntakeSpec IntakeProofs RecordedSpec RecordedProofs PropertiesIntake OpenedSpec OpenedProofs PropertiesOpened FlvRecordSpec FlvRecordProofs PropertiesFlvRecord RecordSafeSpec RecordSafeProofs PropertiesRecordSafe
  PropertiesUnitsOut ArrivalSpec ArrivalProofs PropertiesArrival FlvSafeSpec FlvSafeProofs SmallProofs.
Import ListNotations.
Local Open Scope list_scope.

(* ---------------------------------------------------------------------------------------- *)
(** ** C133 When an flv recording runs to its end *)
(** No record and no packet data, however broken, stops the demuxer; the recording fails exactly if an H.265 packet is delivered that cannot be read with the length prefixes of its track. *)
Theorem C133_flv : forall path k o1 c1 o2 c2 l, let h := map fst l in oracle_ok o1 -> oracle_ok o2 -> Forall sorting h -> Forall no_hook h -> Forall delivery_op h -> Forall flv_source h ->
  exists d evs, run (dm_new "flv") ((o1, OpSetAutoFree true) :: (o2, OpSetHandler) :: h) = Ok (d, evs) /\
    (aligned evs -> NoDup (map snd (dm_map d)) -> sys_fits (sys_new "flv") (((o1, OpSetAutoFree true), c1) :: ((o2, OpSetHandler), c2) :: l) ->
     (exists y f, rec_run path (sys_new "flv") (fh_start k) (((o1, OpSetAutoFree true), c1) :: ((o2, OpSetHandler), c2) :: l) = Ok (y, f)) <-> Forall (fun p => ~ unreadable (dm_tracks d) p) (delivered evs)).
Proof.
  intros path k o1 c1 o2 c2 l h O1 O2 So Nh D S.
  assert (W : Forall well_behaved h).
  { apply Forall_forall. intros [o a1] I1. rewrite Forall_forall in So, Nh. split; [now apply So|]. specialize (Nh _ I1). unfold op_hook_ok, no_hook in *. cbn [snd] in *. destruct a1; auto. destruct f; [contradiction|exact Logic.I]. }
  destruct (source_run o1 o2 h O1 O2 W S) as (d & evs & R & _). exists d, evs. split; [exact R|]. intros Al N Su.
  assert (D' : Forall delivery_op (map fst (((o2, OpSetHandler), c2) :: l))) by (constructor; [exact Logic.I|exact D]).
  assert (W' : Forall well_behaved ((o1, OpSetAutoFree true) :: map fst (((o2, OpSetHandler), c2) :: l))).
  { constructor; [split; [exact O1|exact Logic.I]|]. constructor; [split; [exact O2|exact Logic.I]|exact W]. }
  destruct (C122_recorded path k "flv" o1 c1 (((o2, OpSetHandler), c2) :: l) d evs W' D' R Al N Su) as (y & _ & E).
  assert (So' : Forall sorting ((o1, OpSetAutoFree true) :: (o2, OpSetHandler) :: h)) by (constructor; [exact O1|]; constructor; [exact O2|exact So]).
  assert (Nh' : Forall no_hook ((o1, OpSetAutoFree true) :: (o2, OpSetHandler) :: h)) by (constructor; [exact Logic.I|]; constructor; [exact Logic.I|exact Nh]).
  assert (S' : Forall flv_source ((o1, OpSetAutoFree true) :: (o2, OpSetHandler) :: h)) by (constructor; [exact Logic.I|]; constructor; [exact Logic.I|exact S]).
  rewrite E, <- (source_session path k _ d evs So' Nh' S' R). split.
  - intros (y' & f & Q). destruct (fh_session path (fh_start k) evs) as [f'| | |]; cbn [bind] in Q; try discriminate. eauto.
  - intros (f & ->). cbn. eauto.
Qed.
(** Start codes of four bytes for every unit; a key frame behind the parameter sets, which are there twice. *)
Definition flv_units_hevc (sets : list (bool * list Z)) (units : payload -> list (list Z)) (x : payload) : list (bool * list Z) := (if payload_key x then sets ++ sets else []) ++ map (pair true) (units x).
(** An flv session with H.265 video and sound, both announced before the first packet and heard of in this order, every H.265 packet made of whole units: the recording succeeds, and the video file taken
    apart at its start codes is the units handed over except for the last packet. *)
Theorem C133_units : forall path o1 c1 o2 c2 la l d1 e1 units, let h1 := (o1, OpSetAutoFree true) :: (o2, OpSetHandler) :: map fst la in let h := h1 ++ map fst l in
  let session := ((o1, OpSetAutoFree true), c1) :: ((o2, OpSetHandler), c2) :: la ++ l in let bs := map snd (dm_map d1) in
  Forall sorting h -> Forall no_hook h -> Forall delivery_op h -> Forall flv_source h -> sys_fits (sys_new "flv") session -> (exists o, In (o, OpProbeComplete) (map fst l)) ->
  run (dm_new "flv") h1 = Ok (d1, e1) -> payloads h1 = [] -> NoDup bs -> Forall packet_driven (map fst l) -> (forall x, In x (payloads (map fst l)) -> In (payload_buffer x) bs) -> buffers_in_turn bs (payloads (map fst l)) ->
  (forall x, In x (payloads (map fst l)) -> payload_media x = AVMediaTypeVideo -> payload_codec x = AVCodecIdH265 -> whole_units (dm_tracks d1) bs units x) ->
  exists y f, rec_run path (sys_new "flv") (fh_start (fun _ => [])) session = Ok (y, f) /\
    forall j s b n, nth_error (dm_tracks d1) j = Some s -> nth_error bs j = Some b -> file_name path s = Ok n -> let own := for_buffer b (payloads (map fst l)) in StronglySorted Z.lt (map payload_dts own) ->
      (is_h26x (st_codec s) = true -> forall c sets, st_params s = Some c -> cd_annexb c = annexb sets -> Forall unit_ok sets ->
         (forall x, In x own -> payload_media x = AVMediaTypeVideo /\ payload_codec x = AVCodecIdH265 /\ Forall nalu_ok (units x)) ->
         let written := concat (map (flv_units_hevc sets units) (removelast own)) in fh_disk f n = annexb written /\ (written <> [] -> split_nalu (fh_disk f n) = Ok (map sc_unit written))) /\
      ((forall x, In x own -> payload_media x = AVMediaTypeAudio) -> fh_disk f n = concat (map payload_data (removelast own))).
Proof.
  intros path o1 c1 o2 c2 la l d1 e1 units h1 h session bs So Nh D Sc Su (oc & Ic) R1 P1 Nd Pd K T Wu.
  assert (Eh : h = (o1, OpSetAutoFree true) :: (o2, OpSetHandler) :: map fst (la ++ l)) by (subst h h1; rewrite map_app; reflexivity).
  pose proof So as So0. pose proof Nh as Nh0. pose proof D as D0. pose proof Sc as Sc0. rewrite Eh in So, Nh, D, Sc. rewrite Forall_cons_iff in So, Nh, D, Sc. destruct So as [O1 So], Nh as [_ Nh], D as [_ D], Sc as [_ Sc]. rewrite Forall_cons_iff in So, Nh, D, Sc. destruct So as [O2 So], Nh as [_ Nh], D as [_ D], Sc as [_ Sc].
  destruct (C133_flv path (fun _ => []) o1 c1 o2 c2 (la ++ l) O1 O2 So Nh D Sc) as (d & evs & R & Rec). rewrite <- Eh in R.
  assert (N1 : Forall no_hook h1) by (subst h; now apply Forall_app in Nh0). assert (N2 : Forall no_hook (map fst l)) by (subst h; now apply Forall_app in Nh0).
  pose proof R as R'. subst h. rewrite run_app, R1 in R'. cbn [bind] in R'. destruct (run d1 (map fst l)) as [[d2 e2]| | |] eqn:R2; cbn [bind] in R'; try discriminate. injection R' as -> Ee.
  destruct (C130_announced "flv" h1 (map fst l) d1 e1 d e2 N1 N2 R1 P1 Nd Pd K R2) as (_ & M & A & Al). rewrite Ee in *. apply Al in T. clear Al. set (h := h1 ++ map fst l) in *.
  pose proof (run_wf _ _ _ _ (wf_new "flv") R1) as W1. pose proof (run_wf _ _ _ _ W1 R2) as W2.
  assert (Tr : Forall2 same_track (dm_tracks d1) (dm_tracks d)).
  { destruct (run_ext _ _ _ _ W1 R2) as [(ta & tb & X & Fx) _]. assert (tb = []) as ->; [|now rewrite app_nil_r in X; subst ta].
    pose proof (Forall2_len _ _ _ Fx) as L. assert (L1 : length (dm_map d) = length (dm_tracks d)) by (rewrite <- (map_length fst), (proj2 W2), map_length; apply seq_length).
    assert (L2 : length (dm_map d1) = length (dm_tracks d1)) by (rewrite <- (map_length fst), (proj2 W1), map_length; apply seq_length). rewrite M in L1. rewrite X, app_length in L1. destruct tb; [reflexivity|cbn in L1; lia]. }
  assert (Js : forall j s, nth_error (dm_tracks d1) j = Some s -> exists s', nth_error (dm_tracks d) j = Some s' /\ same_track s s').
  { clear -Tr. induction Tr as [|x x' t t' Sx _ IH]; intros [|j] s J; cbn in *; try discriminate; [injection J as <-; eauto|apply IH; exact J]. }
  assert (Jm : forall j b, nth_error bs j = Some b -> In (Z.of_nat j, b) (dm_map d)).
  { intros j b Jb. rewrite M. apply nth_error_In with (n := j). pose proof (proj2 W1) as Kw. subst bs. clear -Jb Kw. rewrite nth_error_map in Jb. destruct (nth_error (dm_map d1) j) as [[i b']|] eqn:X; [|discriminate]. cbn in Jb. injection Jb as ->. do 2 f_equal.
    assert (Y : nth_error (map fst (dm_map d1)) j = Some i) by now rewrite nth_error_map, X. rewrite Kw, nth_error_map in Y. destruct (nth_error (seq 0 (length (dm_tracks d1))) j) as [k|] eqn:Z; [|discriminate]. cbn in Y. injection Y as <-. f_equal.
    assert (Lj : (j < length (dm_tracks d1))%nat) by (rewrite <- (seq_length (length (dm_tracks d1)) 0); apply nth_error_Some; congruence). apply nth_error_nth with (d := 0%nat) in Z. now rewrite seq_nth in Z. }
  assert (Pl0 : payloads h = payloads (map fst l)) by (unfold h, payloads in *; now rewrite flat_map_app, P1).
  assert (Rd : Forall (fun p => ~ unreadable (dm_tracks d) p) (delivered evs)).
  { apply Forall_forall. intros p Ip (Mp & Cp & s' & Ij & Hs & Nr). apply Nr. destruct (delivered_facts "flv" h d evs So0 Nh0 R p Ip) as (_ & Pl & _). rewrite Pl0 in Pl.
    destruct (Wu _ Pl Mp Cp) as (j & s & cc & k & v & sp & pp & J & Jb & Sp & Eu & Fu & Lu). destruct (Js j s J) as (s2 & J2 & Sm). destruct Sm as (_ & _ & _ & S4 & _).
    destruct (delivered_accepted _ _ _ _ _ So0 R Ip) as (q & Iq & Eq). destruct (reach_packets _ _ _ _ Nh0 R) as [_ Pok]. rewrite Forall_forall in Pok. destruct (Pok _ Iq) as (_ & s3 & _ & _ & Hm).
    pose proof (f_equal pk_index Eq) as Ei. pose proof (f_equal pk_buffer Eq) as Eb. cbn in Ei, Eb.
    assert (Ex : pk_index p = Z.of_nat j).
    { pose proof (Jm _ _ Jb) as H1. unfold payload_of in H1. cbn [payload_buffer] in H1. assert (H2 : In (pk_index p, pk_buffer p) (dm_map d)) by congruence. rewrite M in H1, H2.
      assert (Inj : forall x y, In x (dm_map d1) -> In y (dm_map d1) -> snd x = snd y -> x = y).
      { subst bs. clear -Nd. induction (dm_map d1) as [|z t IH]; intros x y Hx Hy E; [destruct Hx|]. cbn [map] in Nd. inversion Nd as [|? ? X1 X2]; subst. destruct Hx as [<-|Hx], Hy as [<-|Hy]; auto; exfalso; apply X1; [rewrite E|rewrite <- E]; now apply in_map. }
      exact (f_equal fst (Inj _ _ H2 H1 eq_refl)). }
    rewrite Ex, idx_nat, J2 in Ij. injection Ij as <-. exists cc, k, v, sp, pp, (units (payload_of p)). split; [congruence|]. split; [exact Eu|]. split; [exact Fu|exact Lu]. }
  destruct (proj2 (Rec T ltac:(rewrite M; exact Nd) Su) Rd) as (y & f & E). fold session in E.
  exists y, f. split; [exact E|]. intros j s b n J Jb Fn own As.
  assert (Cd : dm_completed d = true) by (eapply probe_completes; [apply wf_new| |exact R]; subst h; apply in_or_app; right; exact Ic).
  destruct (Js j s J) as (s' & J' & Sm). unfold same_track in Sm. destruct Sm as (S1 & S2 & S3 & S4 & _). pose proof (Jm _ _ Jb) as Jn.
  assert (Fn' : file_name path s' = Ok n) by (unfold file_name in *; now rewrite S1, S2, S3).
  assert (Eh' : h = map fst session) by (subst h h1 session; cbn [map fst]; rewrite map_app; reflexivity).
  set (l1 := ((o2, OpSetHandler), c2) :: la ++ l) in *. assert (Pl : payloads (map fst l1) = payloads (map fst l)) by (rewrite <- Pl0, Eh'; reflexivity).
  pose proof So0 as So1. pose proof Nh0 as Nh1. pose proof D0 as D1. rewrite Eh' in So1, Nh1, D1. unfold session in So1, Nh1, D1. cbn [map fst] in So1, Nh1, D1. rewrite Forall_cons_iff in So1, Nh1, D1. destruct So1 as [_ So1], Nh1 as [_ Nh1], D1 as [_ D1].
  assert (Nd' : NoDup (map snd (dm_map d))) by now rewrite M. assert (As' : StronglySorted Z.lt (map payload_dts (for_buffer b (payloads (map fst l1))))) by now rewrite Pl.
  assert (Rs : run (dm_new "flv") ((o1, OpSetAutoFree true) :: map fst l1) = Ok (d, evs)) by (rewrite Eh' in R; exact R).
  assert (G : forall x, In x (removelast own) -> In x own).
  { intros x Ix. clearbody own. rewrite (app_removelast_last x); [apply in_or_app; now left|]. intros ->. destruct Ix. }
  assert (Ji : idx (dm_tracks d) (Z.of_nat j) = Some s') by now rewrite idx_nat.
  split.
  - intros Hs c sets Sp Ec Fs U.
    assert (Uk : forall x, In x own -> exists cc k v sp pp, c = CdHevc cc (Z.of_nat k) v sp pp /\ (1 <= k <= 4)%nat /\ payload_data x = lp k (units x) /\ Forall (lp_unit_ok k) (units x) /\ (4 - Z.of_nat k) * zlen (units x) <= 256).
    { intros x Ix. destruct (U x Ix) as (Ux & Uc & _). unfold own, for_buffer in Ix. apply filter_In in Ix as [Ix Bx]. apply Z.eqb_eq in Bx. destruct (Wu x Ix Ux Uc) as (j2 & sj & cc & k & v & sp & pp & Jj & Jjb & Spj & Eu & Fu & Lu).
      assert (j2 = j) as -> by (eapply NoDup_nth_error; [exact Nd|apply nth_error_Some; congruence|congruence]). rewrite J in Jj. injection Jj as <-. exists cc, k, v, sp, pp. split; [congruence|]. split; [|auto].
      destruct (source_track h d evs Sc0 R _ s' Ji ltac:(now rewrite S3)) as [(cc' & sp' & pp' & X)|(cc' & k' & v' & sp' & pp' & X & Bk)]; [congruence|]. assert (k' = k) as <-; [|exact Bk]. apply Nat2Z.inj. rewrite S4, Spj in X. congruence. }
    destruct (file_by path (fun _ => []) "flv" o1 c1 l1 d evs y f (recorded_flv_hevc (cd_annexb c) units) O1 So1 Nh1 D1 Rs T Nd' Su E Cd j s' n b J' Jn Fn' As') as (refused & kept & _ & (_ & Kp) & F).
    + intros p w [Fa Fl] Ty Ij Ip (dd & Au & ->). rewrite Pl in Ip. fold own in Ip. destruct (U _ Ip) as (Um & Uc & _). destruct (Uk _ Ip) as (cc & k & v & sp & pp & Eck & Bk & Eu & Fu & Lu). unfold payload_of in Um, Uc, Eu. cbn [payload_media payload_codec payload_data] in Um, Uc, Eu.
      unfold access_unit in Au. rewrite Um in Au. change (AVMediaTypeVideo =? AVMediaTypeVideo) with true in Au. cbv iota in Au. destruct Au as (s2 & p1 & Es & X). rewrite Ij, Ji in Es. injection Es as <-.
      destruct Ty as [Ty|Ty]; [|contradiction]. change (get_pack_type "flv") with PacketTypeAVCC in Ty. assert (Ao : alloc_ok p) by (unfold alloc_ok; now rewrite Fl).
      rewrite (avcc_hevc s' p cc k v sp pp (units (payload_of p)) Um Ty) in X; auto; [|now rewrite S3|now rewrite S4, Sp, Eck].
      injection X as _ <-. unfold recorded_flv_hevc, payload_of, key_extra. rewrite Um, Ty. change (AVMediaTypeVideo =? AVMediaTypeVideo) with true. change (PacketTypeAVCC =? PacketTypeAVCC) with true. rewrite <- Eck. cbv iota. cbn [andb]. 
      destruct (pk_key p); cbn [andb]; [rewrite Ij, Ji, S4, Sp|]; cbn [concat app]; now rewrite ?app_nil_r, <- ?app_assoc.
    + cbv zeta in F. rewrite skipn_nil, app_nil_r, Kp, A in F. fold own in F.
      assert (F' : fh_disk f n = annexb (concat (map (flv_units_hevc sets units) (removelast own)))).
      { rewrite F. revert G. generalize (removelast own). induction l0 as [|x t IH]; intros G; [reflexivity|]. cbn [map concat]. rewrite annexb_app, <- IH by (intros; apply G; now right). f_equal.
        destruct (U x (G x (or_introl eq_refl))) as (Um & _). destruct x as [[[[[[m b'] id'] data] key] dts] pts]. cbn [payload_media] in Um. subst m. unfold recorded_flv_hevc, flv_units_hevc. cbn [payload_key]. rewrite Z.eqb_refl, annexb_app, annexb4_annexb, Ec. f_equal. destruct key; [now rewrite annexb_app|reflexivity]. }
      cbv zeta. split; [exact F'|]. intros Nw. rewrite F'. apply C26_split_units; [exact Nw|]. apply Forall_concat, Forall_map, Forall_forall. intros x Ix. destruct (U x (G x Ix)) as (_ & _ & Un).
      unfold flv_units_hevc. apply Forall_app. split; [destruct (payload_key x); [now apply Forall_app|constructor]|]. apply Forall_map. exact Un.
  - intros Au. destruct (file_by path (fun _ => []) "flv" o1 c1 l1 d evs y f payload_data O1 So1 Nh1 D1 Rs T Nd' Su E Cd j s' n b J' Jn Fn' As') as (refused & kept & _ & (_ & Kp) & F).
    + intros p w _ _ Ij Ip (dd & Ax & ->). rewrite Pl in Ip. specialize (Au _ Ip). unfold payload_of in Au. cbn [payload_media] in Au. unfold access_unit in Ax. rewrite Au in Ax. change (AVMediaTypeAudio =? AVMediaTypeVideo) with false in Ax. change (AVMediaTypeVideo =? AVMediaTypeAudio) with false in Ax. cbv iota in Ax.
      cbn [payload_data]. rewrite Au. cbn. now rewrite app_nil_r, Ax.
    + cbv zeta in F. rewrite skipn_nil, app_nil_r, Kp, A in F. exact F.
Qed.
(** An H.265 session with sound; the same session with a packet cut short. *)
Definition C133_record : list Z := p_record [(32, [[64; 1; 12]]); (33, [p_sps 640]); (34, [[68; 1; 193]])].
Definition C133_video (key : bool) (data : list Z) (t : Z) : call := ((o0, OpVideo 0 AVCodecIdH265 data key t t), [data]).
Definition C133_head : list call := [((o0, OpSetAutoFree true), []); ((o0, OpSetHandler), []); ((o0, OpNewVideo 0 AVCodecIdH265 1000 C133_record), [C133_record]); ((o0, OpNewAudio 1 G711A 1000 None audio_config_zero), [])].
Definition C133_calls (first : list Z) : list call :=
  [C133_video true first 0; C130_audio [7; 8] 10; ((o0, OpProbeComplete), []); C133_video false (lp 4 [[2; 1; 7]; [2; 1; 8]]) 40; C130_audio [9] 50; C133_video true (lp 4 [[38; 1; 9]]) 80].
Example C133_example : let good := C133_head ++ C133_calls (lp 4 [[78; 1; 5]; [38; 1; 5]]) in let bad := C133_head ++ C133_calls [0; 0; 0; 9; 38; 1; 5] in
  sys_fits (sys_new "flv") good /\ sys_fits (sys_new "flv") bad /\ Forall flv_source (map fst good) /\ Forall flv_source (map fst bad) /\
  ('(_, f) <- rec_run "t" (sys_new "flv") (fh_start (fun _ => [])) good;; Ok (map fst (fh_files f), fh_disk f "t.audio.1.PCMA"%string)) = Ok (["t.video.0.H265"; "t.audio.1.PCMA"]%string, [7; 8]) /\
  ('(_, f) <- rec_run "t" (sys_new "flv") (fh_start (fun _ => [])) good;; Ok (fh_disk f "t.video.0.H265"%string)) =
     (c <- parse_hevc_record (fun n => n) C133_record;; Ok (cd_annexb c ++ cd_annexb c ++ annexb4 [[78; 1; 5]; [38; 1; 5]; [2; 1; 7]; [2; 1; 8]])) /\
  rec_run "t" (sys_new "flv") (fh_start (fun _ => [])) bad = Panic.
Proof.
  intros good bad. small_run E F "t"%string (fh_start (fun _ => [])) "flv"%string good o0_ok. small_run E' F' "t"%string (fh_start (fun _ => [])) "flv"%string bad o0_ok.
  split; [exact F|]. split; [exact F'|].
  assert (B : forallb (fun x => (0 <=? x) && (x <? 256)) C133_record = true) by (vm_compute; reflexivity).
  assert (B' : bytes_ok C133_record /\ zlen C133_record < 2 ^ 63) by (split; [apply Forall_forall; intros x I; rewrite forallb_forall in B; specialize (B x I); unfold byte_ok; lia|vm_compute; reflexivity]). clear B.
  split; [|split]; [| |split; [rewrite E; vm_compute; reflexivity|split; [rewrite E|rewrite E']; vm_compute; reflexivity]].
  all: clear E E' F F'.
  all: unfold good, bad; cbn [C133_head C133_calls map app fst C133_video C130_audio]; repeat (apply Forall_cons; [|]); try apply Forall_nil; try exact Logic.I; try exact B'; try reflexivity.
  all: unfold flv_source; cbn [snd]; try (split; [reflexivity|]; intros X; discriminate); repeat constructor; unfold byte_ok; cbn; lia.
Qed.
Print Assumptions C133_flv.
Print Assumptions C133_units.

(** * PropertiesParams: C116 - codec parameters parsed from a decoder configuration record. *)
From Verif Require Import Base BitSpec BufioModel GolombProofs RingProofs NaluModel NaluSpec NaluProofs SplitProofs RecordModel RecordSpec RecordProofs HevcRecordProofs FloatModel ConvertProofs SpsModel SpsSpec SpsProofs HevcListsSpec HevcListsProofs PacketModel PropertiesSps.

(** ** H.264 *)
(** The parameters of a record with the SPSs [S] and PPSs [P] whose first SPS parses to [i]. *)
Definition avc_params (data : list Z) (S P : list (list Z)) (i : avc_sps) : codec_data :=
  CdAvc {| cc_width := as_width i; cc_height := as_height i; cc_annexb := None; cc_m4vc := Some data |} (with4s S) (with4s P).

Theorem C116_avc_exact : forall data, bytes_ok data -> zlen data < 2 ^ 63 ->
  (forall c, parse_avc_record data = Ok c <->
     exists hdr n s S p P tail i, avc_layout data hdr n (s :: S) p P tail /\ avc_parse_sps (sc true ++ s) = Ok i /\ c = avc_params data (s :: S) P i) /\
  ((exists c, parse_avc_record data = Ok c) \/ parse_avc_record data = Err).
Proof.
  intros d B L. unfold parse_avc_record. destruct (avc_unmarshal_dec avc_record_zero d B L) as [(hdr & c & S & p & P & tail & Lay)|E].
  - rewrite (avc_unmarshal_layout avc_record_zero d _ _ _ _ _ _ B L Lay). pose proof Lay as (_ & _ & _ & _ & _ & _ & S1 & _). destruct S as [|s S]; [exfalso; cbn in S1; lia|].
    cbn [bind avc_record_of ar_sps ar_pps avc_record_zero app with4s map]. rewrite idx_cons_0. cbn [of_opt bind].
    assert (L4 : 4 <= zlen (sc true ++ s)) by (rewrite zlen_app; pose proof (zlen_nonneg s); change (zlen (sc true)) with 4; lia).
    assert (U : forall hdr' c' s' S' p' P' tail', avc_layout d hdr' c' (s' :: S') p' P' tail' -> s' = s /\ S' = S /\ P' = P).
    { intros hdr' c' s' S' p' P' tail' Lay'. pose proof (avc_unmarshal_layout avc_record_zero d _ _ _ _ _ _ B L Lay) as U1. rewrite (avc_unmarshal_layout avc_record_zero d _ _ _ _ _ _ B L Lay') in U1.
      injection U1 as _ _ _ _ _ H1 H2 H3. assert (Inj : forall a b, with4s a = with4s b -> a = b).
      { induction a as [|x a IH]; intros [|y b] H; try discriminate; [reflexivity|]. cbn [with4s map] in H. injection H as H0 H4. f_equal; [exact H0|now apply IH]. }
      auto. }
    split.
    + intros c0. split.
      * destruct (avc_parse_sps (sc true ++ s)) as [i| | |] eqn:Ei; try discriminate. cbn [bind]. intros H. injection H as <-. exists hdr, c, s, S, p, P, tail, i. split; [exact Lay|]. split; [exact Ei|]. reflexivity.
      * intros (hdr' & c' & s' & S' & p' & P' & tail' & i & Lay' & Ei & ->). destruct (U _ _ _ _ _ _ _ Lay') as (-> & -> & ->). rewrite Ei. reflexivity.
    + destruct (C47_avc_sps_total _ L4) as [->|[i ->]]; cbn [bind]; eauto.
  - rewrite E. cbn [bind]. split; [|now right]. intros c0. split; [discriminate|]. intros (hdr & c & s & S & p & P & tail & i & Lay & _). rewrite (avc_unmarshal_layout avc_record_zero d _ _ _ _ _ _ B L Lay) in E. discriminate.
Qed.

(** AnnexBExtraData and MP4ExtraData of such parameters. *)
Lemma concat_nil_or (l : list (list Z)) : of_nil (match concat l with [] => None | x => Some x end) = concat l.
Proof. now destruct (concat l). Qed.
Theorem C116_avc_extra : forall data S P i,
  cd_annexb (avc_params data S P i) = concat (with4s S ++ with4s P) /\ cd_mp4 (avc_params data S P i) = Ok (Some data).
Proof. intros. split; [|reflexivity]. unfold cd_annexb, mix, avc_params. cbn [cd_c cc_annexb]. rewrite concat_nil_or. cbn [concat]. now rewrite app_nil_r. Qed.

(** ** H.265 *)
Definition hevc_params (data hdr : list Z) (vps sps pps : list (list Z)) (i : hevc_sps) : codec_data :=
  CdHevc {| cc_width := hsp_width i; cc_height := hsp_height i; cc_annexb := None; cc_m4vc := Some data |} (field hdr 174 2 + 1) vps sps pps.
(** What the parser takes for the first SPS: the first PPS of the record if it comes before the last SPS, otherwise the last SPS. *)
Definition taken_sps grow (l : list (Z * list Z)) (x : list Z) (r : list (Z * list Z)) : list Z := hd x (sps_list grow l x r).
Lemma taken_spec grow l x r : taken_sps grow l x r = match typed 34 l with y :: _ => y | [] => x end.
Proof. unfold taken_sps, sps_list. destruct (typed 34 l) as [|y m]; [|reflexivity]. cbn [app hd length]. unfold spare. cbn [cap_after]. now destruct (typed 34 r). Qed.

Lemma hevc_shape grow data hdr arrs tail l x r : bytes_ok data -> zlen data < 2 ^ 63 -> hevc_layout data hdr arrs tail -> of_type 32 arrs <> [] -> of_type 34 arrs <> [] ->
  units_of arrs = l ++ (33, x) :: r -> typed 33 r = [] ->
  exists s, hevc_unmarshal grow data = Ok (header_of hdr, s) /\ hs_V s = with4s (of_type 32 arrs) /\ hs_P s = with4s (of_type 34 arrs) /\ hs_S s = sps_list grow l x r.
Proof.
  intros B L Lay NV NP Eu N. exists (add_arrays grow arrs hevc_sets_zero). rewrite (hevc_unmarshal_layout grow _ _ _ _ B L Lay). unfold hevc_result. destruct (add_counts grow arrs) as (CS & CP & CV).
  assert (NS : of_type 33 arrs <> []). { pose proof (typed_units 33 arrs) as T. intros Z. rewrite Z, Eu, typed_app in T. apply app_eq_nil in T as [_ T]. discriminate T. }
  rewrite (proj2 (Nat.eqb_neq _ _)) by tauto. rewrite (proj2 (Nat.eqb_neq _ _)) by tauto. rewrite (proj2 (Nat.eqb_neq _ _)) by tauto. split; [reflexivity|].
  destruct (add_arrays_spec grow arrs _ hs_wf_zero) as (_ & V & P). split; [exact V|]. split; [exact P|]. destruct (add_S grow arrs) as [_ S1]. now apply S1.
Qed.
Lemma hevc_shape_dec grow data : bytes_ok data -> zlen data < 2 ^ 63 ->
  (exists hdr arrs tail l x r, hevc_layout data hdr arrs tail /\ of_type 32 arrs <> [] /\ of_type 34 arrs <> [] /\ units_of arrs = l ++ (33, x) :: r /\ typed 33 r = []) \/ hevc_unmarshal grow data = Err.
Proof.
  intros B L. destruct (hevc_unmarshal_dec grow data B L) as [(hdr & arrs & tail & Lay)|E]; [|now right]. rewrite (hevc_unmarshal_layout grow _ _ _ _ B L Lay). unfold hevc_result. destruct (add_counts grow arrs) as (CS & CP & CV).
  destruct (Nat.eqb_spec (ns_len (hs_sps (add_arrays grow arrs hevc_sets_zero))) 0) as [|NS]; [now right|].
  destruct (Nat.eqb_spec (ns_len (hs_pps (add_arrays grow arrs hevc_sets_zero))) 0) as [|NP]; [now right|].
  destruct (Nat.eqb_spec (ns_len (hs_vps (add_arrays grow arrs hevc_sets_zero))) 0) as [|NV]; [now right|].
  left. destruct (last_sps (units_of arrs)) as [N|(l & x & r & Eu & N)].
  - exfalso. rewrite typed_units in N. apply NS, CS. destruct (of_type 33 arrs); [reflexivity|discriminate N].
  - exists hdr, arrs, tail, l, x, r. tauto.
Qed.
Lemma shape_value grow data hdr arrs tail l x r : bytes_ok data -> zlen data < 2 ^ 63 -> hevc_layout data hdr arrs tail -> of_type 32 arrs <> [] -> of_type 34 arrs <> [] ->
  units_of arrs = l ++ (33, x) :: r -> typed 33 r = [] ->
  parse_hevc_record grow data = (i <- hevc_parse_sps (match typed 34 l with y :: _ => y | [] => x end);; Ok (hevc_params data hdr (with4s (of_type 32 arrs)) (sps_list grow l x r) (with4s (of_type 34 arrs)) i)).
Proof.
  intros B L Lay NV NP Eu N. destruct (hevc_shape grow _ _ _ _ _ _ _ B L Lay NV NP Eu N) as (s & E & V & P & Sl). unfold parse_hevc_record. rewrite E. cbn [bind]. unfold hs_V, hs_S, hs_P in *. rewrite V, Sl, P.
  rewrite <- (taken_spec grow l x r). unfold taken_sps. destruct (sps_list grow l x r) as [|y m] eqn:Es; [now apply app_eq_nil in Es as [_ Es]|]. rewrite idx_cons_0. cbn [of_opt bind hd]. reflexivity.
Qed.

Theorem C116_hevc_exact_partial : forall grow data, bytes_ok data -> zlen data < 2 ^ 63 ->
  (forall c, parse_hevc_record grow data = Ok c <->
     exists hdr arrs tail l x r i, hevc_layout data hdr arrs tail /\ of_type 32 arrs <> [] /\ of_type 34 arrs <> [] /\
       units_of arrs = l ++ (33, x) :: r /\ typed 33 r = [] /\
       hevc_parse_sps (match typed 34 l with y :: _ => y | [] => x end) = Ok i /\
       c = hevc_params data hdr (with4s (of_type 32 arrs)) (sps_list grow l x r) (with4s (of_type 34 arrs)) i) /\
  ((exists c, parse_hevc_record grow data = Ok c) \/ parse_hevc_record grow data = Err).
Proof.
  intros grow d B L. destruct (hevc_shape_dec grow d B L) as [(hdr & arrs & tail & l & x & r & Lay & NV & NP & Eu & N)|E].
  - pose proof (shape_value grow _ _ _ _ _ _ _ B L Lay NV NP Eu N) as V. split.
    + intros c. split.
      * rewrite V. destruct (hevc_parse_sps _) as [i| | |] eqn:Ei; try discriminate. cbn [bind]. intros H. injection H as <-. exists hdr, arrs, tail, l, x, r, i. auto 10.
      * intros (hdr' & arrs' & tail' & l' & x' & r' & i & Lay' & NV' & NP' & Eu' & N' & Ei & ->). rewrite (shape_value grow _ _ _ _ _ _ _ B L Lay' NV' NP' Eu' N'), Ei. reflexivity.
    + rewrite V. assert (L4 : 4 <= zlen (match typed 34 l with y :: _ => y | [] => x end)).
      { assert (F : Forall (fun u => 4 <= zlen (snd u)) (units_of arrs)).
        { apply Forall_forall. intros [t y] I. unfold units_of in I. apply in_concat in I as (u & I1 & I2). apply in_map_iff in I1 as (a & <- & _). apply in_map_iff in I2 as (n & H & _). injection H as _ <-.
          cbn [snd]. rewrite !zlen_cons. pose proof (zlen_nonneg n). lia. }
        rewrite Eu in F. apply Forall_app in F as [Fl Fx]. apply Forall_cons_iff in Fx as [Fx _]. destruct (typed 34 l) as [|y m] eqn:T; [exact Fx|].
        assert (I : In y (typed 34 l)) by (rewrite T; now left). unfold typed in I. apply in_map_iff in I as (u & <- & I). apply filter_In in I as [I _]. rewrite Forall_forall in Fl. now apply Fl. }
      destruct (C83_hevc_sps_total _ L4) as [->|[i ->]]; cbn [bind]; eauto.
  - unfold parse_hevc_record. rewrite E. cbn [bind]. split; [|now right]. intros c. split; [discriminate|]. intros (hdr & arrs & tail & l & x & r & i & Lay & NV & NP & Eu & N & _).
    destruct (hevc_shape grow _ _ _ _ _ _ _ B L Lay NV NP Eu N) as (s & E' & _). congruence.
Qed.

(** With one SPS and every PPS after it, all is as claimed: the size is that of the SPS, and AnnexBExtraData holds the sets of the record. *)
Theorem C116_hevc_one_sps_partial : forall grow data hdr arrs tail l n r, bytes_ok data -> zlen data < 2 ^ 63 -> hevc_layout data hdr arrs tail -> of_type 32 arrs <> [] -> of_type 34 arrs <> [] ->
  units_of arrs = l ++ (33, sc true ++ n) :: r -> of_type 33 arrs = [n] -> typed 34 l = [] ->
  parse_hevc_record grow data =
  (i <- hevc_parse_sps (sc true ++ n);; Ok (hevc_params data hdr (with4s (of_type 32 arrs)) (with4s (of_type 33 arrs)) (with4s (of_type 34 arrs)) i)).
Proof.
  intros grow data hdr arrs tail l n r B L Lay NV NP Eu NS T. assert (N : typed 33 r = []).
  { pose proof (typed_units 33 arrs) as H. rewrite NS, Eu, typed_app in H. unfold typed at 2 in H. cbn [filter fst Z.eqb Pos.eqb map snd with4s] in H. fold (typed 33 r) in H.
    destruct (typed 33 l) as [|y m]; [now injection H|]. exfalso. apply (f_equal (@length _)) in H. cbn in H. rewrite app_length in H. cbn in H. lia. }
  rewrite (shape_value grow _ _ _ _ _ _ _ B L Lay NV NP Eu N), T, NS. unfold sps_list. rewrite T. cbn [length app]. change (spare grow 0) with false. now destruct (typed 34 r).
Qed.
Theorem C116_hevc_extra : forall data hdr vps sps pps i,
  cd_annexb (hevc_params data hdr vps sps pps i) = concat (vps ++ sps ++ pps) /\ cd_mp4 (hevc_params data hdr vps sps pps i) = Ok (Some data).
Proof. intros. split; [|reflexivity]. unfold cd_annexb, mix, hevc_params. cbn [cd_c cc_annexb]. rewrite concat_nil_or. cbn [concat]. now rewrite app_nil_r. Qed.

(** The claim fails for a record with two SPSs, which gives the size of the last one, and for a record with its PPSs first, which is rejected. *)
Definition p_hdr (n : Z) : list Z := [1; 97; 96; 0; 0; 3; 144; 1; 2; 3; 4; 5; 93; 240; 10; 253; 254; 250; 251; 0; 25; 79; n].
Definition p_sps (w : Z) : list Z :=
  [66; 1] ++ escape (pack (sps265_bits {| q_vps := 0; q_nesting := true; q_ptl := ptl_ex; q_id := 0; q_chroma := 1; q_separate := false; q_width := w; q_height := 1088; q_window := None; q_luma := 0; q_depth_chroma := 0;
    q_log2_poc := 4; q_ordering_present := true; q_ordering := [(4, 0, 0); (4, 2, 0); (4, 2, 5)]; q_tail := (0, 3, 0, 3, 1, 1) |})).
Definition p_record (arrs : list (Z * list (list Z))) : list Z := p_hdr (zlen arrs) ++ concat (map harray arrs).
Theorem C116_hevc_refuted :
  (exists c i, parse_hevc_record (fun n => n) (p_record [(32, [[64; 1; 12]]); (33, [p_sps 1920; p_sps 640]); (34, [[68; 1; 193]])]) = Ok c /\
     hevc_parse_sps (sc true ++ p_sps 1920) = Ok i /\ hsp_width i = 1920 /\ cd_width c = 640 /\ cd_annexb c = concat (with4s [[64; 1; 12]; p_sps 640; [68; 1; 193]])) /\
  parse_hevc_record (fun n => n) (p_record [(34, [[68; 1; 193]]); (32, [[64; 1; 12]]); (33, [p_sps 1920])]) = Err.
Proof. split; [do 2 eexists; do 4 (split; [vm_compute; reflexivity|]); vm_compute; reflexivity|vm_compute; reflexivity]. Qed.

Example C116_example :
  (exists c, parse_avc_record avcc_720 = Ok c /\ cd_width c = 1280 /\ cd_height c = 720 /\ zlen (cd_annexb c) = 21) /\
  (exists c, parse_hevc_record (fun _ => 0%nat) (p_record [(32, [[64; 1; 12]]); (33, [p_sps 640]); (34, [[68; 1; 193]; [68; 1; 194]])]) = Ok c /\
     cd_width c = 640 /\ cd_annexb c = concat (with4s [[64; 1; 12]; p_sps 640; [68; 1; 193]; [68; 1; 194]])).
Proof. split; eexists; (split; [vm_compute; reflexivity|]); (split; [vm_compute; reflexivity|]); [split|]; vm_compute; reflexivity. Qed.
Print Assumptions C116_avc_exact.
Print Assumptions C116_avc_extra.
Print Assumptions C116_hevc_exact_partial.
Print Assumptions C116_hevc_one_sps_partial.
Print Assumptions C116_hevc_extra.
Print Assumptions C116_hevc_refuted.

(** * PropertiesRecord: C39-C43, C79 - decoder configuration records. *)
From Verif Require Import Base BufioModel NaluModel NaluSpec SplitProofs RecordModel RecordSpec RecordProofs HevcListsSpec HevcRecordProofs HevcListsProofs M4vcProofs.

(* ---------------------------------------------------------------------------------------- *)
(** ** C39: Unmarshal after Marshal (AVC). *)
Lemma lor224 n : 0 <= n <= 31 -> Z.lor 224 n = 224 + n /\ (224 + n) mod 32 = n.
Proof.
  intros H. split; [|Z.div_mod_to_equations; lia].
  assert (forallb (fun k => Z.lor 224 (Z.of_nat k) =? 224 + Z.of_nat k) (seq 0 32) = true) as T by (vm_compute; reflexivity).
  rewrite forallb_forall in T. specialize (T (Z.to_nat n)). rewrite Z2Nat.id in T by lia. apply Z.eqb_eq, T, in_seq. lia.
Qed.

Lemma strip_det l a b : Forall2 strip l a -> Forall2 strip l b -> a = b.
Proof.
  intros H. revert b. induction H as [|x n l a Hx F IH]; intros b Hb; inversion Hb as [|? m ? b' Hy Fb]; subst; [reflexivity|]. f_equal; [|now apply IH].
  unfold strip in *. rewrite Hx in Hy. now injection Hy.
Qed.
Lemma strip_with4s l : Forall2 strip (with4s l) l.
Proof. induction l; cbn [with4s map]; constructor; auto. apply (remove_sc true). Qed.

Theorem C39_avc_record_round_trip : forall spsList ppsList d, Forall go_bytes spsList -> Forall go_bytes ppsList -> zlen spsList <= 31 -> zlen ppsList <= 255 ->
  avc_marshal spsList ppsList = Ok d ->
  exists S P b0 b1 b2 b3 t, Forall2 strip spsList S /\ Forall2 strip ppsList P /\ last S [] = b0 :: b1 :: b2 :: b3 :: t /\
    avc_unmarshal avc_record_zero d =
    Ok {| ar_version := 1; ar_profile := b1; ar_compat := b2; ar_level := b3; ar_length_size := 3; ar_sps := with4s S; ar_pps := with4s P |}.
Proof.
  intros sl pl d F1 F2 L1 L2 E. destruct (avc_marshal_inv sl pl d F1 F2 E) as (S & P & b0 & b1 & b2 & b3 & t & FS & FP & OS & OP & N1 & N2 & EL & Ed & Ld); [lia|lia|].
  exists S, P, b0, b1, b2, b3, t. repeat (split; [assumption|]).
  pose proof (Forall2_zlen _ _ _ FS) as ZS. pose proof (Forall2_zlen _ _ _ FP) as ZP.
  assert (P1 : 1 <= zlen sl) by (destruct sl; [congruence|rewrite zlen_cons; pose proof (zlen_nonneg sl); lia]).
  assert (P2 : 1 <= zlen pl) by (destruct pl; [congruence|rewrite zlen_cons; pose proof (zlen_nonneg pl); lia]).
  assert (U1 : u8 (zlen sl) = zlen sl) by (unfold u8; apply Z.mod_small; lia). assert (U2 : u8 (zlen pl) = zlen pl) by (unfold u8; apply Z.mod_small; lia).
  rewrite U1, U2 in Ed. destruct (lor224 (zlen sl)) as [Q1 Q2]; [lia|]. rewrite Q1 in Ed.
  assert (BL : bytes_ok (last S [])).
  { destruct S as [|s0 S0] eqn:ES; [cbn in EL; discriminate|]. rewrite <- ES in *. assert (In (last S []) S) as HI.
    { destruct (exists_last (l := S)) as (m & x & ->); [now rewrite ES|]. rewrite last_last. apply in_or_app. right. now left. }
    rewrite Forall_forall in OS. apply (OS _ HI). }
  rewrite EL in BL. unfold bytes_ok in BL. rewrite !Forall_cons_iff in BL. destruct BL as (B0 & B1 & B2 & B3 & _).
  assert (Lb : forall l, Forall set_ok l -> bytes_ok (lp 2 l)) by (intros l Hl; apply lp_ok; eapply Forall_impl; [|exact Hl]; intros n [Hn _]; exact Hn).
  assert (Bd : bytes_ok d).
  { rewrite Ed. apply bytes_ok_app. split; [unfold bytes_ok; rewrite !Forall_cons_iff; unfold byte_ok in *; repeat split; try lia; constructor|]. apply bytes_ok_app. split; [auto|].
    apply bytes_ok_app. split; [unfold bytes_ok; rewrite Forall_cons_iff; unfold byte_ok; split; [lia|constructor]|auto]. }
  assert (Lay : avc_layout d [1; b1; b2; b3; 255] (224 + zlen sl) S (zlen pl) P []).
  { split; [rewrite Ed; cbn [app]; now rewrite !app_nil_r|]. split; [reflexivity|]. repeat (split; [assumption|]). lia. }
  rewrite (avc_unmarshal_layout avc_record_zero d _ _ _ _ _ _ Bd ltac:(lia) Lay). unfold avc_record_of. reflexivity.
Qed.

(** With start codes in front, as the records are built everywhere in the library, the lists come back identical. *)
Theorem C39_same_lists : forall S P d, Forall go_bytes (with4s S) -> Forall go_bytes (with4s P) -> zlen S <= 31 -> zlen P <= 255 ->
  avc_marshal (with4s S) (with4s P) = Ok d -> exists r, avc_unmarshal avc_record_zero d = Ok r /\ ar_sps r = with4s S /\ ar_pps r = with4s P.
Proof.
  intros S P d F1 F2 L1 L2 E. assert (M : forall l, zlen (with4s l) = zlen l) by (intros l; unfold zlen, with4s; now rewrite map_length).
  destruct (C39_avc_record_round_trip _ _ d F1 F2) as (S' & P' & b0 & b1 & b2 & b3 & t & FS & FP & _ & Eu); [now rewrite M|now rewrite M|exact E|].
  rewrite <- (strip_det _ _ _ FS (strip_with4s S)), <- (strip_det _ _ _ FP (strip_with4s P)). eexists. split; [exact Eu|]. split; reflexivity.
Qed.

Definition sps1 : list Z := [103; 66; 192; 30; 217].
Definition sps2 : list Z := [103; 100; 0; 31].
Definition pps1 : list Z := [104; 203; 131].
Definition rec12 : list Z := [1; 100; 0; 31; 255; 226; 0; 5; 103; 66; 192; 30; 217; 0; 4; 103; 100; 0; 31; 1; 0; 3; 104; 203; 131].
Example C39_example : avc_marshal [sc true ++ sps1; sc false ++ sps2] [pps1] = Ok rec12 /\
  avc_unmarshal avc_record_zero rec12 =
  Ok {| ar_version := 1; ar_profile := 100; ar_compat := 0; ar_level := 31; ar_length_size := 3; ar_sps := [sc true ++ sps1; sc true ++ sps2]; ar_pps := [sc true ++ pps1] |}.
Proof. split; vm_compute; reflexivity. Qed.
Print Assumptions C39_avc_record_round_trip.
Print Assumptions C39_same_lists.

(* ---------------------------------------------------------------------------------------- *)
(** ** C40: the AVC record parser is total, and accepts exactly the records of the standard layout. *)
Theorem C40_avc_record_total : forall a data, bytes_ok data -> zlen data < 2 ^ 63 ->
  (exists hdr c S p P tail, avc_layout data hdr c S p P tail /\
     avc_unmarshal a data = Ok (avc_record_of a hdr S P) /\
     avc_extra_to_annexb data = or_err (zlen (concat (with4s (S ++ P))) <=? 1024) (concat (with4s (S ++ P)))) \/
  (~ (exists hdr c S p P tail, avc_layout data hdr c S p P tail) /\ avc_unmarshal a data = Err /\ avc_extra_to_annexb data = Err).
Proof.
  intros a data B L. destruct (avc_unmarshal_dec a data B L) as [(hdr & c & S & p & P & tail & Lay)|E].
  - left. exists hdr, c, S, p, P, tail. split; [exact Lay|]. split; [eapply avc_unmarshal_layout; eauto|eapply avc_extra_layout; eauto].
  - right. assert (N : ~ exists hdr c S p P tail, avc_layout data hdr c S p P tail).
    { intros (hdr & c & S & p & P & tail & Lay). rewrite (avc_unmarshal_layout a _ _ _ _ _ _ _ B L Lay) in E. discriminate. }
    split; [exact N|]. split; [exact E|]. unfold avc_extra_to_annexb. destruct (avc_unmarshal_dec avc_record_zero data B L) as [H|E2]; [contradiction|]. now rewrite E2.
Qed.

Example C40_example : avc_extra_to_annexb rec12 = Ok (sc true ++ sps1 ++ sc true ++ sps2 ++ sc true ++ pps1) /\
  avc_unmarshal avc_record_zero (firstn 20 rec12) = Err /\ avc_unmarshal avc_record_zero [1; 2; 3] = Err.
Proof. repeat split; vm_compute; reflexivity. Qed.
Print Assumptions C40_avc_record_total.

(* ---------------------------------------------------------------------------------------- *)
(** ** C41: M4VCExtraDataToAnnexB. *)

(** It panics on truncated records, and with two SPSs both functions succeed with different results. *)
Theorem C41_m4vc_refuted :
  (exists src, bytes_ok src /\ m4vc_extra_to_annexb src = Panic) /\
  (exists src o1 o2, bytes_ok src /\ m4vc_extra_to_annexb src = Ok o1 /\ avc_extra_to_annexb src = Ok o2 /\ o1 <> o2).
Proof.
  split.
  - exists [1; 66; 192; 30; 255; 225; 0; 5; 103; 66]. split; [repeat constructor; unfold byte_ok; lia|]. vm_compute. reflexivity.
  - exists rec12. do 2 eexists. split; [repeat constructor; unfold byte_ok; lia|]. split; [vm_compute; reflexivity|]. split; [vm_compute; reflexivity|]. discriminate.
Qed.

(** On every record with one SPS that Unmarshal accepts it returns the same bytes, or an error when they do not fit in
    len(src)+256; with more SPSs it returns the SPSs only. *)
Theorem C41_m4vc_partial : forall data hdr c S p P tail, bytes_ok data -> zlen data < 2 ^ 62 -> avc_layout data hdr c S p P tail ->
  m4vc_extra_to_annexb data = or_err (zlen (concat (with4s (m4vc_units S P))) <=? zlen data + 256) (concat (with4s (m4vc_units S P))) /\
  (c mod 32 = 1 -> forall o1 o2, m4vc_extra_to_annexb data = Ok o1 -> avc_extra_to_annexb data = Ok o2 -> o1 = o2).
Proof.
  intros data hdr c S p P tail B L Lay. pose proof (m4vc_layout _ _ _ _ _ _ _ B L Lay) as E. split; [exact E|]. intros C o1 o2 E1 E2.
  rewrite E in E1. rewrite (avc_extra_layout _ _ _ _ _ _ _ B ltac:(lia) Lay) in E2. destruct Lay as (_ & _ & _ & _ & NS & _). unfold m4vc_units in E1. rewrite NS, C in E1. change (1 =? 1) with true in E1. cbv iota in E1.
  unfold or_err in *. destruct (_ <=? _) in E1; [|discriminate]. destruct (_ <=? _) in E2; [|discriminate]. congruence.
Qed.

Definition rec11 : list Z := [1; 66; 192; 30; 255; 225; 0; 5; 103; 66; 192; 30; 217; 1; 0; 3; 104; 203; 131].
Example C41_example : avc_layout rec11 [1; 66; 192; 30; 255] 225 [sps1] 1 [pps1] [] /\
  m4vc_extra_to_annexb rec11 = Ok (sc true ++ sps1 ++ sc true ++ pps1) /\ avc_extra_to_annexb rec11 = Ok (sc true ++ sps1 ++ sc true ++ pps1).
Proof.
  split; [|split; vm_compute; reflexivity]. split; [reflexivity|]. split; [reflexivity|].
  split; [|split; [|repeat split; vm_compute; congruence]]; repeat constructor; unfold byte_ok; lia.
Qed.
Print Assumptions C41_m4vc_refuted.
Print Assumptions C41_m4vc_partial.

(** On arbitrary bytes: [m4vc_spec] says which units are written and which inputs give an error or a panic. *)
Theorem C41_m4vc_exact : forall src, bytes_ok src -> zlen src < 2 ^ 62 -> m4vc_extra_to_annexb src = m4vc_spec src.
Proof. exact m4vc_exact. Qed.
Print Assumptions C41_m4vc_exact.
Example C41_exact_example :
  m4vc_spec [1; 66; 192; 30] = Err /\ m4vc_spec [1; 66; 192; 30; 255] = Ok [] /\ m4vc_spec [1; 66; 192; 30; 255; 225; 0] = Err /\ m4vc_spec [1; 66; 192; 30; 255; 225; 0; 5; 103; 66] = Panic /\
  m4vc_spec [1; 66; 192; 30; 255; 225; 0; 1; 103; 7; 0] = Ok [0; 0; 0; 1; 103] /\ m4vc_spec [1; 66; 192; 30; 255; 225; 0; 1; 103; 2; 0; 1; 104; 0; 1; 105] = Ok [0; 0; 0; 1; 103; 0; 0; 0; 1; 104; 0; 0; 0; 1; 105].
Proof. repeat (split; [reflexivity|]). reflexivity. Qed.

(* ---------------------------------------------------------------------------------------- *)
(** ** C42: Unmarshal after Marshal (HEVC). *)
Definition hvps : list Z := [64; 1; 12].
Definition hsps1 : list Z := [66; 1; 1].
Definition hsps2 : list Z := [66; 1; 2].
Definition hpps1 : list Z := [68; 1; 193].
Definition hpps2 : list Z := [68; 1; 194].

(** With two SPSs the first one is lost, whatever append does. *)
Theorem C42_hevc_record_refuted : exists v s p d, hevc_marshal v s p = Ok d /\ forall grow, exists hd x, hevc_unmarshal grow d = Ok (hd, x) /\ hs_S x <> s.
Proof.
  exists [sc true ++ hvps], [sc true ++ hsps1; sc true ++ hsps2], [sc true ++ hpps1]. eexists. split; [vm_compute; reflexivity|].
  intros grow.
  edestruct (hevc_round_trip grow [sc true ++ hvps] [sc true ++ hsps1; sc true ++ hsps2] [sc true ++ hpps1]) as (V & S & P & F1 & F2 & F3 & H); [| | |vm_compute; reflexivity|].
  1-3: repeat constructor; unfold byte_ok; lia.
  assert (V = [hvps]) by (eapply strip_det; [exact F1|apply (strip_with4s [hvps])]). assert (S = [hsps1; hsps2]) by (eapply strip_det; [exact F2|apply (strip_with4s [hsps1; hsps2])]).
  assert (P = [hpps1]) by (eapply strip_det; [exact F3|apply (strip_with4s [hpps1])]). subst V S P.
  destruct H as (s & Eu & _ & ES & _); try reflexivity. exists (header_of hdr0), s. split; [exact Eu|]. rewrite ES. discriminate.
Qed.

(** VPS and PPS lists come back whole, of the SPSs only the last; so with one SPS the round trip is exact. *)
Theorem C42_hevc_record_partial : forall grow V S P d, Forall go_bytes (with4s V) -> Forall go_bytes (with4s S) -> Forall go_bytes (with4s P) ->
  hevc_marshal (with4s V) (with4s S) (with4s P) = Ok d -> hevc_nal_type (hd [] V) = 32 -> hevc_nal_type (hd [] S) = 33 -> hevc_nal_type (hd [] P) = 34 ->
  exists s, hevc_unmarshal grow d = Ok (header_of hdr0, s) /\ hs_V s = with4s V /\ hs_P s = with4s P /\ hs_S s = [sc true ++ last S []] /\ (zlen S = 1 -> hs_S s = with4s S).
Proof.
  intros grow V S P d F1 F2 F3 E T1 T2 T3. destruct (hevc_round_trip grow _ _ _ d F1 F2 F3 E) as (V' & S' & P' & G1 & G2 & G3 & H).
  rewrite (strip_det _ _ _ G1 (strip_with4s V)) in H. rewrite (strip_det _ _ _ G2 (strip_with4s S)) in H. rewrite (strip_det _ _ _ G3 (strip_with4s P)) in H.
  destruct (H T1 T2 T3) as (s & Eu & EV & ES & EP). exists s. repeat (split; [assumption|]). intros L. rewrite ES. destruct S as [|x [|y S]]; [discriminate L|reflexivity|].
  rewrite !zlen_cons in L. pose proof (zlen_nonneg S). lia.
Qed.

Example C42_example : exists d hd x, hevc_marshal [sc true ++ hvps] [sc true ++ hsps1] [sc true ++ hpps1; sc true ++ hpps2] = Ok d /\ hevc_unmarshal (fun n => n) d = Ok (hd, x) /\
  hs_V x = [sc true ++ hvps] /\ hs_S x = [sc true ++ hsps1] /\ hs_P x = [sc true ++ hpps1; sc true ++ hpps2].
Proof. do 3 eexists. repeat (split; [vm_compute; reflexivity|]). vm_compute; reflexivity. Qed.
Print Assumptions C42_hevc_record_refuted.
Print Assumptions C42_hevc_record_partial.

(* ---------------------------------------------------------------------------------------- *)
(** ** C43: the HEVC record parser is total and reads every header field from its place. *)
Theorem C43_hevc_fields : forall grow data h s, bytes_ok data -> zlen data < 2 ^ 63 -> hevc_unmarshal grow data = Ok (h, s) ->
  exists hdr arrs tail, hevc_layout data hdr arrs tail /\ s = add_arrays grow arrs hevc_sets_zero /\
  h = {| hh_version := field hdr 0 8; hh_space := field hdr 8 2; hh_tier := field hdr 10 1; hh_profile := field hdr 11 5;
         hh_compat := field hdr 16 32; hh_constraint := field hdr 48 48; hh_level := field hdr 96 8;
         hh_min_spatial := field hdr 108 12; hh_parallelism := field hdr 126 2; hh_chroma := field hdr 134 2;
         hh_luma := field hdr 141 3; hh_chroma_depth := field hdr 149 3; hh_avg_rate := field hdr 152 16;
         hh_const_rate := field hdr 168 2; hh_layers := field hdr 170 3; hh_nested := field hdr 173 1;
         hh_length_size := field hdr 174 2 + 1; hh_arrays := field hdr 176 8 |}.
Proof.
  intros grow data h s B L E. destruct (hevc_unmarshal_dec grow data B L) as [(hdr & arrs & tail & Lay)|E']; [|congruence].
  exists hdr, arrs, tail. split; [exact Lay|]. rewrite (hevc_unmarshal_layout grow _ _ _ _ B L Lay) in E. unfold hevc_result in E.
  repeat (destruct (_ =? _)%nat; [discriminate|]). injection E as <- <-. split; reflexivity.
Qed.

Theorem C43_hevc_total : forall grow data, bytes_ok data -> zlen data < 2 ^ 63 ->
  ((exists r, hevc_unmarshal grow data = Ok r) \/ hevc_unmarshal grow data = Err) /\
  ((exists r, hevc_extra_to_annexb grow data = Ok r) \/ hevc_extra_to_annexb grow data = Err) /\
  (forall out, hevc_extra_to_annexb grow data = Ok out -> exists h s, hevc_unmarshal grow data = Ok (h, s) /\ out = concat (hs_V s ++ hs_S s ++ hs_P s)).
Proof.
  intros grow data B L. destruct (hevc_unmarshal_dec grow data B L) as [(hdr & arrs & tail & Lay)|E].
  - rewrite (hevc_extra_layout grow _ _ _ _ B L Lay), (hevc_unmarshal_layout grow _ _ _ _ B L Lay). unfold hevc_result.
    repeat (destruct (_ =? _)%nat; [cbn [bind]; repeat split; try (right; reflexivity); discriminate|]). cbn [bind]. unfold or_err. destruct (_ <=? 1024); repeat split; eauto; intros out Eo; [|discriminate].
    injection Eo as <-. eauto.
  - unfold hevc_extra_to_annexb. rewrite E. cbn [bind]. repeat split; auto. discriminate.
Qed.

(** Which slices are accepted: those with the layout and at least one unit of each type. *)
Theorem C43_hevc_accepts : forall grow data, bytes_ok data -> zlen data < 2 ^ 63 ->
  (exists r, hevc_unmarshal grow data = Ok r) <->
  (exists hdr arrs tail, hevc_layout data hdr arrs tail /\ of_type 32 arrs <> [] /\ of_type 33 arrs <> [] /\ of_type 34 arrs <> []).
Proof.
  intros grow data B L. split.
  - intros [r E]. destruct (hevc_unmarshal_dec grow data B L) as [(hdr & arrs & tail & Lay)|E']; [|congruence]. exists hdr, arrs, tail. split; [exact Lay|].
    rewrite (hevc_unmarshal_layout grow _ _ _ _ B L Lay) in E. unfold hevc_result in E. destruct (add_counts grow arrs) as (CS & CP & CV).
    destruct (Nat.eqb_spec (ns_len (hs_sps (add_arrays grow arrs hevc_sets_zero))) 0) as [|NS]; [discriminate|].
    destruct (Nat.eqb_spec (ns_len (hs_pps (add_arrays grow arrs hevc_sets_zero))) 0) as [|NP]; [discriminate|].
    destruct (Nat.eqb_spec (ns_len (hs_vps (add_arrays grow arrs hevc_sets_zero))) 0) as [|NV]; [discriminate|]. tauto.
  - intros (hdr & arrs & tail & Lay & NV & NS & NP). rewrite (hevc_unmarshal_layout grow _ _ _ _ B L Lay). unfold hevc_result. destruct (add_counts grow arrs) as (CS & CP & CV).
    rewrite (proj2 (Nat.eqb_neq _ _)) by tauto. rewrite (proj2 (Nat.eqb_neq _ _)) by tauto. rewrite (proj2 (Nat.eqb_neq _ _)) by tauto. eauto.
Qed.
Theorem C43_hevc_extra_exact : forall grow data, bytes_ok data -> zlen data < 2 ^ 63 ->
  hevc_extra_to_annexb grow data =
  match hevc_unmarshal grow data with
  | Ok (_, s) => if zlen (concat (hs_V s ++ hs_S s ++ hs_P s)) <=? 1024 then Ok (concat (hs_V s ++ hs_S s ++ hs_P s)) else Err
  | _ => Err
  end.
Proof.
  intros grow data B L. destruct (hevc_unmarshal_dec grow data B L) as [(hdr & arrs & tail & Lay)|E].
  - rewrite (hevc_extra_layout grow _ _ _ _ B L Lay), (hevc_unmarshal_layout grow _ _ _ _ B L Lay). unfold hevc_result.
    repeat (destruct (_ =? _)%nat; [reflexivity|]). reflexivity.
  - unfold hevc_extra_to_annexb. now rewrite E.
Qed.

Definition hrec : list Z := [1; 97; 96; 0; 0; 3; 144; 1; 2; 3; 4; 5; 93; 240; 10; 253; 254; 250; 251; 0; 25; 79; 3] ++ harray (32, [hvps]) ++ harray (161, [hsps1]) ++ harray (34, [hpps1]).
Example C43_example : exists s, hevc_unmarshal (fun n => n) hrec = Ok
  ({| hh_version := 1; hh_space := 1; hh_tier := 1; hh_profile := 1; hh_compat := 1610612739; hh_constraint := 158334003119109; hh_level := 93; hh_min_spatial := 10; hh_parallelism := 1;
      hh_chroma := 2; hh_luma := 2; hh_chroma_depth := 3; hh_avg_rate := 25; hh_const_rate := 1; hh_layers := 1; hh_nested := 1; hh_length_size := 4; hh_arrays := 3 |}, s) /\
  hevc_extra_to_annexb (fun n => n) hrec = Ok (sc true ++ hvps ++ sc true ++ hsps1 ++ sc true ++ hpps1) /\ hevc_unmarshal (fun n => n) (firstn 40 hrec) = Err.
Proof. eexists. repeat (split; [vm_compute; reflexivity|]). vm_compute; reflexivity. Qed.
Print Assumptions C43_hevc_fields.
Print Assumptions C43_hevc_total.
Print Assumptions C43_hevc_accepts.
Print Assumptions C43_hevc_extra_exact.

(* ---------------------------------------------------------------------------------------- *)
(** ** C79: the lists hold the units of the arrays of their type. *)

(** Not for SPSs: with the PPS array first, SPSList starts with a PPS; and a PPS appended later into spare capacity
    overwrites the SPS. *)
Theorem C79_hevc_lists_refuted : exists data hd s grow,
  hevc_layout data (hdr0) [(32, [hvps]); (34, [hpps1]); (33, [hsps1])] [] /\ hevc_unmarshal grow data = Ok (hd, s) /\ hs_S s = [sc true ++ hpps1; sc true ++ hsps1].
Proof.
  exists (hdr0 ++ harray (32, [hvps]) ++ harray (34, [hpps1]) ++ harray (33, [hsps1])). do 2 eexists. exists (fun n => 0%nat). split; [|split; vm_compute; reflexivity].
  split; [reflexivity|]. split; [reflexivity|]. split; [|reflexivity]. repeat constructor; unfold byte_ok; cbn [fst snd]; lia.
Qed.
Theorem C79_hevc_alias_refuted : exists data hd s grow,
  hevc_layout data [1;0;0;0;0;0;0;0;0;0;0;0;0;0;0;0;0;0;0;0;0;3;4] [(32, [hvps]); (34, [hpps1]); (33, [hsps1]); (34, [hpps2])] [] /\ hevc_unmarshal grow data = Ok (hd, s) /\
  hs_S s = [sc true ++ hpps1; sc true ++ hpps2].
Proof.
  exists ([1;0;0;0;0;0;0;0;0;0;0;0;0;0;0;0;0;0;0;0;0;3;4] ++ harray (32, [hvps]) ++ harray (34, [hpps1]) ++ harray (33, [hsps1]) ++ harray (34, [hpps2])). do 2 eexists. exists (fun n => n). split; [|split; vm_compute; reflexivity].
  split; [reflexivity|]. split; [reflexivity|]. split; [|reflexivity]. repeat constructor; unfold byte_ok; cbn [fst snd]; lia.
Qed.

(** VPSList and PPSList do, for every record and every growth policy of append. *)
Theorem C79_hevc_lists_partial : forall grow data hdr arrs tail, bytes_ok data -> zlen data < 2 ^ 63 -> hevc_layout data hdr arrs tail ->
  forall h s, hevc_unmarshal grow data = Ok (h, s) -> hs_V s = with4s (of_type 32 arrs) /\ hs_P s = with4s (of_type 34 arrs).
Proof.
  intros grow data hdr arrs tail B L Lay h s E. rewrite (hevc_unmarshal_layout grow _ _ _ _ B L Lay) in E. unfold hevc_result in E.
  repeat (destruct (_ =? _)%nat; [discriminate|]). injection E as _ <-. apply (add_arrays_spec grow arrs _ hs_wf_zero).
Qed.
(** And what SPSList holds: the PPSs before the last SPS, then that SPS or the first PPS after it. *)
Theorem C79_sps_list_exact : forall grow data hdr arrs tail, bytes_ok data -> zlen data < 2 ^ 63 -> hevc_layout data hdr arrs tail ->
  forall h s, hevc_unmarshal grow data = Ok (h, s) ->
  exists l x r, units_of arrs = l ++ (33, x) :: r /\ typed 33 r = [] /\ hs_S s = sps_list grow l x r.
Proof.
  intros grow data hdr arrs tail B L Lay h s E. rewrite (hevc_unmarshal_layout grow _ _ _ _ B L Lay) in E. unfold hevc_result in E. destruct (add_S grow arrs) as [S0 S1]. destruct (add_counts grow arrs) as (CS & _).
  destruct (Nat.eqb_spec (ns_len (hs_sps (add_arrays grow arrs hevc_sets_zero))) 0) as [|NS]; [discriminate|].
  repeat (destruct (_ =? _)%nat; [discriminate|]). injection E as _ <-. destruct (last_sps (units_of arrs)) as [N|(l & x & r & Eu & N)].
  - exfalso. rewrite typed_units in N. apply NS, CS. destruct (of_type 33 arrs); [reflexivity|discriminate N].
  - exists l, x, r. split; [exact Eu|]. split; [exact N|]. now apply S1.
Qed.
(** When no PPS comes before the last SPS, SPSList is that SPS alone, for every growth policy. *)
Theorem C79_sps_first : forall grow data hdr arrs tail, bytes_ok data -> zlen data < 2 ^ 63 -> hevc_layout data hdr arrs tail ->
  forall h s l x r, hevc_unmarshal grow data = Ok (h, s) -> units_of arrs = l ++ (33, x) :: r -> typed 33 r = [] -> typed 34 l = [] -> hs_S s = [x].
Proof.
  intros grow data hdr arrs tail B L Lay h s l x r E Eu N P. rewrite (hevc_unmarshal_layout grow _ _ _ _ B L Lay) in E. unfold hevc_result in E.
  repeat (destruct (_ =? _)%nat; [discriminate|]). injection E as _ <-. destruct (add_S grow arrs) as [_ S1]. rewrite (S1 _ _ _ Eu N). unfold sps_list. rewrite P. cbn [length app spare cap_after]. destruct (typed 34 r); reflexivity.
Qed.
Example C79_example_order : sps_list (fun n => n) [(32, [1]); (34, [2])] [3] [(34, [4]); (34, [5])] = [[2]; [4]] /\
  sps_list (fun _ => 0%nat) [(32, [1]); (34, [2])] [3] [(34, [4]); (34, [5])] = [[2]; [3]].
Proof. split; reflexivity. Qed.
Example C79_example : exists h s, hevc_unmarshal (fun n => n) hrec = Ok (h, s) /\ hs_V s = [sc true ++ hvps] /\ hs_P s = [sc true ++ hpps1].
Proof. do 2 eexists. repeat (split; [vm_compute; reflexivity|]). vm_compute; reflexivity. Qed.
Print Assumptions C79_hevc_lists_refuted.
Print Assumptions C79_hevc_alias_refuted.
Print Assumptions C79_hevc_lists_partial.
Print Assumptions C79_sps_list_exact.
Print Assumptions C79_sps_first.

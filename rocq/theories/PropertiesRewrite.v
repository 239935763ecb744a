(** * PropertiesRewrite: headers and records that are read and written again (C162). *)
From Verif Require Import Base BufioModel RingProofs NaluModel NaluSpec NaluProofs SplitProofs AacModel AacSpec AacProofs RecordModel RecordSpec RecordProofs HevcRecordProofs MarshalProofs
  PropertiesAac PropertiesRecord PropertiesMarshal RewriteProofs.
Open Scope Z_scope.

(* ---------------------------------------------------------------------------------------- *)
(** ** C162 What is read and written again *)

(** H.264 record. Marshal of what Unmarshal read is known exactly; it is the same record iff the header is the one Marshal writes and nothing follows; read once more it holds the same sets, and written once more it is itself. *)
Theorem C162_avc : forall data r, bytes_ok data -> zlen data < 2 ^ 63 -> avc_unmarshal avc_record_zero data = Ok r ->
  exists hdr c S p P tail, avc_layout data hdr c S p P tail /\ avc_marshal (ar_sps r) (ar_pps r) = avc_again S P /\
  forall d, avc_marshal (ar_sps r) (ar_pps r) = Ok d ->
    (d = data <-> hdr = firstn 5 d /\ c = 224 + zlen S /\ tail = []) /\
    exists r', avc_unmarshal avc_record_zero d = Ok r' /\ ar_sps r' = ar_sps r /\ ar_pps r' = ar_pps r /\ ar_length_size r' = 3 /\ avc_marshal (ar_sps r') (ar_pps r') = Ok d.
Proof.
  intros data r B L E. destruct (avc_unmarshal_dec avc_record_zero data B L) as [(hdr & c & S & p & P & tail & Lay)|E']; [|congruence]. exists hdr, c, S, p, P, tail. split; [exact Lay|].
  rewrite (avc_unmarshal_layout avc_record_zero _ _ _ _ _ _ _ B L Lay) in E. injection E as <-. cbn [avc_record_of ar_sps ar_pps avc_record_zero app]. pose proof Lay as (Ed & Lh & FS & FP & CS & CP & S1 & P1).
  assert (byte_ok p /\ byte_ok c) as [Bp Bc]. { rewrite Ed in B. apply bytes_ok_app in B as [_ B]. apply bytes_ok_app in B as [Bc B]. apply bytes_ok_app in B as [_ B]. apply bytes_ok_app in B as [Bp _]. now inversion Bp; inversion Bc; subst. }
  assert (zlen S < 32) by (rewrite CS; apply Z.mod_pos_bound; lia). assert (zlen P < 256) by (unfold byte_ok in Bp; lia). assert (M : avc_marshal (with4s S) (with4s P) = avc_again S P) by (apply avc_again_exact; auto; lia). split; [exact M|]. intros d Ed'. split.
  - rewrite M in Ed'. unfold avc_again in Ed'. remember (224 + zlen S) as w eqn:Ew. destruct (1024 <? _); [discriminate|]. destruct (last S []) as [|b0 [|b1 [|b2 [|b3 t]]]]; try discriminate. injection Ed' as <-. cbn [firstn app]. rewrite Ed. split.
    + intros X. destruct hdr as [|h0 [|h1 [|h2 [|h3 [|h4 [|h5 hdr]]]]]]; try discriminate Lh; [|exfalso; rewrite !zlen_cons in Lh; pose proof (zlen_nonneg hdr); lia]. cbn [app] in X. injection X as <- <- <- <- <- Xc X. split; [reflexivity|]. split; [congruence|].
      apply app_inv_head in X. injection X as _ X. rewrite <- (app_nil_r (lp 2 P)) in X at 1. apply app_inv_head in X. congruence.
    + intros (-> & -> & ->). cbn [app]. rewrite app_nil_r, CP. reflexivity.
  - destruct (C39_avc_record_round_trip (with4s S) (with4s P) d) as (S' & P' & c0 & c1 & c2 & c3 & t & GS & GP & EL & Eu); [now apply sets_go|now apply sets_go|rewrite zlen_with4s; lia|rewrite zlen_with4s; lia|exact Ed'|].
    rewrite (strip_det _ _ _ GS (strip_with4s S)), (strip_det _ _ _ GP (strip_with4s P)) in Eu. eexists. split; [exact Eu|]. cbn [ar_sps ar_pps ar_length_size]. auto.
Qed.
Print Assumptions C162_avc.

(** H.265 record, for sets of the types their arrays stand for: of the SPSs the first rewrite keeps all and the next only the last; from then on nothing changes. *)
Theorem C162_hevc : forall grow data h s d1, bytes_ok data -> zlen data < 2 ^ 63 -> hevc_unmarshal grow data = Ok (h, s) -> hevc_marshal (hs_V s) (hs_S s) (hs_P s) = Ok d1 ->
  hevc_nal_type (bare_of (hd [] (hs_V s))) = 32 -> hevc_nal_type (bare_of (hd [] (hs_S s))) = 33 -> hevc_nal_type (bare_of (last (hs_S s) [])) = 33 -> hevc_nal_type (bare_of (hd [] (hs_P s))) = 34 ->
  exists h1 s1 d2 h2 s2, hevc_unmarshal grow d1 = Ok (h1, s1) /\ hs_V s1 = hs_V s /\ hs_S s1 = [last (hs_S s) []] /\ hs_P s1 = hs_P s /\
    hevc_marshal (hs_V s1) (hs_S s1) (hs_P s1) = Ok d2 /\ (zlen (hs_S s) = 1 -> d2 = d1) /\
    hevc_unmarshal grow d2 = Ok (h2, s2) /\ hs_V s2 = hs_V s1 /\ hs_S s2 = hs_S s1 /\ hs_P s2 = hs_P s1 /\ hevc_marshal (hs_V s2) (hs_S s2) (hs_P s2) = Ok d2.
Proof.
  intros grow data h s d1 B L E M1 T1 T2 T3 T4. destruct (hevc_read_sets grow data h s B L E) as (V & S & P & EV & ES & EP & FV & FS & FP). rewrite EV, ES, EP in *.
  pose proof (proj1 (hevc_again V S P d1 FV FS FP) M1) as (NV & NS & NP & Room & Ed1).
  assert (T1' : hevc_nal_type (hd [] V) = 32) by (destruct V; [exfalso; now apply NV|exact T1]). assert (T2' : hevc_nal_type (hd [] S) = 33) by (destruct S; [exfalso; now apply NS|exact T2]). assert (T4' : hevc_nal_type (hd [] P) = 34) by (destruct P; [exfalso; now apply NP|exact T4]).
  assert (S <> []) as NS' by (intros ->; now apply NS).
  assert (LS : last (with4s S) [] = sc true ++ last S []).
  { clear - NS'. induction S as [|x S IH]; [congruence|]. destruct S as [|y S]; [reflexivity|]. change (last (with4s (x :: y :: S)) []) with (last (with4s (y :: S)) []). change (last (x :: y :: S) []) with (last (y :: S) []). apply IH. discriminate. }
  rewrite LS in *. change (bare_of (sc true ++ last S [])) with (last S []) in T3.
  destruct (C42_hevc_record_partial grow V S P d1 (sets_go _ FV) (sets_go _ FS) (sets_go _ FP) M1 T1' T2' T4') as (s1 & U1 & V1 & P1 & S1 & _).
  assert (FL : Forall set_ok [last S []]). { constructor; [|constructor]. rewrite Forall_forall in FS. apply FS. destruct (exists_last NS') as (m & x & ->). rewrite last_last. apply in_or_app. right. now left. }
  assert (M2 : hevc_marshal (with4s V) (with4s [last S []]) (with4s P) = Ok (hevc_bytes V [last S []] P)).
  { apply hevc_again; auto. pose proof (lp_last S NS'). repeat (split; [assumption|]). split; [intros X; cbn [hd] in X; rewrite X in T3; discriminate T3|]. split; [exact NP|]. split; [lia|reflexivity]. }
  destruct (C42_hevc_record_partial grow V [last S []] P _ (sets_go _ FV) (sets_go _ FL) (sets_go _ FP) M2 T1' T3 T4') as (s2 & U2 & V2 & P2 & S2 & _). cbn [last] in S2.
  exists (header_of hdr0), s1, (hevc_bytes V [last S []] P), (header_of hdr0), s2. rewrite V1, S1, P1, V2, S2, P2. repeat (split; [reflexivity || assumption|]). split; [|repeat (split; [reflexivity || assumption|]); exact M2].
  intros One. rewrite zlen_with4s in One. rewrite Ed1. destruct S as [|x [|y S]]; [discriminate One|reflexivity|]. rewrite !zlen_cons in One. pose proof (zlen_nonneg S). lia.
Qed.
Print Assumptions C162_hevc.

(** The type condition on the first SPS is needed: Unmarshal puts an SPS behind the PPSs read so far, so a record with PPSs in front yields an SPS list that starts with a PPS; written again, that record has no SPS array and is rejected. *)
Lemma hevc_no_sps grow l t s : t mod 64 <> 33 -> hs_sps (add_array grow s (t, l)) = hs_sps s.
Proof.
  intros N. unfold add_array. cbn [fst snd]. revert s. induction l as [|x l IH]; intros s; cbn [fold_left]; [reflexivity|]. rewrite IH. unfold hevc_add. change HevcNalVPS with 32. change HevcNalSPS with 33. change HevcNalPPS with 34.
  destruct (t mod 64 =? 32); [now destruct (ns_append _ _ _ _)|]. destruct (Z.eqb_spec (t mod 64) 33); [contradiction|]. destruct (t mod 64 =? 34); [now destruct (ns_append _ _ _ _)|reflexivity].
Qed.
Theorem C162_hevc_lost : forall grow data h s d1, bytes_ok data -> zlen data < 2 ^ 63 -> hevc_unmarshal grow data = Ok (h, s) -> hevc_marshal (hs_V s) (hs_S s) (hs_P s) = Ok d1 ->
  hevc_nal_type (bare_of (hd [] (hs_V s))) <> 33 -> hevc_nal_type (bare_of (hd [] (hs_S s))) <> 33 -> hevc_nal_type (bare_of (hd [] (hs_P s))) <> 33 -> hevc_unmarshal grow d1 = Err.
Proof.
  intros grow data h s d1 B L E M1 T1 T2 T4. destruct (hevc_read_sets grow data h s B L E) as (V & S & P & EV & ES & EP & FV & FS & FP). rewrite EV, ES, EP in *.
  pose proof (proj1 (hevc_again V S P d1 FV FS FP) M1) as (NV & NS & NP & Room & Ed1).
  assert (T1' : hevc_nal_type (hd [] V) <> 33) by (destruct V; [exfalso; now apply NV|exact T1]). assert (T2' : hevc_nal_type (hd [] S) <> 33) by (destruct S; [exfalso; now apply NS|exact T2]). assert (T4' : hevc_nal_type (hd [] P) <> 33) by (destruct P; [exfalso; now apply NP|exact T4]).
  assert (R : forall n, 0 <= hevc_nal_type n < 64) by (intros n; apply Z.mod_pos_bound; lia).
  assert (A : forall l, Forall set_ok l -> zlen (lp 2 l) <= 1024 -> harray_ok (hevc_nal_type (hd [] l), l)). { intros l Fl Ll. pose proof (R (hd [] l)). pose proof (zlen_lp2 l). split; [unfold byte_ok; cbn [fst]; lia|]. split; [cbn [snd]; lia|exact Fl]. }
  pose proof (zlen_nonneg (lp 2 V)). pose proof (zlen_nonneg (lp 2 S)). pose proof (zlen_nonneg (lp 2 P)).
  pose proof (A V FV ltac:(lia)) as A1. pose proof (A S FS ltac:(lia)) as A2. pose proof (A P FP ltac:(lia)) as A3.
  assert (Lay : hevc_layout d1 hdr0 [(hevc_nal_type (hd [] V), V); (hevc_nal_type (hd [] S), S); (hevc_nal_type (hd [] P), P)] []).
  { split; [rewrite Ed1; unfold hevc_bytes, hevc_array, hdr0; cbn [map concat]; now rewrite !app_nil_r|]. split; [reflexivity|]. split; [auto using Forall_cons, Forall_nil|reflexivity]. }
  assert (Hb : forall a, harray_ok a -> bytes_ok (harray a)).
  { intros [b l] (Hb & _ & Hl). unfold harray. cbn [fst snd] in *. apply bytes_ok_app. split; [now constructor|]. apply bytes_ok_app. split; [apply be_bytes_ok|]. apply lp_ok. eapply Forall_impl; [|exact Hl]. intros n [Hn _]. exact Hn. }
  assert (Bd : bytes_ok d1). { rewrite Ed1. unfold hevc_bytes, hevc_array. apply bytes_ok_app. split; [repeat constructor; unfold byte_ok; lia|]. apply bytes_ok_app. split; [auto|]. apply bytes_ok_app. auto. }
  assert (Ld : zlen d1 < 2 ^ 63). { rewrite Ed1. unfold hevc_bytes. rewrite !zlen_app, !zlen_hevc_array. change (zlen (1 :: zeros 20 ++ [3; 3])) with 23. lia. }
  rewrite (hevc_unmarshal_layout grow d1 _ _ _ Bd Ld Lay). unfold hevc_result, add_arrays. cbn [fold_left]. rewrite !hevc_no_sps by (rewrite Z.mod_small; auto). reflexivity.
Qed.
Print Assumptions C162_hevc_lost.

(** ADTS header: a header written again with the id, profile, rate, channels and length it was read with keeps these and loses the rest; it is the same header iff the rest is what is always written. *)
Lemma pack_step a k w : 0 <= k -> 0 <= w -> a / 2 ^ (k + w) * 2 ^ w + ((a / 2 ^ k) mod 2 ^ w) mod 2 ^ w = a / 2 ^ k.
Proof. intros K W. rewrite Z.pow_add_r by lia. rewrite <- Z.div_div by (try apply Z.pow_pos_nonneg; try apply Z.pow_nonzero; lia). rewrite Z.mod_mod by (apply Z.pow_nonzero; lia). rewrite (Z.div_mod (a / 2 ^ k) (2 ^ w)) at 3 by (apply Z.pow_nonzero; lia). lia. Qed.
Lemma adts_rebuild a : 0 <= a < 2 ^ 56 ->
  a = adts_layout (adts_sync a) (adts_id a) (adts_layer a) (adts_protection_absent a) (adts_profile a) (adts_frequency a) (adts_private a) (adts_channel a) (adts_original a) (adts_home a) (adts_copyright_bit a) (adts_copyright_start a) (adts_frame_length a) (adts_fullness a) (adts_blocks a).
Proof.
  intros H. unfold adts_layout, pack. cbn [fold_left fst snd].
  assert (Eb : adts_blocks a = (a / 2 ^ 0) mod 2 ^ 2). { unfold adts_blocks. rewrite i64_id by (unfold is_i64; lia). change 3 with (Z.ones 2). rewrite Z.land_ones by lia. now rewrite Z.pow_0_r, Z.div_1_r. }
  unfold adts_sync, adts_id, adts_layer, adts_protection_absent, adts_profile, adts_frequency, adts_private, adts_channel, adts_original, adts_home, adts_copyright_bit, adts_copyright_start, adts_frame_length, adts_fullness.
  rewrite (adts_get_spec a 44 4095 12), (adts_get_spec a 43 1 1), (adts_get_spec a 41 3 2), (adts_get_spec a 40 1 1), (adts_get_spec a 38 3 2), (adts_get_spec a 34 15 4), (adts_get_spec a 33 1 1), (adts_get_spec a 30 7 3), (adts_get_spec a 29 1 1), (adts_get_spec a 28 1 1), (adts_get_spec a 27 1 1), (adts_get_spec a 26 1 1), (adts_get_spec a 13 8191 13), (adts_get_spec a 2 2047 11), Eb by (try reflexivity; lia).
  pose proof (pack_step a 44 12 ltac:(lia) ltac:(lia)) as Q. change (44 + 12) with 56 in Q. rewrite (Z.div_small a (2 ^ 56)) in Q by lia. rewrite Q. clear Q.
  pose proof (pack_step a 43 1 ltac:(lia) ltac:(lia)) as Q. change (43 + 1) with 44 in Q. rewrite Q. clear Q.
  pose proof (pack_step a 41 2 ltac:(lia) ltac:(lia)) as Q. change (41 + 2) with 43 in Q. rewrite Q. clear Q.
  pose proof (pack_step a 40 1 ltac:(lia) ltac:(lia)) as Q. change (40 + 1) with 41 in Q. rewrite Q. clear Q.
  pose proof (pack_step a 38 2 ltac:(lia) ltac:(lia)) as Q. change (38 + 2) with 40 in Q. rewrite Q. clear Q.
  pose proof (pack_step a 34 4 ltac:(lia) ltac:(lia)) as Q. change (34 + 4) with 38 in Q. rewrite Q. clear Q.
  pose proof (pack_step a 33 1 ltac:(lia) ltac:(lia)) as Q. change (33 + 1) with 34 in Q. rewrite Q. clear Q.
  pose proof (pack_step a 30 3 ltac:(lia) ltac:(lia)) as Q. change (30 + 3) with 33 in Q. rewrite Q. clear Q.
  pose proof (pack_step a 29 1 ltac:(lia) ltac:(lia)) as Q. change (29 + 1) with 30 in Q. rewrite Q. clear Q.
  pose proof (pack_step a 28 1 ltac:(lia) ltac:(lia)) as Q. change (28 + 1) with 29 in Q. rewrite Q. clear Q.
  pose proof (pack_step a 27 1 ltac:(lia) ltac:(lia)) as Q. change (27 + 1) with 28 in Q. rewrite Q. clear Q.
  pose proof (pack_step a 26 1 ltac:(lia) ltac:(lia)) as Q. change (26 + 1) with 27 in Q. rewrite Q. clear Q.
  pose proof (pack_step a 13 13 ltac:(lia) ltac:(lia)) as Q. change (13 + 13) with 26 in Q. rewrite Q. clear Q.
  pose proof (pack_step a 2 11 ltac:(lia) ltac:(lia)) as Q. change (2 + 11) with 13 in Q. rewrite Q. clear Q.
  pose proof (pack_step a 0 2 ltac:(lia) ltac:(lia)) as Q. change (0 + 2) with 2 in Q. rewrite Q. now rewrite Z.pow_0_r, Z.div_1_r.
Qed.

Definition adts_again (data : list Z) (a : Z) : res (list Z) := set_adts_header data (adts_id a) (adts_profile a) (adts_frequency a) (adts_channel a) (adts_frame_length a).
Theorem C162_adts : forall data a, bytes_ok data -> 7 <= zlen data -> read_adts_fixed_header data = Ok a ->
  exists d a', adts_again data a = Ok d /\ skipn 7 d = skipn 7 data /\ read_adts_fixed_header d = Ok a' /\
    adts_id a' = adts_id a /\ adts_profile a' = adts_profile a /\ adts_frequency a' = adts_frequency a /\ adts_channel a' = adts_channel a /\ adts_frame_length a' = adts_frame_length a /\ adts_again d a' = Ok d /\
    (d = data <-> adts_layer a = 0 /\ adts_protection_absent a = 1 /\ adts_private a = 0 /\ adts_original a = 0 /\ adts_home a = 0 /\ adts_copyright_bit a = 0 /\ adts_copyright_start a = 0 /\ adts_fullness a = 2047 /\ adts_blocks a = 0).
Proof.
  intros data a B L R. rewrite C49_read_exact in R by auto. destruct (be_value (firstn 7 data) / 2 ^ 44 =? 4095) eqn:Y; [|discriminate]. assert (Ea : be_value (firstn 7 data) = a) by congruence.
  destruct (C49_adts_round_trip data (adts_id a) (adts_profile a) (adts_frequency a) (adts_channel a) (adts_frame_length a) L) as (d & a' & E1 & L1 & K1 & F1 & R1 & A1 & A2 & A3 & A4 & A5 & A6 & A7 & A8 & A9 & A10 & A11 & A12 & A13 & A14 & A15).
  assert (Bd : bytes_ok (firstn 7 data)) by now apply bytes_ok_firstn. assert (L7 : length (firstn 7 data) = 7%nat) by (rewrite firstn_length_le; [reflexivity|unfold zlen in L; lia]).
  assert (Ha : 0 <= a < 2 ^ 56) by (rewrite <- Ea; pose proof (be_value_bound _ Bd) as X; unfold zlen in X; rewrite ?L7 in X; exact X).
  assert (G : forall k m w, m = Z.ones w -> 0 <= k -> 0 <= w -> adts_get a k m mod 2 ^ w = adts_get a k m) by (intros; rewrite (adts_get_spec a k m w) by (auto; lia); apply Z.mod_mod; apply Z.pow_nonzero; lia).
  pose proof (G 43 1 1 eq_refl ltac:(lia) ltac:(lia)) as G1. pose proof (G 38 3 2 eq_refl ltac:(lia) ltac:(lia)) as G2. pose proof (G 34 15 4 eq_refl ltac:(lia) ltac:(lia)) as G3. pose proof (G 30 7 3 eq_refl ltac:(lia) ltac:(lia)) as G4. pose proof (G 13 8191 13 eq_refl ltac:(lia) ltac:(lia)) as G5. clear G.
  change (adts_id a mod 2 = adts_id a) in G1. change (adts_profile a mod 4 = adts_profile a) in G2. change (adts_frequency a mod 16 = adts_frequency a) in G3. change (adts_channel a mod 8 = adts_channel a) in G4. change (adts_frame_length a mod 8192 = adts_frame_length a) in G5.
  rewrite G1 in A2. rewrite G2 in A5. rewrite G3 in A6. rewrite G4 in A8. rewrite G5 in A13.
  exists d, a'. split; [exact E1|]. split; [exact K1|]. split; [exact R1|]. do 5 (split; [assumption|]).
  assert (Sp : forall h i p f c n, 7 <= zlen h -> set_adts_header h i p f c n = Ok (adts_bytes i p f c n ++ skipn 7 h)) by (intros; now apply set_adts_ok).
  assert (Dd : d = adts_bytes (adts_id a) (adts_profile a) (adts_frequency a) (adts_channel a) (adts_frame_length a) ++ skipn 7 data) by (rewrite Sp in E1 by exact L; congruence).
  split. { unfold adts_again. rewrite A2, A5, A6, A8, A13, Sp by lia. rewrite K1. now rewrite Dd at 1. }
  assert (V : a' = be_value (firstn 7 d)). { rewrite C49_read_exact in R1 by first [lia|rewrite Dd; apply bytes_ok_app; split; [apply adts_bytes_ok|now apply bytes_ok_skipn]]. destruct (_ =? 4095) in R1; congruence. }
  split.
  - intros X. assert (a' = a) as -> by (rewrite V, X; exact Ea). repeat (split; [assumption|]). exact A15.
  - intros (H1 & H2 & H3 & H4 & H5 & H6 & H7 & H8 & H9). rewrite <- (firstn_skipn 7 d), <- (firstn_skipn 7 data), K1. f_equal. rewrite F1. rewrite <- (be_value_bytes (firstn 7 data)) by exact Bd. rewrite L7, Ea. f_equal.
    rewrite (adts_rebuild a Ha) at 6. rewrite H1, H2, H3, H4, H5, H6, H7, H8, H9. f_equal. unfold adts_sync. rewrite (adts_get_spec a 44 4095 12) by (try reflexivity; lia). rewrite <- Ea. apply Z.eqb_eq in Y. rewrite Y. reflexivity.
Qed.
Print Assumptions C162_adts.

(** A record with another length size, high bits of the count unset and two bytes behind it is put into normal form; an ADTS header with a CRC loses the flag; of two SPSs of an H.265 record the second is left; an H.265 record with the PPS in front is read, and rejected once written again. *)
Definition hevc_rewrite (data : list Z) : res (list Z) := x <- hevc_unmarshal (fun n => n) data;; hevc_marshal (hs_V (snd x)) (hs_S (snd x)) (hs_P (snd x)).
Example C162_example :
  (r <- avc_unmarshal avc_record_zero [1; 66; 0; 30; 1; 1; 0; 4; 103; 66; 192; 30; 1; 0; 1; 104; 7; 7];; avc_marshal (ar_sps r) (ar_pps r)) = Ok [1; 66; 192; 30; 255; 225; 0; 4; 103; 66; 192; 30; 1; 0; 1; 104] /\
  adts_again [255; 240; 80; 128; 46; 127; 252; 9] (be_value [255; 240; 80; 128; 46; 127; 252]) = Ok [255; 241; 80; 128; 46; 127; 252; 9] /\
  hevc_rewrite (hevc_bytes [[64; 1]] [[66; 1]; [66; 2]] [[68; 1]]) = Ok (hevc_bytes [[64; 1]] [[66; 2]] [[68; 1]]) /\
  hevc_rewrite (hdr0 ++ harray (34, [[68; 1]]) ++ harray (32, [[64; 1]]) ++ harray (33, [[66; 1]])) = Ok (hevc_bytes [[64; 1]] [[68; 1]; [66; 1]] [[68; 1]]) /\
  hevc_unmarshal (fun n => n) (hevc_bytes [[64; 1]] [[68; 1]; [66; 1]] [[68; 1]]) = Err.
Proof. repeat (split; [vm_compute; reflexivity|]). vm_compute; reflexivity. Qed.

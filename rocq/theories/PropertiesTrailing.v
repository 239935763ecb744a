(** * PropertiesTrailing: what follows the part that a parser reads (C149). *)
From Verif Require Import Base BitSpec BufioModel NaluModel NaluSpec NaluProofs RecordModel RecordSpec RecordProofs HevcRecordProofs SpsModel AacModel PacketModel PropertiesRecord PropertiesSpsGrammar ReturnsProofs.

(* ---------------------------------------------------------------------------------------- *)
Lemma fsc_loop_more p q : forall f f' i j, (f <= f')%nat -> find_start_code_loop f p i = Ok j -> j < zlen p -> find_start_code_loop f' (p ++ q) i = Ok j.
Proof.
  induction f as [|f IH]; intros f' i j L; cbn [find_start_code_loop]; [discriminate|]. destruct f' as [|f']; [lia|]. cbn [find_start_code_loop].
  pose proof (zlen_nonneg q). rewrite zlen_app. destruct (i <? zlen p) eqn:C; [|intros [= <-]; lia]. destruct (i <? zlen p + zlen q) eqn:C'; [|lia].
  rewrite !idx_app_l by lia. destruct (idx p i); cbn [of_opt bind]; [|discriminate]. destruct (z >? 1); [apply IH; lia|].
  destruct (idx p (i - 1)); cbn [of_opt bind]; [|discriminate]. destruct (negb (z0 =? 0)); [apply IH; lia|].
  destruct (idx p (i - 2)); cbn [of_opt bind]; [|discriminate]. destruct (negb _); [apply IH; lia|auto].
Qed.
Lemma fsc_more p q i n : find_start_code p = Ok (i, n) -> 0 <= i -> find_start_code (p ++ q) = Ok (i, n).
Proof.
  unfold find_start_code. destruct (find_start_code_loop _ p 2) as [j| | |] eqn:E; cbn [bind]; try discriminate.
  destruct (j <? zlen p) eqn:C; [|intros [= <- <-]; lia]. intros H Hi. assert (LE : (S (length p) <= S (length (p ++ q)))%nat) by (rewrite app_length; lia). rewrite (fsc_loop_more p q _ _ _ _ LE E) by lia.
  cbn [bind]. pose proof (zlen_nonneg q). rewrite zlen_app. destruct (j <? zlen p + zlen q) eqn:D; [|lia]. destruct (j >? 3); [|exact H]. now rewrite idx_app_l by lia.
Qed.
Lemma slice_from_more (p q s : list Z) lo : slice_from p lo = Some s -> slice_from (p ++ q) lo = Some (s ++ q).
Proof.
  intros E. pose proof (slice_length _ _ _ _ E) as (_ & L & _). rewrite slice_from_some in E by lia. injection E as <-. rewrite slice_from_some by (rewrite zlen_app; pose proof (zlen_nonneg q); lia).
  f_equal. rewrite skipn_app. f_equal. unfold zlen in L. replace (Z.to_nat lo - length p)%nat with 0%nat by lia. reflexivity.
Qed.
Lemma idx_more (p q : list Z) i b : idx p i = Some b -> idx (p ++ q) i = Some b.
Proof.
  intros E. rewrite idx_app_l; [exact E|]. unfold idx in E. destruct (i <? 0) eqn:N; [discriminate|]. assert (X : nth_error p (Z.to_nat i) <> None) by congruence.
  apply nth_error_Some in X. unfold zlen. lia.
Qed.
Lemma avc_key_more p q : forall f f' i, (f <= f')%nat -> avc_is_key_frame_loop f p i = Ok true -> avc_is_key_frame_loop f' (p ++ q) i = Ok true.
Proof.
  induction f as [|f IH]; intros f' i L; cbn [avc_is_key_frame_loop]; [discriminate|]. destruct f' as [|f']; [lia|]. cbn [avc_is_key_frame_loop]. cbv zeta.
  destruct (slice_from p i) as [s|] eqn:S; cbn [of_opt bind]; [|discriminate]. rewrite (slice_from_more p q s i S). cbn [of_opt bind].
  destruct (find_start_code s) as [[n m]| | |] eqn:F; cbn [bind]; try discriminate. destruct (n <? 0) eqn:N; [discriminate|]. rewrite (fsc_more s q n m F) by lia. cbn [bind]. rewrite N.
  destruct (idx p (i + n)) as [b|] eqn:B; cbn [of_opt bind]; [|discriminate]. rewrite (idx_more p q _ b B). cbn [of_opt bind]. destruct (_ || _ || _ || _); [apply IH; lia|auto].
Qed.
Lemma hevc_key_more p q : forall f f' i, (f <= f')%nat -> hevc_is_key_frame_loop f p i = Ok true -> hevc_is_key_frame_loop f' (p ++ q) i = Ok true.
Proof.
  induction f as [|f IH]; intros f' i L; cbn [hevc_is_key_frame_loop]; [discriminate|]. destruct f' as [|f']; [lia|]. cbn [hevc_is_key_frame_loop]. cbv zeta.
  destruct (slice_from p i) as [s|] eqn:S; cbn [of_opt bind]; [|discriminate]. rewrite (slice_from_more p q s i S). cbn [of_opt bind].
  destruct (find_start_code s) as [[n m]| | |] eqn:F; cbn [bind]; try discriminate. destruct (n <? 0) eqn:N; [discriminate|]. rewrite (fsc_more s q n m F) by lia. cbn [bind]. rewrite N.
  destruct (idx p (i + n)) as [b|] eqn:B; cbn [of_opt bind]; [|discriminate]. rewrite (idx_more p q _ b B). cbn [of_opt bind]. destruct (_ && _); [auto|].
  destruct (_ || _ || _ || _ || _ || _); [apply IH; lia|auto].
Qed.

(** ** C149: a start code that was found stays the first; a key frame stays a key frame. *)
Theorem C149_search : forall p q,
  (forall i n, find_start_code p = Ok (i, n) -> 0 <= i -> find_start_code (p ++ q) = Ok (i, n)) /\
  (avc_is_key_frame p = Ok true -> avc_is_key_frame (p ++ q) = Ok true) /\ (hevc_is_key_frame p = Ok true -> hevc_is_key_frame (p ++ q) = Ok true).
Proof.
  intros p q. split; [intros i n; apply fsc_more|]. unfold avc_is_key_frame, hevc_is_key_frame.
  split; intros E; [eapply avc_key_more|eapply hevc_key_more]; try exact E; rewrite app_length; lia.
Qed.
Print Assumptions C149_search.

(* ---------------------------------------------------------------------------------------- *)
Lemma remove_more p q d : remove_start_code p = Ok d -> remove_start_code (p ++ q) = Ok (d ++ q).
Proof.
  unfold remove_start_code.
  destruct (idx p 0) as [b0|] eqn:B0; cbn [of_opt bind]; [|discriminate]. rewrite (idx_more p q 0 b0 B0). cbn [of_opt bind]. destruct (negb (b0 =? 0)); [now intros [= <-]|].
  destruct (idx p 1) as [b1|] eqn:B1; cbn [of_opt bind]; [|discriminate]. rewrite (idx_more p q 1 b1 B1). cbn [of_opt bind]. destruct (negb (b1 =? 0)); [now intros [= <-]|].
  destruct (idx p 2) as [b2|] eqn:B2; cbn [of_opt bind]; [|discriminate]. rewrite (idx_more p q 2 b2 B2). cbn [of_opt bind].
  destruct (b2 =? 1). { intros E. apply of_opt_ok in E. now rewrite (slice_from_more p q _ _ E). }
  destruct (b2 =? 0); [|now intros [= <-]].
  destruct (idx p 3) as [b3|] eqn:B3; cbn [of_opt bind]; [|discriminate]. rewrite (idx_more p q 3 b3 B3). cbn [of_opt bind].
  destruct (b3 =? 1); [|now intros [= <-]]. intros E. apply of_opt_ok in E. now rewrite (slice_from_more p q _ _ E).
Qed.
Lemma rbsp_head x t : exists w, nal2rbsp (x :: t) = x :: w.
Proof.
  cbn [nal2rbsp]. destruct t as [|y [|z t]]; [eexists; reflexivity|eexists; reflexivity|].
  destruct ((x =? 0) && (y =? 0) && (z =? 3)) eqn:C; [|eexists; reflexivity]. replace x with 0 by lia. eexists; reflexivity.
Qed.
Lemma rbsp_more q : forall n p, (length p <= n)%nat -> exists w, nal2rbsp (p ++ q) = nal2rbsp p ++ w.
Proof.
  induction n as [|n IH]; intros p L; [destruct p; [|cbn in L; lia]; exists (nal2rbsp q); reflexivity|].
  destruct p as [|x p]; [exists (nal2rbsp q); reflexivity|]. destruct p as [|y p].
  - destruct (rbsp_head x q) as [w E]. exists w. exact E.
  - destruct p as [|z p].
    + destruct q as [|z t]; [exists []; now rewrite !app_nil_r|]. change ([x; y] ++ z :: t) with (x :: y :: z :: t). cbn [length] in L.
      change (nal2rbsp (x :: y :: z :: t)) with (if (x =? 0) && (y =? 0) && (z =? 3) then 0 :: 0 :: nal2rbsp t else x :: nal2rbsp (y :: z :: t)).
      destruct ((x =? 0) && (y =? 0) && (z =? 3)) eqn:C.
      * replace x with 0 by lia. replace y with 0 by lia. exists (nal2rbsp t). reflexivity.
      * destruct (rbsp_head y (z :: t)) as [w E]. rewrite E. exists w. reflexivity.
    + change ((x :: y :: z :: p) ++ q) with (x :: y :: z :: p ++ q). cbn [length] in L.
      change (nal2rbsp (x :: y :: z :: p ++ q)) with (if (x =? 0) && (y =? 0) && (z =? 3) then 0 :: 0 :: nal2rbsp (p ++ q) else x :: nal2rbsp ((y :: z :: p) ++ q)).
      change (nal2rbsp (x :: y :: z :: p)) with (if (x =? 0) && (y =? 0) && (z =? 3) then 0 :: 0 :: nal2rbsp p else x :: nal2rbsp (y :: z :: p)).
      destruct ((x =? 0) && (y =? 0) && (z =? 3)).
      * destruct (IH p ltac:(lia)) as [w ->]. exists w. reflexivity.
      * destruct (IH (y :: z :: p) ltac:(cbn [length]; lia)) as [w ->]. exists w. reflexivity.
Qed.

(** ** C149: a sequence parameter set means the same with bytes after it. *)
Theorem C149_sps : forall p q,
  (forall s, avc_parse_sps p = Ok s -> avc_parse_sps (p ++ q) = Ok s) /\ (forall s, hevc_parse_sps p = Ok s -> hevc_parse_sps (p ++ q) = Ok s).
Proof.
  intros p q. split; intros s E.
  - apply C113_avc_exact in E as (d & D & w & bs & rest & B & F & R). apply C113_avc_exact. exists (d ++ q). split; [now apply remove_more|].
    exists w, bs, (rest ++ bits_of_bytes q). split; [now rewrite bits_of_bytes_app, B, app_assoc|]. now split.
  - apply C114_hevc_exact in E as (h0 & h1 & d & D & w & bs & rest & B & F & R). apply C114_hevc_exact. exists h0, h1, (d ++ q). split; [exact (remove_more p q _ D)|].
    destruct (rbsp_more q _ d (Nat.le_refl _)) as [x X]. exists w, bs, (rest ++ bits_of_bytes x). split; [now rewrite X, bits_of_bytes_app, B, app_assoc|]. now split.
Qed.
Print Assumptions C149_sps.

(** ** C149: so does a decoder configuration record. *)
Theorem C149_record : forall grow a p q, bytes_ok (p ++ q) -> zlen (p ++ q) < 2 ^ 63 ->
  (forall r, avc_unmarshal a p = Ok r -> avc_unmarshal a (p ++ q) = Ok r) /\ (forall r, avc_extra_to_annexb p = Ok r -> avc_extra_to_annexb (p ++ q) = Ok r) /\
  (forall r, hevc_unmarshal grow p = Ok r -> hevc_unmarshal grow (p ++ q) = Ok r) /\ (forall r, hevc_extra_to_annexb grow p = Ok r -> hevc_extra_to_annexb grow (p ++ q) = Ok r).
Proof.
  intros grow a p q B L. assert (Bp : bytes_ok p) by (apply Forall_app in B; tauto). assert (Lp : zlen p < 2 ^ 63) by (rewrite zlen_app in L; pose proof (zlen_nonneg q); lia).
  assert (AV : (forall r, avc_unmarshal a p = Ok r -> avc_unmarshal a (p ++ q) = Ok r) /\ (forall r, avc_extra_to_annexb p = Ok r -> avc_extra_to_annexb (p ++ q) = Ok r)).
  { destruct (C40_avc_record_total a p Bp Lp) as [(hdr & c & S & n & P & tail & (Lay & K) & E1 & E2)|(_ & E1 & E2)]; [|split; congruence].
    assert (LQ : avc_layout (p ++ q) hdr c S n P (tail ++ q)) by (split; [rewrite Lay; now rewrite <- !app_assoc|exact K]).
    rewrite (avc_unmarshal_layout a _ _ _ _ _ _ _ B L LQ), (avc_extra_layout _ _ _ _ _ _ _ B L LQ). split; congruence. }
  destruct AV as [A1 A2]. split; [exact A1|]. split; [exact A2|].
  destruct (hevc_unmarshal_dec grow p Bp Lp) as [(hdr & arrs & tail & Lay)|E].
  - assert (LQ : hevc_layout (p ++ q) hdr arrs (tail ++ q)) by (destruct Lay as [Lay K]; split; [rewrite Lay; now rewrite <- !app_assoc|exact K]).
    rewrite (hevc_unmarshal_layout grow _ _ _ _ Bp Lp Lay), (hevc_extra_layout grow _ _ _ _ Bp Lp Lay), (hevc_unmarshal_layout grow _ _ _ _ B L LQ), (hevc_extra_layout grow _ _ _ _ B L LQ).
    auto.
  - unfold hevc_extra_to_annexb. rewrite E. cbn [bind]. split; discriminate.
Qed.
Print Assumptions C149_record.

(** ** C149: the audio headers *)
Theorem C149_audio : forall p q,
  (forall c, parse_asc p = Ok c -> parse_asc (p ++ q) = Ok c) /\ (forall h, read_adts_fixed_header p = Ok h -> read_adts_fixed_header (p ++ q) = Ok h) /\
  (forall codec r, extract_audio_extra_data codec p = Ok r -> extract_audio_extra_data codec (p ++ q) = Ok r).
Proof.
  intros p q.
  assert (BG : forall n l m v, be_get n l = Ok v -> be_get n (l ++ m) = Ok v).
  { intros n l m v. unfold be_get. destruct (slice l 0 (Z.of_nat n)) as [s|] eqn:S; cbn [of_opt bind]; [|discriminate]. intros [= <-].
    pose proof (slice_length _ _ _ _ S) as (_ & H1 & H2). rewrite slice_some in S by lia. injection S as <-. pose proof (zlen_nonneg m). rewrite slice_some by (rewrite ?zlen_app; lia). cbn [of_opt bind].
    do 2 f_equal. change (Z.to_nat 0) with 0%nat. cbn [skipn]. rewrite firstn_app. unfold zlen in H2. replace (Z.to_nat (Z.of_nat n - 0) - length l)%nat with 0%nat by lia. cbn [firstn]. now rewrite app_nil_r. }
  assert (AD : forall h, read_adts_fixed_header p = Ok h -> read_adts_fixed_header (p ++ q) = Ok h).
  { intros h. unfold read_adts_fixed_header. cbv zeta. destruct (be_get 2 p) as [w| | |] eqn:W; cbn [bind]; try discriminate. rewrite (BG _ _ q _ W). cbn [bind].
    destruct (negb _); [discriminate|].
    destruct (idx p 0) as [b0|] eqn:B0; cbn [of_opt bind]; [|discriminate]. rewrite (idx_more p q 0 b0 B0). cbn [of_opt bind].
    destruct (idx p 1) as [b1|] eqn:B1; cbn [of_opt bind]; [|discriminate]. rewrite (idx_more p q 1 b1 B1). cbn [of_opt bind].
    destruct (idx p 2) as [b2|] eqn:B2; cbn [of_opt bind]; [|discriminate]. rewrite (idx_more p q 2 b2 B2). cbn [of_opt bind].
    destruct (slice_from p 3) as [s|] eqn:S; cbn [of_opt bind]; [|discriminate]. rewrite (slice_from_more p q s 3 S). cbn [of_opt bind].
    destruct (be_get 4 s) as [lo| | |] eqn:Lo; cbn [bind]; try discriminate. now rewrite (BG _ _ q _ Lo). }
  split; [|split; [exact AD|]].
  - intros c. unfold parse_asc. cbv zeta.
    destruct (idx p 0) as [b0|] eqn:B0; cbn [of_opt bind]; [|discriminate]. rewrite (idx_more p q 0 b0 B0). cbn [of_opt bind].
    destruct (idx p 1) as [b1|] eqn:B1; cbn [of_opt bind]; [|discriminate]. rewrite (idx_more p q 1 b1 B1). cbn [of_opt bind]. auto.
  - intros codec r. unfold extract_audio_extra_data. destruct (codec =? AVCodecIdAAC); [|auto]. pose proof (zlen_nonneg q). rewrite zlen_app.
    destruct (zlen p <? 7) eqn:C; [discriminate|]. destruct (zlen p + zlen q <? 7) eqn:D; [lia|]. cbv zeta.
    destruct (read_adts_fixed_header p) as [h| | |]; cbn [bind]; try discriminate. rewrite (AD h eq_refl). cbn [bind]. auto.
Qed.
Print Assumptions C149_audio.

(** The other direction fails: more bytes may make a rejected input acceptable. M4VCExtraDataToAnnexB looks at the number of bytes that follow:
    a record with one parameter set and nothing after it is converted, with three bytes after it no more. *)
Example C149_example :
  find_start_code [9; 0; 0; 1; 7] = Ok (4, 3) /\ find_start_code ([9; 0; 0; 1; 7] ++ [0; 0; 0; 1]) = Ok (4, 3) /\ find_start_code ([9; 0; 0; 1] ++ [7]) = Ok (4, 3) /\ find_start_code [9; 0; 0; 1] = Ok (-1, -1) /\
  avc_is_key_frame [0; 0; 1; 103; 0; 0; 1; 101; 9] = Ok true /\ avc_is_key_frame ([0; 0; 1; 103; 0; 0; 1; 101; 9] ++ [0; 0; 1; 65; 9]) = Ok true /\
  m4vc_extra_to_annexb [1; 66; 0; 30; 255; 225; 0; 2; 103; 66] = Ok [0; 0; 0; 1; 103; 66] /\ m4vc_extra_to_annexb ([1; 66; 0; 30; 255; 225; 0; 2; 103; 66] ++ [1; 0; 9]) <> Ok [0; 0; 0; 1; 103; 66].
Proof. repeat split; try (vm_compute; reflexivity). vm_compute. congruence. Qed.

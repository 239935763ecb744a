(** * PropertiesSps: C45-C48, C82-C84 - sequence parameter sets. *)
From Verif Require Import Base BitSpec BufioModel GolombProofs RingProofs NaluModel NaluSpec NaluProofs SplitProofs RecordModel RecordSpec RecordProofs HevcRecordProofs
  FloatModel ConvertProofs SpsModel SpsSpec SpsProofs.

Lemma remove_nonzero x l : x <> 0 -> remove_start_code (x :: l) = Ok (x :: l).
Proof. intros H. unfold remove_start_code. rewrite idx_cons_0. cbn [of_opt bind]. replace (x =? 0) with false by lia. reflexivity. Qed.

(* ---------------------------------------------------------------------------------------- *)
(** ** C45: emulation prevention is undone before parsing an HEVC SPS. *)
Theorem C45_hevc_unescape : forall p, bytes_ok p -> nal2rbsp (escape p) = p.
Proof. exact nal2rbsp_escape0. Qed.

(** Escaping the whole unit (the second header byte carries temporal_id_plus1, never 0) and parsing it reads the RBSP [p]. *)
Theorem C45_hevc_parse_escaped : forall four h0 h1 p, bytes_ok p -> h1 <> 0 ->
  hevc_parse_sps (sc four ++ escape (h0 :: h1 :: p)) = snd (hevc_sps_body (golomb_new p)) /\
  (h0 <> 0 -> hevc_parse_sps (escape (h0 :: h1 :: p)) = snd (hevc_sps_body (golomb_new p))) /\
  (nal2rbsp p = p -> hevc_parse_sps (sc four ++ escape (h0 :: h1 :: p)) = hevc_parse_sps (sc four ++ h0 :: h1 :: p)).
Proof.
  intros four h0 h1 p B H1. rewrite escape_header by exact H1.
  assert (P : forall x, (if zlen (h0 :: h1 :: x) <? 2 then Err else payload <- of_opt (slice_from (h0 :: h1 :: x) 2);; snd (hevc_sps_body (golomb_new (nal2rbsp payload)))) =
                        snd (hevc_sps_body (golomb_new (nal2rbsp x)))).
  { intros x. rewrite !zlen_cons. pose proof (zlen_nonneg x). replace (1 + (1 + zlen x) <? 2) with false by lia.
    change (h0 :: h1 :: x) with ([h0; h1] ++ x). change 2 with (zlen [h0; h1]) at 1. rewrite slice_from_app. reflexivity. }
  assert (Q : hevc_parse_sps (sc four ++ h0 :: h1 :: escape p) = snd (hevc_sps_body (golomb_new p))).
  { unfold hevc_parse_sps. rewrite remove_sc. cbn [bind]. rewrite P, nal2rbsp_escape0 by exact B. reflexivity. }
  split; [exact Q|]. split.
  - intros H0. unfold hevc_parse_sps. rewrite remove_nonzero by exact H0. cbn [bind]. rewrite P, nal2rbsp_escape0 by exact B. reflexivity.
  - intros E. rewrite Q. unfold hevc_parse_sps. rewrite remove_sc. cbn [bind]. rewrite P, E. reflexivity.
Qed.

(** The escaped unit never imitates a start code. *)
Theorem C45_escape_no_start_code : forall p, bytes_ok p -> no_imitation (escape p).
Proof. intros p B. apply (escape_no_imitation p 0); [lia|]. eapply Forall_impl; [|exact B]. unfold byte_ok. intros; lia. Qed.

Example C45_example : escape [1; 0; 0; 0; 0; 3; 0; 0] = [1; 0; 0; 3; 0; 0; 3; 3; 0; 0; 3] /\ nal2rbsp [1; 0; 0; 3; 0; 0; 3; 3; 0; 0; 3] = [1; 0; 0; 0; 0; 3; 0; 0].
Proof. split; vm_compute; reflexivity. Qed.
Print Assumptions C45_hevc_unescape.
Print Assumptions C45_hevc_parse_escaped.
Print Assumptions C45_escape_no_start_code.

(* ---------------------------------------------------------------------------------------- *)
(** ** C46: H.264 SPS dimensions. *)

(** The full claim for one syntax structure. *)
Definition parses_right (p : sps264) : Prop := forall d rest four, bytes_ok d -> bits_of_bytes d = sps264_bits p ++ rest ->
  exists s, avc_parse_sps (sc four ++ d) = Ok s /\ as_id s = p_id p /\ as_profile s = p_profile p /\ as_level s = p_level p /\
    as_width s = width264 p /\ as_height s = height264 p.

Definition hp (chroma : Z) (scaling : option (list (option (list Z)))) : high264 :=
  {| h_chroma := chroma; h_separate := false; h_luma := 0; h_depth_chroma := 0; h_bypass := false; h_scaling := scaling |}.
Definition sps_of (profile : Z) (h : high264) (units : Z) (mbs_only : bool) (crop : option (Z * Z * Z * Z)) (vui : option vui264) : sps264 :=
  {| p_header := 103; p_profile := profile; p_constraint := 0; p_level := 40; p_id := 0; p_high := h; p_log2_frame := 0; p_poc := Poc0 2;
     p_max_ref := 4; p_gaps := false; p_mbw := 119; p_map_units := units; p_mbs_only := mbs_only; p_adaptive := true; p_direct := true;
     p_crop := crop; p_vui := vui |}.

(** 1080i: field coding doubles the vertical crop unit. *)
Definition w_field : sps264 := sps_of 100 (hp 1 None) 33 false (Some (0, 0, 0, 2)) None.
(** 4:4:4 1080p: the crop units are 1. *)
Definition w_444 : sps264 := sps_of 244 (hp 3 None) 67 true (Some (0, 0, 0, 8)) None.
(** Multiview high profile (118 is known to the code, 128 is not). *)
Definition w_stereo : sps264 := sps_of 128 (hp 1 None) 67 true (Some (0, 0, 0, 4)) None.
(** 4:4:4 with scaling lists: there are 12 of them. *)
Definition w_scaling : sps264 := sps_of 244 (hp 3 (Some (repeat None 12))) 67 true None None.

Lemma not_right p d rest s : sps264_ok p -> bytes_ok d -> bits_of_bytes d = sps264_bits p ++ rest -> avc_parse_sps (sc true ++ d) = s ->
  (forall v, s = Ok v -> as_width v <> width264 p \/ as_height v <> height264 p) -> ~ parses_right p.
Proof.
  intros _ B E Es H R. destruct (R d rest true B E) as (v & Ev & _ & _ & _ & Hw & Hh). rewrite Es in Ev. destruct (H v Ev); congruence.
Qed.

Lemma w_ok p : p = w_field \/ p = w_444 \/ p = w_stereo \/ p = w_scaling -> sps264_ok p.
Proof.
  intros [->|[->|[->| ->]]]; unfold sps264_ok, high_ok, poc_ok, crop_ok, u_ok, ue_ok, opt_ok; cbn -[Z.pow]; change (2 ^ 32) with 4294967296; change (2 ^ 8) with 256; repeat split; lia.
Qed.

Theorem C46_avc_dimensions_refuted :
  (sps264_ok w_field /\ ~ parses_right w_field) /\ (sps264_ok w_444 /\ ~ parses_right w_444) /\
  (sps264_ok w_stereo /\ ~ parses_right w_stereo) /\ (sps264_ok w_scaling /\ ~ parses_right w_scaling).
Proof.
  assert (BO : forall l, forallb (fun b => (0 <=? b) && (b <? 256)) l = true -> bytes_ok l).
  { intros l H. unfold bytes_ok. apply Forall_forall. intros x I. rewrite forallb_forall in H. specialize (H x I). unfold byte_ok. lia. }
  assert (K : forall p s, sps264_ok p -> let d := pack (sps264_bits p ++ [true]) in
     forallb (fun b => (0 <=? b) && (b <? 256)) d = true -> bits_of_bytes d = sps264_bits p ++ skipn (length (sps264_bits p)) (bits_of_bytes d) ->
     avc_parse_sps (sc true ++ d) = s -> (forall v, s = Ok v -> as_width v <> width264 p \/ as_height v <> height264 p) -> sps264_ok p /\ ~ parses_right p).
  { intros p s O d B E Es H. split; [exact O|]. eapply not_right; eauto. }
  split; [|split; [|split]].
  - eapply K; [apply w_ok; auto|vm_compute; reflexivity|vm_compute; reflexivity|vm_compute; reflexivity|].
    intros v Ev. injection Ev as <-. right. vm_compute. discriminate.
  - eapply K; [apply w_ok; auto|vm_compute; reflexivity|vm_compute; reflexivity|vm_compute; reflexivity|].
    intros v Ev. injection Ev as <-. right. vm_compute. discriminate.
  - eapply K; [apply w_ok; auto|vm_compute; reflexivity|vm_compute; reflexivity|vm_compute; reflexivity|].
    intros v Ev. first [discriminate Ev | injection Ev as <-; left; vm_compute; discriminate].
  - eapply K; [apply w_ok; auto 6|vm_compute; reflexivity|vm_compute; reflexivity|vm_compute; reflexivity|].
    intros v Ev. first [discriminate Ev | injection Ev as <-; left; vm_compute; discriminate].
Qed.

Lemma first_byte_0 h t r : 0 <= h < 256 -> bits_of_bytes (0 :: t) = be_bits 8 h ++ r -> h = 0.
Proof.
  intros H E. apply (f_equal (firstn 8)) in E. change (firstn 8 (bits_of_bytes (0 :: t))) with (bits_of_byte 0) in E. change (firstn 8 (be_bits 8 h ++ r)) with (be_bits 8 h) in E.
  apply (f_equal bits_value) in E. rewrite be_bits_value in E. change (Z.of_nat 8) with 8 in E. change (bits_value (bits_of_byte 0)) with 0 in E. rewrite Z.mod_small in E by exact H. now symmetry.
Qed.

(** For every syntax structure of a profile the code knows (for 4:4:4: without scaling lists) the parser reads exactly its fields, and the
    dimensions are right if and only if the crop units are 2 or nothing is cropped in that direction; in particular for all
    progressive 4:2:0 streams. *)
Theorem C46_avc_dimensions_partial : forall p d rest data four, sps264_ok p ->
  ~ In (p_profile p) [128; 138; 139; 134; 135] -> (high_profile (p_profile p) = true -> h_chroma (p_high p) = 3 -> h_scaling (p_high p) = None) ->
  bits_of_bytes d = sps264_bits p ++ rest -> data = sc four ++ d \/ (data = d /\ p_header p <> 0) ->
  exists s, avc_parse_sps data = Ok s /\ as_id s = p_id p /\ as_profile s = p_profile p /\ as_level s = p_level p /\ as_constraint s = p_constraint p / 4 /\
    as_mbw s = p_mbw p + 1 /\ as_mbh s = p_map_units p + 1 /\ (as_cl s, as_cr s, as_ct s, as_cb s) = crop_of p /\
    as_width s = 16 * (p_mbw p + 1) - 2 * (as_cl s + as_cr s) /\
    as_height s = 16 * (field_factor p * (p_map_units p + 1)) - 2 * (as_ct s + as_cb s) /\
    (as_width s = width264 p <-> crop_unit_x p = 2 \/ as_cl s + as_cr s = 0) /\
    (as_height s = height264 p <-> crop_unit_y p = 2 \/ as_ct s + as_cb s = 0) /\
    (chroma_array_type p = 1 -> p_mbs_only p = true -> as_width s = width264 p /\ as_height s = height264 p) /\
    as_fps s = match timing_of p with Some (n, sc, _) => sps_fps sc n | None => Some 0 end.
Proof.
  intros p d rest data four O HI H444 B D.
  assert (Hh : avc_is_high (p_profile p) = high_profile (p_profile p)).
  { rewrite is_high_spec. replace (existsb _ _) with false; [now rewrite orb_false_r|]. symmetry. apply not_true_is_false. intros H. apply existsb_exists in H as (x & I & E).
    apply HI. apply Z.eqb_eq in E. now subst x. }
  pose proof (reads_sps p O Hh H444) as R.
  assert (E : avc_parse_sps data = Ok (sps264_value p)).
  { assert (S0 : snd (avc_sps_body (golomb_new d)) = Ok (sps264_value p)).
    { destruct (R (golomb_new d) rest (golomb_new_wf d)) as (g' & Eg & _); [rewrite golomb_new_bits; exact B|]. now rewrite Eg. }
    unfold avc_parse_sps. destruct D as [->|[-> Hz]].
    - rewrite remove_sc. exact S0.
    - destruct d as [|x t].
      + unfold sps264_bits in B. cbn [concat] in B. apply (f_equal (@length bool)) in B. cbn [bits_of_bytes flat_map length] in B. rewrite !app_length in B. unfold u in B. rewrite be_bits_length in B. lia.
      + assert (x <> 0).
        { intros ->. apply Hz. destruct O as (O0 & _). unfold sps264_bits in B. cbn [concat] in B. rewrite <- app_assoc in B.
          exact (first_byte_0 (p_header p) t _ O0 B). }
        rewrite remove_nonzero by assumption. exact S0. }
  exists (sps264_value p). split; [exact E|]. unfold sps264_value, width264, height264. destruct (crop_of p) as [[[l r] t] b].
  cbn [as_id as_profile as_level as_constraint as_mbw as_mbh as_cl as_cr as_ct as_cb as_width as_height as_fps].
  do 9 (split; [reflexivity|]). 
  assert (F : field_factor p = 1 \/ field_factor p = 2) by (unfold field_factor; destruct (p_mbs_only p); auto).
  set (M := field_factor p * (p_map_units p + 1)). clearbody M.
  assert (X1 : crop_unit_x p = 1 \/ crop_unit_x p = 2) by (unfold crop_unit_x; destruct (chroma_array_type p) as [|[[]|[]|]|]; auto).
  assert (Y1 : crop_unit_y p = 1 \/ crop_unit_y p = 2 \/ crop_unit_y p = 4).
  { unfold crop_unit_y. destruct (chroma_array_type p) as [|[[]|[]|]|]; destruct F as [-> | ->]; auto. }
  split; [destruct X1 as [-> | ->]; lia|]. split; [destruct Y1 as [-> | [-> | ->]]; lia|]. split; [|reflexivity].
  intros C M1. unfold crop_unit_x, crop_unit_y, field_factor. rewrite C, M1. lia.
Qed.

(** The frame rate, when timing information is present with a nonzero tick: floor (time_scale / (2 num_units_in_tick)), computed in floating point without error. *)
Theorem C46_avc_fps : forall p d rest four, sps264_ok p ->
  ~ In (p_profile p) [128; 138; 139; 134; 135] -> (high_profile (p_profile p) = true -> h_chroma (p_high p) = 3 -> h_scaling (p_high p) = None) ->
  (forall n s f, timing_of p = Some (n, s, f) -> n <> 0) ->
  bits_of_bytes d = sps264_bits p ++ rest -> exists s, avc_parse_sps (sc four ++ d) = Ok s /\ as_fps s = Some (fps264 p).
Proof.
  intros p d rest four O HI H4 Hn B. destruct (C46_avc_dimensions_partial p d rest _ four O HI H4 B (or_introl eq_refl)) as (s & E & _ & _ & _ & _ & _ & _ & _ & _ & _ & _ & _ & _ & F).
  exists s. split; [exact E|]. rewrite F. unfold fps264. destruct (timing_of p) as [[[n sc] f]|] eqn:T; [|reflexivity].
  specialize (Hn n sc f eq_refl). assert (timing_ok (n, sc, f)) as (N & S0).
  { unfold timing_of in T. destruct O as (_ & _ & _ & _ & _ & _ & _ & _ & _ & _ & _ & _ & V). destruct (p_vui p) as [v|]; [|discriminate]. destruct V as (_ & _ & _ & V). now rewrite T in V. }
  unfold u_ok in *. apply fps_exact; lia.
Qed.

(** A 1080p stream with scaling lists, cropping and VUI timing. *)
Definition vui_ex : vui264 := {| v_aspect := Some (255, (4, 3)); v_overscan := Some true; v_signal := Some (5, false, Some (1, 1, 1)); v_chroma_loc := Some (2, 1); v_timing := Some (1001, 60000, true) |}.
Definition sps_ex : sps264 := sps_of 100 (hp 1 (Some ([Some [-8]; None; Some (repeat 1 16); None; None; None; Some [-8]; None]))) 67 true (Some (0, 0, 0, 4)) (Some vui_ex).
Example C46_example : sps264_ok sps_ex /\ width264 sps_ex = 1920 /\ height264 sps_ex = 1080 /\
  exists s, avc_parse_sps (sc true ++ pack (sps264_bits sps_ex ++ [true])) = Ok s /\ as_width s = 1920 /\ as_height s = 1080 /\ as_fps s = Some 29.
Proof.
  split.
  - vm_compute. repeat split; intros; discriminate.
  - split; [reflexivity|]. split; [reflexivity|]. eexists. split; [vm_compute; reflexivity|]. repeat split; vm_compute; reflexivity.
Qed.
Print Assumptions C46_avc_dimensions_refuted.
Print Assumptions C46_avc_dimensions_partial.
Print Assumptions C46_avc_fps.

(* ---------------------------------------------------------------------------------------- *)
(** ** C47: H.264 SPS parsing is total (for every slice of at least 4 bytes; a shorter one made of zeros panics in RemoveStartCode). *)
Lemma remove_total data : 4 <= zlen data -> exists d, remove_start_code data = Ok d.
Proof.
  intros L. destruct data as [|a [|b [|c [|e t]]]]; try (exfalso; cbn in L; lia). unfold remove_start_code.
  change (idx (a :: b :: c :: e :: t) 0) with (Some a). change (idx (a :: b :: c :: e :: t) 1) with (Some b). change (idx (a :: b :: c :: e :: t) 2) with (Some c). change (idx (a :: b :: c :: e :: t) 3) with (Some e).
  cbn [of_opt bind]. assert (S3 : slice_from (a :: b :: c :: e :: t) 3 = Some (e :: t)) by exact (slice_from_app [a; b; c] (e :: t)).
  assert (S4 : slice_from (a :: b :: c :: e :: t) 4 = Some t) by exact (slice_from_app [a; b; c; e] t). rewrite S3, S4. cbn [of_opt].
  repeat (destruct (_ =? _); cbn [negb]; try (eexists; reflexivity)).
Qed.

Theorem C47_avc_sps_total : forall data, 4 <= zlen data -> avc_parse_sps data = Err \/ exists s, avc_parse_sps data = Ok s.
Proof.
  intros data L. unfold avc_parse_sps. destruct (remove_total data L) as [d ->]. cbn [bind]. apply tot_res, tot_avc_body.
Qed.
(** The bound is needed. *)
Example C47_short : avc_parse_sps [] = Panic /\ avc_parse_sps [0; 0; 0] = Panic /\ avc_parse_sps [103] = Err.
Proof. repeat split; vm_compute; reflexivity. Qed.
Example C47_example : avc_parse_sps [0; 0; 1; 103; 66; 0; 30; 255; 255] = Err /\
  (exists s, avc_parse_sps [0; 0; 0; 1; 103; 66; 0; 31; 149; 168; 20; 1; 110; 64] = Ok s /\ as_width s = 1280 /\ as_height s = 720).
Proof. split; [vm_compute; reflexivity|]. eexists. split; [vm_compute; reflexivity|]. split; vm_compute; reflexivity. Qed.
Print Assumptions C47_avc_sps_total.

(* ---------------------------------------------------------------------------------------- *)
(** ** C48: HEVC SPS dimensions. *)
Definition parses_right265 (q : sps265) : Prop := forall p rest h0 h1 four, bytes_ok p -> h1 <> 0 -> bits_of_bytes p = sps265_bits q ++ rest ->
  exists s, hevc_parse_sps (sc four ++ escape (h0 :: h1 :: p)) = Ok s /\ hsp_width s = width265 q /\ hsp_height s = height265 q.

(** 1920x1080 is coded as 1920x1088 with a conformance window. *)
Definition ptl_ex : ptl265 := {| t_space := 0; t_tier := false; t_idc := 1; t_compat := 1610612736; t_constraint := 158329674399744; t_level := 120;
  t_subs := [{| sl_profile := Some (1, 2, 3); sl_level := Some 93 |}; {| sl_profile := None; sl_level := Some 90 |}] |}.
Definition q_of (w : option (Z * Z * Z * Z)) : sps265 :=
  {| q_vps := 0; q_nesting := true; q_ptl := ptl_ex; q_id := 0; q_chroma := 1; q_separate := false; q_width := 1920; q_height := 1088; q_window := w; q_luma := 0; q_depth_chroma := 0;
     q_log2_poc := 4; q_ordering_present := true; q_ordering := [(4, 0, 0); (4, 2, 0); (4, 2, 5)]; q_tail := (0, 3, 0, 3, 1, 1) |}.
Lemma q_ok w : opt_ok crop_ok w -> sps265_ok (q_of w).
Proof.
  intros H. unfold sps265_ok, ptl_ok, ordering_ok, tail_ok, u_ok, ue_ok. cbn [q_of q_vps q_ptl q_id q_chroma q_width q_height q_window q_luma q_depth_chroma q_log2_poc q_ordering q_ordering_present q_tail
    ptl_ex t_space t_idc t_compat t_constraint t_level t_subs length].
  change (2 ^ 4) with 16. change (2 ^ 2) with 4. change (2 ^ 5) with 32. change (2 ^ 32) with 4294967296. change (2 ^ 48) with 281474976710656. change (2 ^ 8) with 256.
  repeat (split; [try lia; try exact H; try (split; lia)|]). { repeat constructor; lia. } lia.
Qed.

Theorem C48_hevc_dimensions_refuted : exists q, sps265_ok q /\ ~ parses_right265 q.
Proof.
  exists (q_of (Some (0, 0, 0, 4))). split; [apply q_ok; cbn -[Z.pow]; unfold ue_ok; lia|]. intros R.
  destruct (R (pack (sps265_bits (q_of (Some (0, 0, 0, 4))))) (skipn (length (sps265_bits (q_of (Some (0, 0, 0, 4))))) (bits_of_bytes (pack (sps265_bits (q_of (Some (0, 0, 0, 4))))))) 66 1 true) as (s & E & _ & H).
  - unfold bytes_ok. apply Forall_forall. intros x I.
    assert (T : forallb (fun b => (0 <=? b) && (b <? 256)) (pack (sps265_bits (q_of (Some (0, 0, 0, 4))))) = true) by (vm_compute; reflexivity).
    rewrite forallb_forall in T. specialize (T x I). unfold byte_ok. lia.
  - lia.
  - vm_compute. reflexivity.
  - vm_compute in E. injection E as <-. vm_compute in H. discriminate.
Qed.

(** For every syntax structure with any number of sub-layers the parser skips exactly the optional parts and returns the coded size, level, tier and profile;
    this is the displayed size exactly when the conformance window is empty in that direction. *)
Theorem C48_hevc_dimensions_partial : forall q p rest h0 h1 four, sps265_ok q -> bytes_ok p -> h1 <> 0 -> bits_of_bytes p = sps265_bits q ++ rest ->
  exists s, hevc_parse_sps (sc four ++ escape (h0 :: h1 :: p)) = Ok s /\ hsp_width s = q_width q /\ hsp_height s = q_height q /\
    hsp_pic_width s = q_width q /\ hsp_pic_height s = q_height q /\ hsp_chroma s = q_chroma q /\ hsp_depth_chroma s = q_depth_chroma q /\
    hsp_layers s = zlen (t_subs (q_ptl q)) + 1 /\ hsp_nested s = Z.b2z (q_nesting q) /\ hsp_space s = t_space (q_ptl q) /\
    hsp_tier s = Z.b2z (t_tier (q_ptl q)) /\ hsp_idc s = t_idc (q_ptl q) /\ hsp_level s = t_level (q_ptl q) /\
    (hsp_width s = width265 q <-> let '(l, r, t, b) := window_of q in l + r = 0) /\
    (hsp_height s = height265 q <-> let '(l, r, t, b) := window_of q in t + b = 0).
Proof.
  intros q p rest h0 h1 four O B H1 E. destruct (C45_hevc_parse_escaped four h0 h1 p B H1) as (P & _ & _). rewrite P.
  destruct (reads_sps265 q O (golomb_new p) rest (golomb_new_wf p)) as (g' & Eg & _); [rewrite golomb_new_bits; exact E|]. rewrite Eg.
  exists (sps265_value q). cbn [snd]. do 13 (split; [reflexivity|]). unfold width265, height265.
  assert (X : sub_width_c q = 1 \/ sub_width_c q = 2) by (unfold sub_width_c; destruct (q_chroma q) as [|[[]|[]|]|]; auto).
  assert (Y : sub_height_c q = 1 \/ sub_height_c q = 2) by (unfold sub_height_c; destruct (q_chroma q) as [|[[]|[]|]|]; auto).
  destruct (window_of q) as [[[l r] t] b]. cbn [sps265_value hsp_width hsp_height]. destruct X as [-> | ->], Y as [-> | ->]; lia.
Qed.

(** The bit depth of luma is lost, and so are the compatibility and constraint flags. *)
Theorem C48_lost_fields : forall data s, hevc_parse_sps data = Ok s -> hsp_compat s = 0 /\ hsp_constraint s = 0.
Proof.
  intros data s H. unfold hevc_parse_sps in H. destruct (remove_start_code data) as [d| | |]; try discriminate. cbn [bind] in H. destruct (zlen d <? 2); [discriminate|].
  destruct (of_opt (slice_from d 2)) as [x| | |]; try discriminate. cbn [bind] in H.
  assert (K : forall {A} (m : G A) (f : A -> G hevc_sps) g, (forall a g' t, snd (f a g') = Ok t -> hsp_compat t = 0 /\ hsp_constraint t = 0) -> forall t, snd (g_bind m f g) = Ok t -> hsp_compat t = 0 /\ hsp_constraint t = 0).
  { intros A m f g Hf t. unfold g_bind. destruct (m g) as [g' [a| | |]]; cbn [snd]; try discriminate. apply Hf. }
  revert H. generalize (golomb_new (nal2rbsp x)). intros g. revert g s. unfold hevc_sps_body.
  assert (Fin : forall v g' t, hsp_compat v = 0 -> hsp_constraint v = 0 -> snd (g_ret v g') = Ok t -> hsp_compat t = 0 /\ hsp_constraint t = 0) by (intros v g' t A B [= <-]; auto).
  intros g s. revert s. apply K. intros _ g1. apply K. intros mx g2. apply K. intros nst g3. apply K. intros [[[sp ti] idc] lv] g4.
  do 6 (apply K; intros ? ?). apply K. intros ? ?. repeat (apply K; intros ? ?). intros t. apply Fin; reflexivity.
Qed.

Example C48_example : sps265_ok (q_of None) /\ width265 (q_of None) = 1920 /\
  exists s, hevc_parse_sps (sc true ++ escape (66 :: 1 :: pack (sps265_bits (q_of None) ++ [true]))) = Ok s /\ hsp_width s = 1920 /\ hsp_height s = 1088 /\ hsp_layers s = 3.
Proof. split; [apply q_ok; exact I|]. split; [reflexivity|]. eexists. split; [vm_compute; reflexivity|]. repeat split; vm_compute; reflexivity. Qed.
Print Assumptions C48_hevc_dimensions_refuted.
Print Assumptions C48_hevc_dimensions_partial.
Print Assumptions C48_lost_fields.

(* ---------------------------------------------------------------------------------------- *)
(** ** C82: emulation prevention in an H.264 SPS. *)

(** An SPS written by x264 (1280x720, 30 frames per second): avc.ParseSPS keeps the emulation prevention bytes and reads 174762 frames per second. *)
Definition x264_rbsp : list Z := [103; 100; 0; 31; 172; 217; 64; 80; 5; 187; 1; 16; 0; 0; 0; 16; 0; 0; 3; 192; 241; 131; 25; 96].
Theorem C82_avc_escape_refuted : exists d s s', bytes_ok d /\ avc_parse_sps (sc true ++ d) = Ok s /\ avc_parse_sps (sc true ++ escape d) = Ok s' /\
  as_fps s = Some 30 /\ as_fps s' = Some 174762.
Proof.
  exists x264_rbsp. do 2 eexists. split; [repeat constructor; unfold byte_ok; lia|]. split; [vm_compute; reflexivity|]. split; [vm_compute; reflexivity|]. split; reflexivity.
Qed.

(** When the parsed syntax elements end before the first inserted byte (for instance: no VUI), escaping does not matter. *)
Theorem C82_avc_escape_partial : forall p d1 d2 rest four, sps264_ok p -> ~ In (p_profile p) [128; 138; 139; 134; 135] ->
  (high_profile (p_profile p) = true -> h_chroma (p_high p) = 3 -> h_scaling (p_high p) = None) ->
  bits_of_bytes d1 = sps264_bits p ++ rest -> escape d1 = d1 ->
  exists s, avc_parse_sps (sc four ++ escape (d1 ++ d2)) = Ok s /\ avc_parse_sps (sc four ++ d1 ++ d2) = Ok s.
Proof.
  intros p d1 d2 rest four O HI H4 B E. destruct (escape_prefix d1 d2 0 E) as [t Et]. unfold escape. rewrite Et.
  assert (Hh : avc_is_high (p_profile p) = high_profile (p_profile p)).
  { rewrite is_high_spec. replace (existsb _ _) with false; [now rewrite orb_false_r|]. symmetry. apply not_true_is_false. intros H. apply existsb_exists in H as (x & I & Ex).
    apply HI. apply Z.eqb_eq in Ex. now subst x. }
  assert (K : forall x, avc_parse_sps (sc four ++ d1 ++ x) = Ok (sps264_value p)).
  { intros x. unfold avc_parse_sps. rewrite remove_sc. cbn [bind].
    destruct (reads_sps p O Hh H4 (golomb_new (d1 ++ x)) (rest ++ bits_of_bytes x) (golomb_new_wf _)) as (g' & Eg & _).
    - rewrite golomb_new_bits, bits_of_bytes_app, B, app_assoc. reflexivity.
    - now rewrite Eg. }
  exists (sps264_value p). split; apply K.
Qed.
Example C82_example : let d1 := pack (sps264_bits (sps_of 100 (hp 1 None) 67 true (Some (0, 0, 0, 4)) None)) in
  escape d1 = d1 /\ escape (d1 ++ [7; 0; 0; 1]) = d1 ++ [7; 0; 0; 3; 1].
Proof. split; vm_compute; reflexivity. Qed.
Print Assumptions C82_avc_escape_refuted.
Print Assumptions C82_avc_escape_partial.

(* ---------------------------------------------------------------------------------------- *)
(** ** C83: HEVC SPS parsing is total. *)
Theorem C83_hevc_sps_total : forall data, 4 <= zlen data -> hevc_parse_sps data = Err \/ exists s, hevc_parse_sps data = Ok s.
Proof.
  intros data L. unfold hevc_parse_sps. destruct (remove_total data L) as [d ->]. cbn [bind]. destruct (zlen d <? 2) eqn:E; [now left|].
  destruct d as [|a [|b t]]; try (exfalso; cbn in E; lia). assert (S2 : slice_from (a :: b :: t) 2 = Some t) by exact (slice_from_app [a; b] t). rewrite S2. cbn [of_opt bind].
  apply tot_res, tot_hevc_body.
Qed.
Example C83_example : hevc_parse_sps [] = Panic /\ hevc_parse_sps [0; 0; 0; 1] = Err /\ hevc_parse_sps [0; 0; 0; 1; 66; 1; 1; 255; 255] = Err /\
  (exists s, hevc_parse_sps (sc false ++ [66; 1] ++ escape (pack (sps265_bits (q_of None)))) = Ok s).
Proof. repeat (split; [vm_compute; reflexivity|]). eexists. vm_compute; reflexivity. Qed.
Print Assumptions C83_hevc_sps_total.

(* ---------------------------------------------------------------------------------------- *)
(** ** C84: codec data from a decoder configuration record. *)
Theorem C84_avc_codec_data : forall record, bytes_ok record -> zlen record < 2 ^ 63 ->
  (avc_new_codec_data record = Err \/ exists r s, avc_new_codec_data record = Ok (r, s)) /\
  (forall r s, avc_new_codec_data record = Ok (r, s) <->
     avc_unmarshal avc_record_zero record = Ok r /\ exists sps rest, ar_sps r = (sc true ++ sps) :: rest /\ avc_parse_sps (sc true ++ sps) = Ok s).
Proof.
  intros d B L. unfold avc_new_codec_data. destruct (avc_unmarshal_dec avc_record_zero d B L) as [(hdr & c & S & p & P & tail & Lay)|E].
  - rewrite (avc_unmarshal_layout avc_record_zero d _ _ _ _ _ _ B L Lay). destruct Lay as (_ & _ & _ & _ & _ & _ & S1 & _).
    destruct S as [|s0 S]; [exfalso; cbn in S1; lia|]. assert (ES : ar_sps (avc_record_of avc_record_zero hdr (s0 :: S) P) = (sc true ++ s0) :: with4s S) by reflexivity.
    set (R := avc_record_of avc_record_zero hdr (s0 :: S) P) in *. clearbody R. cbn [bind]. rewrite !ES, !idx_cons_0. cbn [of_opt bind].
    assert (L4 : 4 <= zlen (sc true ++ s0)) by (rewrite zlen_app; pose proof (zlen_nonneg s0); change (zlen (sc true)) with 4; lia).
    split.
    + destruct (C47_avc_sps_total _ L4) as [->|[s ->]]; cbn [bind]; [now left|right; do 2 eexists; reflexivity].
    + intros r s. split.
      * destruct (avc_parse_sps (sc true ++ s0)) as [v| | |] eqn:Ev; try discriminate. cbn [bind]. intros H. injection H as <- <-. split; [reflexivity|].
        exists s0, (with4s S). split; [exact ES|exact Ev].
      * intros [H (sps & rest & Es & Ep)]. injection H as <-. rewrite ES in Es. assert (sc true ++ s0 = sc true ++ sps) as -> by congruence. rewrite Ep. reflexivity.
  - rewrite E. cbn [bind]. split; [now left|]. intros r s. split; [discriminate|]. intros [H _]. discriminate.
Qed.

Definition long (x : list Z) : Prop := exists n, x = sc true ++ n.
Lemma nth_firstn_lt {A} (l : list A) : forall n k, (k < n)%nat -> nth_error (firstn n l) k = nth_error l k.
Proof. induction l as [|x l IH]; intros n k H; destruct n; try lia; [reflexivity|]. destruct k; [reflexivity|]. cbn. apply IH. lia. Qed.
Lemma ns_append_other (Q : list Z -> Prop) grow h s x h' s' t : ns_wf h t -> ns_append grow h s x = (h', s') -> Q x -> Forall Q (ns_read h t) -> Forall Q (ns_read h' t).
Proof.
  intros W E Qx F. unfold ns_append in E. unfold ns_wf in W. unfold ns_read, ns_array in *. destruct (ns_arr t) as [b|]; [|exact F].
  destruct (ns_arr s) as [a|].
  - destruct (_ <? _)%nat; injection E as <- _.
    + destruct (Nat.eq_dec a b) as [<-|N]; [|now rewrite nth_set_nth_other]. rewrite nth_set_nth_same by lia.
      apply Forall_forall. intros y I. apply In_nth_error in I as [k K].
      destruct (Nat.lt_ge_cases k (ns_len t)) as [Lk|Lk].
      * rewrite (nth_firstn_lt _ _ _ Lk) in K. destruct (Nat.eq_dec (ns_len s) k) as [<-|Nk].
        -- assert (ns_len s < length (nth a h []))%nat by (rewrite <- (set_nth_length (ns_len s) x); apply nth_error_Some; congruence).
           rewrite set_nth_same in K by assumption. now injection K as <-.
        -- rewrite set_nth_other in K by assumption. rewrite Forall_forall in F. apply F. apply (nth_error_In _ k). rewrite nth_firstn_lt by exact Lk. exact K.
      * assert (k < length (firstn (ns_len t) (set_nth (ns_len s) x (nth a h []))))%nat by (apply nth_error_Some; congruence). rewrite firstn_length in H. lia.
    + rewrite app_nth1 by lia. exact F.
  - injection E as <- _. rewrite app_nth1 by lia. exact F.
Qed.

Definition sets_long (s : hevc_sets) : Prop := hs_wf s /\ Forall long (hs_S s) /\ Forall long (hs_P s).
Lemma hevc_add_long grow s t n : sets_long s -> sets_long (hevc_add grow s t (sc true ++ n)).
Proof.
  intros (W & FS & FP). destruct (hevc_add_spec grow s t (sc true ++ n) W) as (W' & _ & P'). split; [exact W'|].
  assert (Lx : long (sc true ++ n)) by (now exists n). assert (FP' : Forall long (hs_P (hevc_add grow s t (sc true ++ n)))).
  { rewrite P'. apply Forall_app. split; [exact FP|]. destruct (t =? 34); cbn [only]; auto. }
  split; [|exact FP']. destruct W as (WV & WS & WP & _). unfold hevc_add. destruct (t =? HevcNalVPS); [|destruct (t =? HevcNalSPS); [|destruct (t =? HevcNalPPS)]].
  - destruct (ns_append grow (hs_heap s) (hs_vps s) (sc true ++ n)) as [h' x] eqn:E. unfold hs_S. cbn [hs_heap hs_sps]. eapply ns_append_other; eauto.
  - destruct (ns_append grow (hs_heap s) (hs_pps s) (sc true ++ n)) as [h' x] eqn:E. unfold hs_S. cbn [hs_heap hs_sps].
    destruct (ns_append_spec _ _ _ _ _ _ WP E) as (_ & R & _). rewrite R. apply Forall_app. split; [exact FP|auto].
  - destruct (ns_append grow (hs_heap s) (hs_pps s) (sc true ++ n)) as [h' x] eqn:E. unfold hs_S. cbn [hs_heap hs_sps]. eapply ns_append_other; eauto.
  - exact FS.
Qed.
Lemma add_arrays_long grow arrs : forall s, sets_long s -> sets_long (add_arrays grow arrs s).
Proof.
  unfold add_arrays. induction arrs as [|[b l] arrs IH]; intros s H; cbn [fold_left]; [exact H|]. apply IH. unfold add_array. cbn [fst snd].
  revert s H. induction l as [|n l IHl]; intros s H; cbn [fold_left]; [exact H|]. apply IHl. now apply hevc_add_long.
Qed.

Theorem C84_hevc_codec_data : forall grow record, bytes_ok record -> zlen record < 2 ^ 63 ->
  (hevc_new_codec_data grow record = Err \/ exists h s i, hevc_new_codec_data grow record = Ok (h, s, i)) /\
  (forall h s i, hevc_new_codec_data grow record = Ok (h, s, i) <->
     hevc_unmarshal grow record = Ok (h, s) /\ exists sps rest, hs_S s = (sc true ++ sps) :: rest /\ hevc_parse_sps (sc true ++ sps) = Ok i).
Proof.
  intros grow d B L. unfold hevc_new_codec_data. destruct (hevc_unmarshal grow d) as [[h s]| | |] eqn:E.
  - assert (SL : exists sps rest, hs_S s = (sc true ++ sps) :: rest).
    { destruct (hevc_unmarshal_dec grow d B L) as [(hdr & arrs & tail & Lay)|E']; [|congruence]. rewrite (hevc_unmarshal_layout grow _ _ _ _ B L Lay) in E. unfold hevc_result in E.
      destruct (add_arrays_long grow arrs hevc_sets_zero) as (W & F & _); [split; [apply hs_wf_zero|split; constructor]|].
      destruct (Nat.eqb_spec (ns_len (hs_sps (add_arrays grow arrs hevc_sets_zero))) 0) as [|N]; [discriminate|]. repeat (destruct (_ =? _)%nat; [discriminate|]). injection E as _ <-.
      set (x := add_arrays grow arrs hevc_sets_zero) in *. clearbody x.
      assert (Hl : length (hs_S x) = ns_len (hs_sps x)).
      { destruct W as (_ & W & _). unfold hs_S, ns_read, ns_array, ns_wf in *. destruct (ns_arr (hs_sps x)); [rewrite firstn_length; lia|]. lia. }
      destruct (hs_S x) as [|y r]; [cbn in Hl; lia|]. apply Forall_cons_iff in F as [[n ->] _]. eauto. }
    destruct SL as (sps & rest & ES). cbn [bind]. unfold hs_S in ES. rewrite ES, idx_cons_0. cbn [of_opt bind].
    assert (L4 : 4 <= zlen (sc true ++ sps)) by (rewrite zlen_app; pose proof (zlen_nonneg sps); change (zlen (sc true)) with 4; lia).
    split.
    + destruct (C83_hevc_sps_total _ L4) as [->|[i ->]]; cbn [bind]; [now left|right; do 3 eexists; reflexivity].
    + intros h' s' i. split.
      * destruct (hevc_parse_sps (sc true ++ sps)) as [v| | |] eqn:Ev; try discriminate. cbn [bind]. intros H. injection H as <- <- <-. split; [reflexivity|]. exists sps, rest. split; [exact ES|exact Ev].
      * intros [H (sps' & rest' & Es & Ep)]. injection H as <- <-. unfold hs_S in Es. rewrite ES in Es. assert (sc true ++ sps = sc true ++ sps') as -> by congruence. rewrite Ep. reflexivity.
  - cbn [bind]. split; [now left|]. intros h s i. split; [discriminate|]. intros [H _]. discriminate.
  - exfalso. destruct (hevc_unmarshal_dec grow d B L) as [(hdr & arrs & tail & Lay)|E']; [|congruence]. rewrite (hevc_unmarshal_layout grow _ _ _ _ B L Lay) in E. unfold hevc_result in E. repeat (destruct (_ =? _)%nat; [discriminate|]). discriminate.
  - exfalso. destruct (hevc_unmarshal_dec grow d B L) as [(hdr & arrs & tail & Lay)|E']; [|congruence]. rewrite (hevc_unmarshal_layout grow _ _ _ _ B L Lay) in E. unfold hevc_result in E. repeat (destruct (_ =? _)%nat; [discriminate|]). discriminate.
Qed.

Definition avcc_720 : list Z := [1; 66; 0; 31; 255; 225; 0; 10; 103; 66; 0; 31; 149; 168; 20; 1; 110; 64; 1; 0; 3; 104; 203; 131].
Example C84_example : (exists r s, avc_new_codec_data avcc_720 = Ok (r, s) /\ as_width s = 1280 /\ as_height s = 720) /\
  (exists h s i, hevc_new_codec_data (fun n => n) ([1; 97; 96; 0; 0; 3; 144; 1; 2; 3; 4; 5; 93; 240; 10; 253; 254; 250; 251; 0; 25; 79; 3] ++
     harray (32, [[64; 1; 12]]) ++ harray (33, [[66; 1] ++ escape (pack (sps265_bits (q_of None)))]) ++ harray (34, [[68; 1; 193]])) = Ok (h, s, i) /\ hsp_width i = 1920).
Proof. split; do 2 eexists; [|eexists]; (split; [vm_compute; reflexivity|]); [split|]; vm_compute; reflexivity. Qed.
Print Assumptions C84_avc_codec_data.
Print Assumptions C84_hevc_codec_data.

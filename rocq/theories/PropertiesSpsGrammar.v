(** * PropertiesSpsGrammar: C113, C114 - the inputs ParseSPS accepts, and what it returns for them. *)
From Verif Require Import Base BitSpec BufioModel GolombProofs NaluModel NaluSpec NaluProofs SplitProofs RecordModel FloatModel SpsModel SpsSpec SpsProofs SpsGrammarSpec SpsGrammarProofs PropertiesSps.

(** The fields of the result, element by element. *)
Definition reports264 (s : avc_sps) (w : sps264_view) : Prop :=
  as_id s = w_id w /\ as_profile s = w_profile w /\ as_level s = w_level w /\ as_constraint s = w_constraint w / 4 /\
  as_mbw s = w_mbw w + 1 /\ as_mbh s = w_map_units w + 1 /\
  (as_cl s, as_cr s, as_ct s, as_cb s) = (match w_crop w with Some c => c | None => (0, 0, 0, 0) end) /\
  as_width s = 16 * (w_mbw w + 1) - 2 * (as_cl s + as_cr s) /\
  as_height s = (if w_mbs_only w then 16 else 32) * (w_map_units w + 1) - 2 * (as_ct s + as_cb s) /\
  as_fps s = match w_timing w with Some (Some (units, scale, _)) => sps_fps scale units | _ => Some 0 end.
Definition reports265 (s : hevc_sps) (w : sps265_view) : Prop :=
  hsp_layers s = Z.of_nat (x_layers w) + 1 /\ hsp_nested s = Z.b2z (x_nesting w) /\ hsp_chroma s = x_chroma w /\ hsp_pic_width s = x_width w /\ hsp_pic_height s = x_height w /\
  hsp_depth_chroma s = x_depth_chroma w /\ hsp_space s = x_space w /\ hsp_tier s = Z.b2z (x_tier w) /\ hsp_idc s = x_idc w /\ hsp_compat s = 0 /\ hsp_constraint s = 0 /\
  hsp_level s = x_level w /\ hsp_width s = x_width w /\ hsp_height s = x_height w.

Lemma reports_value264 s w : reports264 s w <-> s = value264 w.
Proof.
  unfold reports264, value264, crop_value. destruct (match w_crop w with Some c => c | None => (0, 0, 0, 0) end) as [[[cl cr] ct] cb] eqn:C. split.
  - destruct s. cbn. intros (-> & -> & -> & -> & -> & -> & H & -> & -> & ->). now injection H as -> -> -> ->.
  - intros ->. cbn. repeat split; lia.
Qed.
Lemma reports_value265 s w : reports265 s w <-> s = value265 w.
Proof.
  unfold reports265, value265. split.
  - destruct s. cbn. intros (-> & -> & -> & -> & -> & -> & -> & -> & -> & -> & -> & -> & -> & ->). reflexivity.
  - intros ->. cbn. repeat split.
Qed.
Lemma exact_result {A U} (m : G A) (v : U -> A) (F : U -> form) d a : Exact m (fun a bs => exists u, a = v u /\ F u bs) ->
  snd (m (golomb_new d)) = Ok a <-> exists w bs rest, bits_of_bytes d = bs ++ rest /\ F w bs /\ a = v w.
Proof.
  intros [M1 M2]. pose proof (golomb_new_wf d) as W. split.
  - intros E. destruct (m (golomb_new d)) as [g' r] eqn:R. cbn [snd] in E. subst r. destruct (M2 _ _ _ W R) as (_ & bs & B & w & -> & Fw). rewrite golomb_new_bits in B. eauto 6.
  - intros (w & bs & rest & B & Fw & ->). destruct (M1 (v w) bs (ex_intro _ w (conj eq_refl Fw)) (golomb_new d) rest W) as (g' & E & _); [now rewrite golomb_new_bits|]. now rewrite E.
Qed.

(* ---------------------------------------------------------------------------------------- *)
(** ** C113: avc.ParseSPS succeeds exactly on the data that begin with an SPS layout, whatever the values in it. *)
(** The profiles in avc/sps.go:57-60 have the high profile part, with 8 scaling lists for every chroma format. *)
Definition high_part (profile : Z) : bool := existsb (Z.eqb profile) [100; 110; 122; 244; 44; 83; 86; 118].
Definition layout264 := sps264_form high_part (fun _ => 8%nat).
Lemma high_part_eq p : high_part p = avc_is_high p.
Proof. unfold high_part, avc_is_high. cbn [existsb]. now rewrite orb_false_r, !orb_assoc. Qed.
Lemma layout_eq w bs : layout264 w bs <-> sps264_form avc_is_high (fun _ => 8%nat) w bs.
Proof. unfold layout264, sps264_form. now rewrite high_part_eq. Qed.
Theorem C113_avc_exact : forall data s, avc_parse_sps data = Ok s <->
  exists d, remove_start_code data = Ok d /\ exists w bs rest, bits_of_bytes d = bs ++ rest /\ layout264 w bs /\ reports264 s w.
Proof.
  intros data s. unfold avc_parse_sps. destruct (remove_start_code data) as [d| | |]; cbn [bind]; try (split; [discriminate|now intros (d & [=] & _)]).
  rewrite (exact_result _ _ _ d s exact_body264). split.
  - intros (w & bs & rest & B & F & E). exists d. split; [reflexivity|]. exists w, bs, rest. split; [exact B|]. split; [now apply layout_eq|now apply reports_value264].
  - intros (d' & [= <-] & w & bs & rest & B & F & E). exists w, bs, rest. split; [exact B|]. split; [now apply layout_eq|now apply reports_value264].
Qed.
(** Anything else is an error, for data of at least 4 bytes (shorter data: C47). *)
Theorem C113_avc_rejects : forall data, 4 <= zlen data -> avc_parse_sps data = Err <->
  forall d w bs rest, remove_start_code data = Ok d -> bits_of_bytes d = bs ++ rest -> ~ layout264 w bs.
Proof.
  intros data L. split.
  - intros E d w bs rest D B F. assert (X : avc_parse_sps data = Ok (value264 w)); [|congruence]. apply C113_avc_exact. exists d. split; [exact D|]. exists w, bs, rest. split; [exact B|]. split; [exact F|now apply reports_value264].
  - intros H. destruct (C47_avc_sps_total data L) as [E|[s E]]; [exact E|]. apply C113_avc_exact in E as (d & D & w & bs & rest & B & F & _). now destruct (H d w bs rest D B).
Qed.
(** No number in the result has wrapped around, for any input: every element is below 2^33, and the size is the sum of the elements. It may be negative. *)
Theorem C113_avc_no_wrap : forall data s, avc_parse_sps data = Ok s ->
  1 <= as_mbw s < 2 ^ 33 /\ 1 <= as_mbh s < 2 ^ 33 /\ 0 <= as_cl s < 2 ^ 33 /\ 0 <= as_cr s < 2 ^ 33 /\ 0 <= as_ct s < 2 ^ 33 /\ 0 <= as_cb s < 2 ^ 33 /\
  as_width s = 16 * as_mbw s - 2 * (as_cl s + as_cr s) /\ (as_height s = 16 * as_mbh s - 2 * (as_ct s + as_cb s) \/ as_height s = 32 * as_mbh s - 2 * (as_ct s + as_cb s)) /\
  0 <= as_profile s < 256 /\ 0 <= as_level s < 256 /\ 0 <= as_constraint s < 64 /\ 0 <= as_id s < 2 ^ 33 - 1.
Proof.
  intros data s E. apply C113_avc_exact in E as (d & _ & w & bs & rest & _ & F & (-> & -> & -> & -> & Ew & Eh & C & W & H & _)).
  unfold layout264, sps264_form in F. do 16 peel F. apply crop_bound in H15. unfold crop_value in H15. apply ue_bound in H10, H11, H4. unfold u_form, u_ok in H1, H2, H3.
  rewrite <- C in H15. change (2 ^ Z.of_nat 8) with 256 in *. change (2 ^ 33) with 8589934592 in *. rewrite Ew, Eh, W, H.
  repeat split; try lia; try (apply Z.div_pos; lia); try (apply Z.div_lt_upper_bound; lia). destruct (w_mbs_only w); [left|right]; lia.
Qed.

(** An SPS with picture order count type 7 (the standard has 0, 1 and 2) and a crop wider than the picture. *)
Definition odd_bits : list bool :=
  u 8 103 ++ u 8 66 ++ u 8 192 ++ u 8 30 ++ ue_code 0 ++ ue_code 0 ++ ue_code 7 ++ ue_code 0 ++ [false] ++ ue_code 0 ++ ue_code 0 ++ [true] ++ [true] ++
  [true] ++ ue_code 8 ++ ue_code 8 ++ ue_code 0 ++ ue_code 0 ++ [false].
Example C113_example : (exists s, avc_parse_sps (sc true ++ pack odd_bits) = Ok s /\ as_width s = -16 /\ as_height s = 16 /\ as_constraint s = 48 /\ as_fps s = Some 0) /\
  avc_parse_sps (sc true ++ pack (firstn 60 odd_bits)) = Err.
Proof. split; [eexists; split; [vm_compute; reflexivity|repeat split; vm_compute; reflexivity]|vm_compute; reflexivity]. Qed.
Print Assumptions C113_avc_exact.
Print Assumptions C113_avc_rejects.
Print Assumptions C113_avc_no_wrap.

(* ---------------------------------------------------------------------------------------- *)
(** ** C114: hevc.ParseSPS succeeds exactly on the units whose RBSP begins with an SPS layout. *)
Theorem C114_hevc_exact : forall data s, hevc_parse_sps data = Ok s <->
  exists h0 h1 p, remove_start_code data = Ok (h0 :: h1 :: p) /\ exists w bs rest, bits_of_bytes (nal2rbsp p) = bs ++ rest /\ sps265_form w bs /\ reports265 s w.
Proof.
  intros data s. unfold hevc_parse_sps. destruct (remove_start_code data) as [d| | |]; cbn [bind]; try (split; [discriminate|now intros (h0 & h1 & p & [=] & _)]).
  destruct d as [|h0 [|h1 p]]; try (split; [discriminate|now intros (a & b & c & [=] & _)]).
  rewrite !zlen_cons. pose proof (zlen_nonneg p). replace (1 + (1 + zlen p) <? 2) with false by lia.
  change (h0 :: h1 :: p) with ([h0; h1] ++ p) at 1. change 2 with (zlen [h0; h1]) at 1. rewrite slice_from_app. cbn [of_opt bind].
  rewrite (exact_result _ _ _ (nal2rbsp p) s exact_body265). split.
  - intros (w & bs & rest & B & F & E). exists h0, h1, p. split; [reflexivity|]. exists w, bs, rest. split; [exact B|]. split; [exact F|now apply reports_value265].
  - intros (a & b & c & [= <- <- <-] & w & bs & rest & B & F & E). exists w, bs, rest. split; [exact B|]. split; [exact F|now apply reports_value265].
Qed.
Theorem C114_hevc_rejects : forall data, 4 <= zlen data -> hevc_parse_sps data = Err <->
  forall h0 h1 p w bs rest, remove_start_code data = Ok (h0 :: h1 :: p) -> bits_of_bytes (nal2rbsp p) = bs ++ rest -> ~ sps265_form w bs.
Proof.
  intros data L. split.
  - intros E h0 h1 p w bs rest D B F. assert (X : hevc_parse_sps data = Ok (value265 w)); [|congruence]. apply C114_hevc_exact. exists h0, h1, p. split; [exact D|]. exists w, bs, rest. split; [exact B|]. split; [exact F|now apply reports_value265].
  - intros H. destruct (C83_hevc_sps_total data L) as [E|[s E]]; [exact E|]. apply C114_hevc_exact in E as (h0 & h1 & p & D & w & bs & rest & B & F & _). now destruct (H h0 h1 p w bs rest D B).
Qed.
(** No field has wrapped around. The size may be 0 and the number of sub-layers up to 8, one more than the standard allows. *)
Theorem C114_hevc_no_wrap : forall data s, hevc_parse_sps data = Ok s ->
  1 <= hsp_layers s <= 8 /\ 0 <= hsp_width s < 2 ^ 33 - 1 /\ 0 <= hsp_height s < 2 ^ 33 - 1 /\ hsp_pic_width s = hsp_width s /\ hsp_pic_height s = hsp_height s /\
  0 <= hsp_chroma s < 2 ^ 33 - 1 /\ 0 <= hsp_depth_chroma s < 2 ^ 33 - 1 /\ 0 <= hsp_level s < 256 /\ 0 <= hsp_idc s < 32 /\ 0 <= hsp_space s < 4 /\ 0 <= hsp_tier s <= 1 /\ 0 <= hsp_nested s <= 1.
Proof.
  intros data s E. apply C114_hevc_exact in E as (h0 & h1 & p & _ & w & bs & rest & _ & (present & F) & (-> & -> & -> & -> & -> & -> & -> & -> & -> & _ & _ & -> & -> & ->)).
  do 17 peel F. apply ue_bound in H9, H11, H12, H15. unfold u_form, u_ok in H0, H2, H4, H6. change (2 ^ Z.of_nat 3) with 8 in *. change (2 ^ Z.of_nat 2) with 4 in *. change (2 ^ Z.of_nat 5) with 32 in *. change (2 ^ Z.of_nat 8) with 256 in *.
  change (2 ^ 33) with 8589934592 in *. destruct (x_tier w), (x_nesting w); cbn [Z.b2z]; lia.
Qed.
(** A unit with 8 layers of unset flags, followed by codes. *)
Example C114_example :
  let p := pack (u 4 0 ++ u 3 7 ++ [true] ++ u 2 0 ++ [false] ++ u 5 1 ++ repeat false 80 ++ u 8 93 ++ repeat false 14 ++ repeat true 2 ++ ue_code 0 ++ ue_code 9 ++ ue_code 0 ++ ue_code 4 ++ [false] ++
                 ue_code 0 ++ ue_code 2 ++ ue_code 4 ++ [false] ++ repeat true 9) in
  (exists s, hevc_parse_sps (sc true ++ 66 :: 1 :: escape p) = Ok s /\ hsp_layers s = 8 /\ hsp_chroma s = 9 /\ hsp_width s = 0 /\ hsp_height s = 4 /\ hsp_level s = 93) /\
  hevc_parse_sps (sc true ++ 66 :: 1 :: escape (firstn 17 p)) = Err.
Proof. cbv zeta. split; [eexists; split; [vm_compute; reflexivity|repeat split; vm_compute; reflexivity]|vm_compute; reflexivity]. Qed.
Print Assumptions C114_hevc_exact.
Print Assumptions C114_hevc_rejects.
Print Assumptions C114_hevc_no_wrap.

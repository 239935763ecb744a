(** * Theorems C49-C52 and C80: ADTS headers, AudioSpecificConfig, audio configuration extraction. *)
From Verif Require Import Base BufioModel AvccProofs AacModel AacSpec AacProofs.

(* ---------------------------------------------------------------------------------------- *)
(** ** C49 ADTS header round trip *)
Lemma firstn_app7 (a b : list Z) : length a = 7%nat -> firstn 7 (a ++ b) = a.
Proof. intros <-. rewrite firstn_app, Nat.sub_diag, firstn_all. apply app_nil_r. Qed.
Lemma skipn_app7 (a b : list Z) : length a = 7%nat -> skipn 7 (a ++ b) = b.
Proof. intros <-. rewrite skipn_app, Nat.sub_diag, skipn_all. reflexivity. Qed.
Lemma adts_zlen h mpegId aot index ch size : 7 <= zlen h -> zlen (adts_bytes mpegId aot index ch size ++ skipn 7 h) = zlen h.
Proof. intros L. rewrite zlen_app. unfold zlen in *. rewrite skipn_length. change (length (adts_bytes mpegId aot index ch size)) with 7%nat. lia. Qed.
Lemma adts_bytes_layout mpegId aot index ch size : adts_bytes mpegId aot index ch size = be_bytes 7 (adts_layout 4095 mpegId 0 1 aot index 0 ch 0 0 0 0 size 2047 0).
Proof. rewrite <- adts_bytes_value. symmetry. apply (be_value_bytes (adts_bytes mpegId aot index ch size)), adts_bytes_ok. Qed.
Lemma adts_layout_set mpegId aot index ch size a : a = adts_layout 4095 mpegId 0 1 aot index 0 ch 0 0 0 0 size 2047 0 ->
    adts_sync a = 4095 /\ adts_id a = mpegId mod 2 /\ adts_layer a = 0 /\ adts_protection_absent a = 1 /\ adts_profile a = aot mod 4 /\
    adts_frequency a = index mod 16 /\ adts_private a = 0 /\ adts_channel a = ch mod 8 /\ adts_original a = 0 /\ adts_home a = 0 /\
    adts_copyright_bit a = 0 /\ adts_copyright_start a = 0 /\ adts_frame_length a = size mod 8192 /\ adts_fullness a = 2047 /\ adts_blocks a = 0.
Proof.
  intros Ea. pose proof (adts_layout_fields 4095 mpegId 0 1 aot index 0 ch 0 0 0 0 size 2047 0) as F. cbv zeta in F. rewrite <- Ea in F. clear Ea.
  destruct F as (_ & F1 & F2 & F3 & F4 & F5 & F6 & F7 & F8 & F9 & F10 & F11 & F12 & F13 & F14 & F15).
  rewrite F1, F2, F3, F4, F5, F6, F7, F8, F9, F10, F11, F12, F13, F14, F15. repeat split; reflexivity.
Qed.
Lemma adts_sync_word mpegId aot index ch size a : a = adts_layout 4095 mpegId 0 1 aot index 0 ch 0 0 0 0 size 2047 0 -> a / 2 ^ 44 = 4095.
Proof.
  intros Ea. pose proof (adts_layout_fields 4095 mpegId 0 1 aot index 0 ch 0 0 0 0 size 2047 0) as F. cbv zeta in F. rewrite <- Ea in F. clear Ea. destruct F as (Bd & F1 & _).
  unfold adts_sync in F1. rewrite (adts_get_spec _ 44 4095 12) in F1 by (try reflexivity; lia). rewrite Z.mod_small in F1; [now rewrite F1|].
  split; [apply Z.div_pos; lia|]. apply Z.div_lt_upper_bound; [lia|]. change (2 ^ 44 * 2 ^ 12) with (2 ^ 56). lia.
Qed.
Lemma adts_read_back mpegId aot index ch size t :
  read_adts_fixed_header (adts_bytes mpegId aot index ch size ++ t) = Ok (adts_layout 4095 mpegId 0 1 aot index 0 ch 0 0 0 0 size 2047 0).
Proof. rewrite read_adts_spec by (try reflexivity; apply adts_bytes_ok). rewrite adts_bytes_value, (adts_sync_word mpegId aot index ch size) by reflexivity. reflexivity. Qed.

Theorem C49_adts_round_trip h mpegId aot index ch size : 7 <= zlen h ->
  exists h' a, set_adts_header h mpegId aot index ch size = Ok h' /\ zlen h' = zlen h /\ skipn 7 h' = skipn 7 h /\
    firstn 7 h' = be_bytes 7 (adts_layout 4095 mpegId 0 1 aot index 0 ch 0 0 0 0 size 2047 0) /\
    read_adts_fixed_header h' = Ok a /\
    adts_sync a = 4095 /\ adts_id a = mpegId mod 2 /\ adts_layer a = 0 /\ adts_protection_absent a = 1 /\ adts_profile a = aot mod 4 /\
    adts_frequency a = index mod 16 /\ adts_private a = 0 /\ adts_channel a = ch mod 8 /\ adts_original a = 0 /\ adts_home a = 0 /\
    adts_copyright_bit a = 0 /\ adts_copyright_start a = 0 /\ adts_frame_length a = size mod 8192 /\ adts_fullness a = 2047 /\ adts_blocks a = 0.
Proof.
  intros L. exists (adts_bytes mpegId aot index ch size ++ skipn 7 h), (adts_layout 4095 mpegId 0 1 aot index 0 ch 0 0 0 0 size 2047 0).
  split; [now apply set_adts_ok|]. split; [now apply adts_zlen|]. split; [now rewrite skipn_app7|]. split; [rewrite firstn_app7 by reflexivity; apply adts_bytes_layout|].
  split; [apply adts_read_back|]. now apply (adts_layout_set mpegId aot index ch size).
Qed.
Print Assumptions C49_adts_round_trip.

Example C49_example :
  exists a, read_adts_fixed_header [255; 241; 80; 128; 46; 127; 252; 33] = Ok a /\
    set_adts_header [1; 2; 3; 4; 5; 6; 7; 33] 0 1 4 2 371 = Ok [255; 241; 80; 128; 46; 127; 252; 33] /\
    adts_frame_length a = 371 /\ adts_channel a = 2 /\ adts_frequency a = 4 /\ adts_profile a = 1.
Proof. eexists. repeat (split; [vm_compute; reflexivity|]). vm_compute; reflexivity. Qed.

(** Reading any header: the sync word decides, and the value is the big-endian 56-bit number. *)
Theorem C49_read_exact data : bytes_ok data -> 7 <= zlen data ->
  read_adts_fixed_header data = if be_value (firstn 7 data) / 2 ^ 44 =? 4095 then Ok (be_value (firstn 7 data)) else Err.
Proof.
  intros B L. destruct (be_value_firstn7 data L B) as (h & t & E & Lh & Bh & Eh). rewrite <- Eh. rewrite E at 1. now apply read_adts_spec.
Qed.
Print Assumptions C49_read_exact.

(* ---------------------------------------------------------------------------------------- *)
(** ** C50 ADTS header to AudioSpecificConfig *)
Definition rate_of (f : Z) : Z := nth (Z.to_nat f) std_rates (-1).

Lemma rate_of_spec f : 0 <= f < 16 -> fst (map_get audio_sampling_rates f) = rate_of f.
Proof.
  intros Hf. assert (T : forallb (fun n => fst (map_get audio_sampling_rates (Z.of_nat n)) =? rate_of (Z.of_nat n)) (seq 0 16) = true) by (vm_compute; reflexivity).
  rewrite forallb_forall in T. specialize (T (Z.to_nat f) ltac:(apply in_seq; lia)). rewrite Z2Nat.id in T by lia. lia.
Qed.

Lemma asc_parse_fields o f c r t : 0 <= o < 32 -> 0 <= f < 16 -> 0 <= c < 16 ->
  parse_asc (asc_bytes o f c r ++ t) = if c <=? 13 then Ok (asc_of o f c) else Err.
Proof.
  intros Ho Hf Hc. rewrite asc_bytes_eq. cbn [app]. rewrite parse_asc_spec by (unfold byte_ok; Z.div_mod_to_equations; lia). cbv zeta.
  assert (E0 : (o mod 32 * 8 + f mod 16 / 2) / 8 = o) by (Z.div_mod_to_equations; lia). assert (E1 : (o mod 32 * 8 + f mod 16 / 2) mod 8 * 2 + (f mod 2 * 128 + c mod 16 * 8 + r mod 8) / 128 = f) by (Z.div_mod_to_equations; lia).
  assert (E2 : ((f mod 2 * 128 + c mod 16 * 8 + r mod 8) / 8) mod 16 = c) by (Z.div_mod_to_equations; lia). now rewrite E0, E1, E2.
Qed.

Lemma adts_ranges h : 0 <= adts_profile h < 4 /\ 0 <= adts_frequency h < 16 /\ 0 <= adts_channel h < 8.
Proof. repeat split; first [apply (adts_get_range h 38 3 2 eq_refl) | apply (adts_get_range h 34 15 4 eq_refl) | apply (adts_get_range h 30 7 3 eq_refl)]; lia. Qed.

Lemma std_channels_spec c : nth (Z.to_nat c) mpeg4_audio_channels 0 = nth (Z.to_nat c) std_channels 0.
Proof. reflexivity. Qed.

Theorem C50_adts_to_asc h t :
  adts_to_asc h = asc_bytes (adts_profile h + 1) (adts_frequency h) (adts_channel h) 0 /\
  exists k, parse_asc (adts_to_asc h ++ t) = Ok k /\ asc_object_type k = adts_profile h + 1 /\ asc_sampling_index k = adts_frequency h /\
    asc_sample_rate k = rate_of (adts_frequency h) /\ asc_chan_config k = adts_channel h /\ asc_channels k = nth (Z.to_nat (adts_channel h)) std_channels 0.
Proof.
  destruct (adts_ranges h) as (Hp & Hf & Hc). split; [apply adts_to_asc_spec|]. rewrite adts_to_asc_spec, asc_parse_fields by lia. replace (adts_channel h <=? 13) with true by lia.
  eexists. split; [reflexivity|]. split; [reflexivity|]. split; [reflexivity|]. split; [now apply rate_of_spec|]. split; [reflexivity|]. apply std_channels_spec.
Qed.
Print Assumptions C50_adts_to_asc.

Example C50_example : adts_to_asc (be_value [255; 241; 80; 128; 46; 127; 252]) = [18; 16] /\ exists k, parse_asc [18; 16] = Ok k /\ asc_sample_rate k = 44100 /\ asc_channels k = 2 /\ asc_object_type k = 2.
Proof. split; [vm_compute; reflexivity|]. eexists. repeat (split; [vm_compute; reflexivity|]). vm_compute; reflexivity. Qed.

(* ---------------------------------------------------------------------------------------- *)
(** ** C51 GetSampleRateIndex *)
(** The full claim: [In r std_rates -> fst (get_sample_rate_from_frequency (get_sample_rate_index r)) = r].
    It fails: the function looks the rate up as a key, so every rate except 96000 maps to a wrong index. *)
Theorem C51_sample_rate_index_refuted :
  ~ (forall r, In r std_rates -> fst (get_sample_rate_from_frequency (get_sample_rate_index r)) = r).
Proof. intros H. specialize (H 48000 ltac:(cbn; tauto)). vm_compute in H. discriminate. Qed.
Print Assumptions C51_sample_rate_index_refuted.

Lemma map_get_none m k : ~ In k (map fst m) -> map_get m k = (0, false).
Proof.
  induction m as [|[k' v] m IH]; cbn; intros N; [reflexivity|]. destruct (k' =? k) eqn:E; [exfalso; apply N; left; lia|]. apply IH. tauto.
Qed.

(** What the function returns: 0 for every rate outside 0..15, so among standard rates it is right for 96000 only.
    The other direction of the table, GetSampleRateFromFrequency, is exact. *)
Theorem C51_sample_rate_index_partial :
  (forall r, ~ (0 <= r < 16) -> get_sample_rate_index r = 0) /\
  (forall r, In r std_rates -> (fst (get_sample_rate_from_frequency (get_sample_rate_index r)) = r <-> r = 96000)) /\
  (forall i, 0 <= i < 13 -> get_sample_rate_from_frequency i = (nth (Z.to_nat i) std_rates (-1), true)) /\
  (forall i, 13 <= i < 16 -> get_sample_rate_from_frequency i = (-1, true)) /\
  (forall i, ~ (0 <= i < 16) -> get_sample_rate_from_frequency i = (0, false)) /\
  (forall i j, 0 <= i < 13 -> 0 <= j < 13 -> fst (get_sample_rate_from_frequency i) = fst (get_sample_rate_from_frequency j) -> i = j).
Proof.
  assert (N : forall r, ~ (0 <= r < 16) -> map_get audio_sampling_rates r = (0, false)) by (intros r Hr; apply map_get_none; cbn; lia).
  assert (Z0 : forall r, ~ (0 <= r < 16) -> get_sample_rate_index r = 0) by (intros r Hr; unfold get_sample_rate_index; now rewrite N).
  assert (P : forall i, 0 <= i < 16 -> map_get audio_sampling_rates i = (nth (Z.to_nat i) std_rates (-1), true)).
  { intros i Hi. assert (T : forallb (fun n => let q := map_get audio_sampling_rates (Z.of_nat n) in (fst q =? nth n std_rates (-1)) && snd q) (seq 0 16) = true) by (vm_compute; reflexivity).
    rewrite forallb_forall in T. specialize (T (Z.to_nat i) ltac:(apply in_seq; lia)). rewrite Z2Nat.id in T by lia. cbv zeta in T. apply andb_true_iff in T as [T1 T2]. apply Z.eqb_eq in T1. destruct (map_get audio_sampling_rates i). cbn in *. congruence. }
  split; [exact Z0|]. split.
  { intros r Hr. assert (~ 0 <= r < 16) by (cbn in Hr; lia). rewrite Z0 by auto. change (fst (get_sample_rate_from_frequency 0)) with 96000. split; congruence. }
  split; [intros i Hi; apply P; lia|]. split.
  { intros i Hi. unfold get_sample_rate_from_frequency. rewrite P by lia. rewrite nth_overflow; [reflexivity|]. cbn [length std_rates]. lia. }
  split; [exact N|]. intros i j Hi Hj. unfold get_sample_rate_from_frequency. rewrite !P by lia. cbn [fst]. intros E.
  assert (NoDup std_rates) as ND by (unfold std_rates; repeat (constructor; [cbn; intuition discriminate|]); constructor).
  rewrite NoDup_nth in ND. specialize (ND (Z.to_nat i) (Z.to_nat j) ltac:(cbn; lia) ltac:(cbn; lia) E). lia.
Qed.
Print Assumptions C51_sample_rate_index_partial.

Example C51_example : get_sample_rate_index 44100 = 0 /\ fst (get_sample_rate_from_frequency 4) = 44100.
Proof. split; vm_compute; reflexivity. Qed.

(* ---------------------------------------------------------------------------------------- *)
(** ** C52 ExtractAudioExtraData *)
Lemma ok3_inj {A B C} (a a' : A) (b b' : B) (c c' : C) : Ok (a, b, c) = Ok (a', b', c') -> a = a' /\ b = b' /\ c = c'.
Proof. intros E. inversion E. auto. Qed.

Definition extra_consistent (data : list Z) : Prop :=
  forall e s k, extract_audio_extra_data AVCodecIdAAC data = Ok (e, s, k) ->
  exists x a, e = Some x /\ parse_asc x = Ok a /\ asc_sample_rate a = ac_sample_rate k /\ asc_channels a = ac_channels k.

(** The full claim [forall data, bytes_ok data -> extra_consistent data] fails for channel configuration 7 (8 channels). *)
Theorem C52_extract_audio_refuted : exists data, bytes_ok data /\ ~ extra_consistent data.
Proof.
  exists [255; 241; 81; 192; 1; 31; 252]. split; [unfold bytes_ok; rewrite !Forall_cons_iff; unfold byte_ok; repeat split; try constructor; lia|].
  intros H. destruct (H (Some [18; 56]) 7 {| ac_sample_rate := 44100; ac_sample_size := 16; ac_channels := 7; ac_has_adts := true; ac_bit_rate := 0 |} ltac:(vm_compute; reflexivity)) as (x & a & Ex & Ea & _ & Ec).
  inversion Ex; subst x. vm_compute in Ea. inversion Ea; subst a. vm_compute in Ec. discriminate.
Qed.
Print Assumptions C52_extract_audio_refuted.

(** Totality for every codec id and byte slice, the exact result for AAC, and consistency for every other configuration. *)
Theorem C52_extract_audio_partial codec data : bytes_ok data ->
  (exists r, extract_audio_extra_data codec data = r /\ r <> Panic /\ r <> NoFuel) /\
  (codec <> AVCodecIdAAC -> extract_audio_extra_data codec data = Ok (None, 0, {| ac_sample_rate := 8000; ac_sample_size := 16; ac_channels := 1; ac_has_adts := false; ac_bit_rate := 0 |})) /\
  (extract_audio_extra_data AVCodecIdAAC data = Err <-> (zlen data < 7 \/ be_value (firstn 7 data) / 2 ^ 44 <> 4095)) /\
  (forall e s k, extract_audio_extra_data AVCodecIdAAC data = Ok (e, s, k) ->
     exists a, read_adts_fixed_header data = Ok a /\ ac_has_adts k = true /\ ac_sample_size k = 16 /\ ac_bit_rate k = 0 /\ ac_channels k = adts_channel a /\
       (s = 7 <-> adts_protection_absent a = 1) /\ (s = 9 <-> adts_protection_absent a = 0) /\
       exists x c, e = Some x /\ parse_asc x = Ok c /\ asc_sample_rate c = ac_sample_rate k /\ asc_chan_config c = ac_channels k /\
         asc_object_type c = adts_profile a + 1 /\ (adts_channel a <> 7 -> asc_channels c = ac_channels k)).
Proof.
  intros B.
  assert (A : extract_audio_extra_data AVCodecIdAAC data =
     if (zlen data <? 7) then Err else if be_value (firstn 7 data) / 2 ^ 44 =? 4095 then
        let header := be_value (firstn 7 data) in
        Ok (Some (adts_to_asc header), (if adts_protection_absent header =? 0 then 9 else 7),
          {| ac_sample_rate := fst (get_sample_rate_from_frequency (adts_frequency header)); ac_sample_size := 16; ac_channels := adts_channel header; ac_has_adts := true; ac_bit_rate := 0 |}) else Err).
  { unfold extract_audio_extra_data. rewrite Z.eqb_refl. destruct (zlen data <? 7) eqn:L; [reflexivity|]. rewrite C49_read_exact by (auto; lia). destruct (_ =? 4095); reflexivity. }
  assert (O : codec <> AVCodecIdAAC -> extract_audio_extra_data codec data = Ok (None, 0, {| ac_sample_rate := 8000; ac_sample_size := 16; ac_channels := 1; ac_has_adts := false; ac_bit_rate := 0 |})).
  { intros Nc. unfold extract_audio_extra_data. replace (codec =? AVCodecIdAAC) with false by lia. reflexivity. }
  split.
  { eexists. split; [reflexivity|]. destruct (Z.eq_dec codec AVCodecIdAAC) as [->|Nc].
    - rewrite A. destruct (zlen data <? 7); [split; discriminate|]. destruct (_ =? 4095); split; discriminate.
    - rewrite (O Nc). split; discriminate. }
  split; [exact O|]. rewrite A. split.
  { destruct (zlen data <? 7) eqn:L; [split; [left; lia|reflexivity]|]. destruct (_ =? 4095) eqn:S.
    - apply Z.eqb_eq in S. split; [discriminate|]. intros [?|?]; [lia|contradiction].
    - apply Z.eqb_neq in S. split; auto. }
  intros e s k. destruct (zlen data <? 7) eqn:L; [discriminate|]. destruct (_ =? 4095) eqn:S; [|discriminate]. cbv zeta. intros E. apply ok3_inj in E as (<- & <- & <-).
  exists (be_value (firstn 7 data)). rewrite C49_read_exact, S by (auto; lia). cbn [ac_has_adts ac_channels ac_sample_rate]. generalize (be_value (firstn 7 data)). intros a.
  assert (Hb : 0 <= adts_protection_absent a < 2) by (apply (adts_get_range a 40 1 1 eq_refl); lia).
  do 5 (split; [reflexivity|]). split; [destruct (_ =? 0) eqn:Q; lia|]. split; [destruct (_ =? 0) eqn:Q; lia|].
  destruct (C50_adts_to_asc a []) as (_ & c & P & P1 & P2 & P3 & P4 & P5). rewrite app_nil_r in P. exists (adts_to_asc a), c. repeat split; auto.
  - rewrite P3. cbn [ac_sample_rate]. unfold get_sample_rate_from_frequency. rewrite rate_of_spec; [reflexivity|]. exact (proj1 (proj2 (adts_ranges a))).
  - intros N7. rewrite P5. destruct (adts_ranges a) as (_ & _ & Hc). assert (adts_channel a = 0 \/ adts_channel a = 1 \/ adts_channel a = 2 \/ adts_channel a = 3 \/ adts_channel a = 4 \/ adts_channel a = 5 \/ adts_channel a = 6) as Q by lia.
    repeat (destruct Q as [->|Q]; [reflexivity|]). now rewrite Q.
Qed.
Print Assumptions C52_extract_audio_partial.

Example C52_example :
  exists k, extract_audio_extra_data AVCodecIdAAC [255; 240; 80; 128; 46; 127; 252; 1; 2; 33] = Ok (Some [18; 16], 9, k) /\ ac_sample_rate k = 44100 /\ ac_channels k = 2.
Proof. eexists. repeat (split; [vm_compute; reflexivity|]). vm_compute; reflexivity. Qed.

(* ---------------------------------------------------------------------------------------- *)
(** ** C80 ParseMpeg4AudioConfig decodes AudioSpecificConfig *)
(** ISO/IEC 14496-3 1.6.2.1: object type 31 escapes to 32 + six more bits, frequency index 15 escapes to a 24-bit rate.
    [asc_encode o f rate c] is the start of an AudioSpecificConfig as a bit value with its width. *)
Definition asc_fields (o f rate c : Z) : list (Z * Z) :=
  (if o <? 31 then [(o, 5)] else [(31, 5); (o - 32, 6)]) ++ (if f =? 15 then [(15, 4); (rate, 24)] else [(f, 4)]) ++ [(c, 4)].
Definition width_of (l : list (Z * Z)) : Z := fold_right (fun p a => snd p + a) 0 l.
(** Padded with zero bits to 6 bytes. *)
Definition asc_encode (o f rate c : Z) : list Z := be_bytes 6 (pack (asc_fields o f rate c ++ [(0, 48 - width_of (asc_fields o f rate c))])).

Definition asc_decodes (o f rate c : Z) : Prop :=
  exists k, parse_asc (asc_encode o f rate c) = Ok k /\ asc_object_type k = o /\
    asc_sample_rate k = (if f =? 15 then rate else rate_of f) /\ asc_chan_config k = c /\ asc_channels k = nth (Z.to_nat c) std_channels 0.

(** The full claim: every object type 1..94 but 31, every index, every explicit rate, every configuration below 14. It fails for
    both escapes. *)
Theorem C80_parse_asc_refuted :
  ~ asc_decodes 42 3 0 2 /\ ~ asc_decodes 2 15 44100 2.
Proof.
  split; intros (k & P & Ho & Hr & Hc & _); vm_compute in P; inversion P; subst k; vm_compute in Ho, Hr, Hc; discriminate.
Qed.
Print Assumptions C80_parse_asc_refuted.

Theorem C80_parse_asc_partial :
  (forall o f c r t, 0 <= o < 32 -> 0 <= f < 16 -> 0 <= c < 16 ->
     parse_asc (asc_bytes o f c r ++ t) = if c <=? 13
     then Ok {| asc_object_type := o; asc_sampling_index := f; asc_sample_rate := rate_of f; asc_chan_config := c; asc_channels := nth (Z.to_nat c) std_channels 0 |}
     else Err) /\
  (forall o f c, 0 <= o < 31 -> 0 <= f < 13 -> 0 <= c <= 13 -> asc_decodes o f 0 c) /\
  (forall data, bytes_ok data -> (parse_asc data = Panic <-> zlen data < 2) /\ parse_asc data <> NoFuel).
Proof.
  split; [intros o f c r t Ho Hf Hc; rewrite asc_parse_fields by assumption; unfold asc_of; rewrite rate_of_spec by assumption; reflexivity|]. split.
  - intros o f c Ho Hf Hc. unfold asc_decodes. replace (f =? 15) with false by lia.
    assert (E : asc_encode o f 0 c = asc_bytes o f c 0 ++ [0; 0; 0; 0]).
    { assert (L : length (asc_encode o f 0 c) = 6%nat) by apply be_bytes_length.
      assert (V : be_value (asc_encode o f 0 c) = be_value (asc_bytes o f c 0 ++ [0; 0; 0; 0])).
      { unfold asc_encode. unfold asc_fields. replace (o <? 31) with true by lia. replace (f =? 15) with false by lia. cbn [app width_of fold_right snd]. change (48 - (5 + (4 + (4 + 0)))) with 35.
        rewrite be_bytes_value by (split; [|apply (pack_bound [(o, 5); (f, 4); (c, 4); (0, 35)]); repeat constructor; cbn; lia]; apply (pack_bound [(o, 5); (f, 4); (c, 4); (0, 35)]); repeat constructor; cbn; lia).
        rewrite asc_bytes_eq. unfold pack, be_value. cbn [fold_left fst snd app]. change (2 ^ 5) with 32. change (2 ^ 4) with 16. change (2 ^ 35) with 34359738368. change (0 mod 8) with 0. change (0 mod 34359738368) with 0. Z.div_mod_to_equations; lia. }
      assert (B2 : bytes_ok (asc_bytes o f c 0 ++ [0; 0; 0; 0])) by (apply bytes_ok_app; split; [apply be_bytes_ok|apply (bytes_ok_zeros 4)]).
      assert (L2 : length (asc_bytes o f c 0 ++ [0; 0; 0; 0]) = 6%nat) by (rewrite app_length; unfold asc_bytes; now rewrite be_bytes_length).
      rewrite <- (be_value_bytes (asc_encode o f 0 c)) by apply be_bytes_ok. rewrite L, V, <- L2. now apply be_value_bytes. }
    rewrite E, asc_parse_fields by lia. replace (c <=? 13) with true by lia. eexists. split; [reflexivity|]. split; [reflexivity|]. split; [|split; reflexivity]. apply rate_of_spec. lia.
  - intros data B. destruct data as [|b0 [|b1 t]].
    + split; [split; intros; reflexivity|discriminate].
    + split; [split; intros; reflexivity|discriminate].
    + unfold bytes_ok in B. rewrite !Forall_cons_iff in B. rewrite parse_asc_spec by tauto. cbv zeta. pose proof (zlen_nonneg t). rewrite !zlen_cons. destruct (_ <=? 13); split; try split; try discriminate; lia.
Qed.
Print Assumptions C80_parse_asc_partial.

Example C80_example : asc_decodes 2 3 0 2 /\ asc_encode 2 3 0 2 = [17; 144; 0; 0; 0; 0].
Proof. split; [|vm_compute; reflexivity]. eexists. repeat (split; [vm_compute; reflexivity|]). vm_compute; reflexivity. Qed.

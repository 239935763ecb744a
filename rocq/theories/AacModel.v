(** * AacModel: utils/aac_util.go and ExtractAudioExtraData. *)
From Verif Require Import Base BufioModel.

(** utils/aac_util.go:61-78 audioSamplingRates: a Go map; a missing key reads as 0. *)
Definition audio_sampling_rates : list (Z * Z) :=
  [(0, 96000); (1, 88200); (2, 64000); (3, 48000); (4, 44100); (5, 32000); (6, 24000); (7, 22050); (8, 16000);
   (9, 12000); (10, 11025); (11, 8000); (12, 7350); (13, -1); (14, -1); (15, -1)].
Fixpoint map_get (m : list (Z * Z)) (k : Z) : Z * bool :=
  match m with
  | [] => (0, false)
  | (k', v) :: r => if k' =? k then (v, true) else map_get r k
  end.

(** utils/aac_util.go:79-94 mpeg4AudioChannels. *)
Definition mpeg4_audio_channels : list Z := [0; 1; 2; 3; 4; 5; 6; 8; 0; 0; 0; 7; 8; 24].

(** utils/aac_util.go:113-176 ADtsHeader (a uint64) and its accessors: int(a) >> k & m. *)
Definition adts_get (a k m : Z) : Z := Z.land (Z.shiftr (i64 a) k) m.
Definition adts_sync a := adts_get a 44 4095.
Definition adts_id a := adts_get a 43 1.
Definition adts_layer a := adts_get a 41 3.
Definition adts_protection_absent a := adts_get a 40 1.
Definition adts_profile a := adts_get a 38 3.
Definition adts_frequency a := adts_get a 34 15.
Definition adts_private a := adts_get a 33 1.
Definition adts_channel a := adts_get a 30 7.
Definition adts_original a := adts_get a 29 1.
Definition adts_home a := adts_get a 28 1.
Definition adts_copyright_bit a := adts_get a 27 1.
Definition adts_copyright_start a := adts_get a 26 1.
Definition adts_frame_length a := adts_get a 13 8191.
Definition adts_fullness a := adts_get a 2 2047.
Definition adts_blocks a := Z.land (i64 a) 3.

(** utils/aac_util.go:178-185. *)
Definition get_sample_rate_from_frequency (index : Z) : Z * bool := map_get audio_sampling_rates index.
Definition get_sample_rate_index (rate : Z) : Z := fst (map_get audio_sampling_rates rate).

(** header[i] = header[i] | v *)
Definition or_at (h : list Z) (i v : Z) : res (list Z) := x <- of_opt (idx h i);; of_opt (upd h i (Z.lor x v)).

(** utils/aac_util.go:187-217 SetADtsHeader; the arguments are ints, byte(x) keeps the low 8 bits.
    In Go & and << have the same precedence: byte(x) & m << k is (byte(x) & m) << k, of type byte. *)
Definition set_adts_header (header : list Z) (mpegId aot index channelConfig size : Z) : res (list Z) :=
  h <- of_opt (upd header 0 255);;
  h <- of_opt (upd h 1 (Z.lor 240 (u8 (Z.shiftl (Z.land (u8 mpegId) 1) 3))));;
  h <- or_at h 1 0;;
  h <- or_at h 1 1;;
  h <- of_opt (upd h 2 (u8 (Z.shiftl (Z.land (u8 aot) 3) 6)));;
  h <- or_at h 2 (u8 (Z.shiftl (Z.land (u8 index) 15) 2));;
  h <- or_at h 2 0;;
  h <- or_at h 2 (Z.land (Z.shiftr (u8 channelConfig) 2) 1);;
  h <- of_opt (upd h 3 (u8 (Z.shiftl (u8 channelConfig) 6)));;
  h <- or_at h 3 0;;
  h <- or_at h 3 0;;
  h <- or_at h 3 0;;
  h <- or_at h 3 0;;
  h <- or_at h 3 (u8 (Z.land (Z.shiftr size 11) 3));;
  h <- of_opt (upd h 4 (u8 (Z.shiftr size 3)));;
  h <- of_opt (upd h 5 (u8 (Z.shiftl (u8 (Z.land size 7)) 5)));;
  h <- or_at h 5 31;;
  of_opt (upd h 6 252).

(** utils/aac_util.go:219-232 ReadADtsFixedHeader. *)
Definition read_adts_fixed_header (data : list Z) : res Z :=
  w <- be_get 2 data;;
  if negb (4095 =? Z.shiftr w 4) then Err
  else
    b0 <- of_opt (idx data 0);;
    b1 <- of_opt (idx data 1);;
    b2 <- of_opt (idx data 2);;
    let header := u64 (Z.shiftl (u64 (Z.lor (Z.lor (Z.shiftl b0 16) (Z.shiftl b1 8)) b2)) 32) in
    s <- of_opt (slice_from data 3);;
    lo <- be_get 4 s;;
    Ok (Z.lor header lo).

(** utils/aac_util.go:234-245 ADtsHeader2MpegAudioConfigData (never fails). *)
Definition adts_to_asc (header : Z) : list Z :=
  let profile := adts_profile header in
  let b0 := u8 (Z.shiftl (Z.land (u8 (u8 profile + 1)) 31) 3) in
  let frequency := adts_frequency header in
  let b0 := Z.lor b0 (Z.land (Z.shiftr (u8 frequency) 1) 7) in
  let b1 := u8 (Z.shiftl (Z.land (u8 frequency) 1) 7) in
  let b1 := Z.lor b1 (u8 (Z.shiftl (Z.land (u8 (adts_channel header)) 15) 3)) in
  [b0; b1].

(** utils/aac_util.go:97-111 MPEG4AudioConfig, the fields ParseMpeg4AudioConfig sets. *)
Record asc := { asc_object_type : Z; asc_sampling_index : Z; asc_sample_rate : Z; asc_chan_config : Z; asc_channels : Z }.

(** utils/aac_util.go:247-266 ParseMpeg4AudioConfig. *)
Definition parse_asc (data : list Z) : res asc :=
  b0 <- of_opt (idx data 0);;
  b1 <- of_opt (idx data 1);;
  let index := Z.lor (u8 (Z.shiftl (Z.land b0 7) 1)) (Z.shiftr b1 7) in
  let chan := Z.land (Z.shiftr b1 3) 15 in
  if chan >=? zlen mpeg4_audio_channels then Err
  else
    channels <- of_opt (idx mpeg4_audio_channels chan);;
    Ok {| asc_object_type := Z.shiftr b0 3; asc_sampling_index := index;
          asc_sample_rate := fst (map_get audio_sampling_rates index); asc_chan_config := chan; asc_channels := channels |}.

(* ---------------------------------------------------------------------------------------- *)
(** av_stream.go:5-11 AudioConfig. *)
Record audio_config := { ac_sample_rate : Z; ac_sample_size : Z; ac_channels : Z; ac_has_adts : bool; ac_bit_rate : Z }.
Definition audio_config_zero : audio_config := {| ac_sample_rate := 0; ac_sample_size := 0; ac_channels := 0; ac_has_adts := false; ac_bit_rate := 0 |}.

(** utils/codec_id.go *)
Definition AVCodecIdH264 := 27.
Definition AVCodecIdH265 := 173.
Definition AVCodecIdPCMS16LE := 65536.
Definition AVCodecIdPCMMULAW := 65542.
Definition AVCodecIdPCMALAW := 65543.
Definition AVCodecIdADPCMG722 := 69660.
Definition AVCodecIdADPCMG726 := 69643.
Definition AVCodecIdAAC := 86018.

(** video_stream.go:63-106 ExtractAudioExtraData: (extraData, skip, config). *)
Definition extract_audio_extra_data (codec : Z) (data : list Z) : res (option (list Z) * Z * audio_config) :=
  if codec =? AVCodecIdAAC then
    if zlen data <? 7 then Err
    else
      header <- read_adts_fixed_header data;;
      let skip := if adts_protection_absent header =? 0 then 7 + 2 else 7 in
      let extra := adts_to_asc header in
      let rate := fst (get_sample_rate_from_frequency (adts_frequency header)) in
      Ok (Some extra, skip,
          {| ac_sample_rate := rate; ac_sample_size := 16; ac_channels := adts_channel header; ac_has_adts := true; ac_bit_rate := 0 |})
  else Ok (None, 0, {| ac_sample_rate := 8000; ac_sample_size := 16; ac_channels := 1; ac_has_adts := false; ac_bit_rate := 0 |}).

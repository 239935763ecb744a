(** * PacketModel: av_packet.go, packet_utils.go, av_stream.go, codec_paraments.go, video_stream.go, tracks.go
    and muxer.go. *)
From Coq Require Import String.
From Verif Require Import Base BufioModel NaluModel RecordModel SpsModel AacModel UtilModel.
Open Scope Z_scope.

(** utils/av_util.go:7-15. *)
Definition AVMediaTypeUnknown := -1.
Definition AVMediaTypeVideo := 0.
Definition AVMediaTypeAudio := 1.
(** utils/codec_id.go AVCodecIdNONE. *)
Definition AVCodecIdNONE := 0.

(** av_packet.go:22-27. *)
Definition PacketTypeAnnexB := 1.
Definition PacketTypeAVCC := 2.
Definition PacketTypeNONE := 3.

(* ---------------------------------------------------------------------------------------- *)
(** ** codec_paraments.go *)

(** codec_paraments.go:23-28 codecData; a nil slice is [None]. *)
Record cd_common := { cc_width : Z; cc_height : Z; cc_annexb : option (list Z); cc_m4vc : option (list Z) }.

(** codec_paraments.go:38-41 AVCCodecData, 67-70 HEVCCodecData.  The records are only read after construction, so the
    parameter set lists are kept by value; of the other fields of the HEVC record only LengthSizeMinusOne is used. *)
Inductive codec_data :=
| CdAvc (c : cd_common) (sps pps : list (list Z))
| CdHevc (c : cd_common) (length_size : Z) (vps sps pps : list (list Z)).

Definition cd_c (d : codec_data) : cd_common := match d with CdAvc c _ _ => c | CdHevc c _ _ _ _ => c end.
(** codec_paraments.go:30-36. *)
Definition cd_width d := cc_width (cd_c d).
Definition cd_height d := cc_height (cd_c d).

(** codec_paraments.go:145-154 mix; append of nothing to nil is nil. *)
Definition mix (data : list (list (list Z))) : option (list Z) :=
  match concat (concat data) with [] => None | l => Some l end.

(** A possibly nil slice, as a list. *)
Definition of_nil (o : option (list Z)) : list Z := match o with Some l => l | None => [] end.

(** codec_paraments.go:43-49 and 84-90 AnnexBExtraData (value receivers: the assignment is lost). *)
Definition cd_annexb (d : codec_data) : list Z :=
  match cc_annexb (cd_c d) with
  | Some l => l
  | None => of_nil (match d with CdAvc _ s p => mix [s; p] | CdHevc _ _ v s p => mix [v; s; p] end)
  end.

(** codec_paraments.go:51-57 and 92-98 MP4ExtraData; the error of Marshal is dropped and its nil result returned. *)
Definition cd_mp4 (d : codec_data) : res (option (list Z)) :=
  match cc_m4vc (cd_c d) with
  | Some l => Ok (Some l)
  | None =>
    match (match d with CdAvc _ s p => avc_marshal s p | CdHevc _ _ v s p => hevc_marshal v s p end) with
    | Ok l => Ok (Some l) | Err => Ok None | Panic => Panic | NoFuel => NoFuel
    end
  end.

(** codec_paraments.go:100-121 ParseAVCDecoderConfigurationRecord. *)
Definition parse_avc_record (data : list Z) : res codec_data :=
  r <- avc_unmarshal avc_record_zero data;;
  s0 <- of_opt (idx (ar_sps r) 0);;
  sps <- avc_parse_sps s0;;
  Ok (CdAvc {| cc_width := as_width sps; cc_height := as_height sps; cc_annexb := None; cc_m4vc := Some data |} (ar_sps r) (ar_pps r)).

(** codec_paraments.go:123-143 ParseHEVCDecoderConfigurationRecord. *)
Definition parse_hevc_record (grow : nat -> nat) (data : list Z) : res codec_data :=
  '(h, s) <- hevc_unmarshal grow data;;
  s0 <- of_opt (idx (ns_read (hs_heap s) (hs_sps s)) 0);;
  sps <- hevc_parse_sps s0;;
  Ok (CdHevc {| cc_width := hsp_width sps; cc_height := hsp_height sps; cc_annexb := None; cc_m4vc := Some data |} (hh_length_size h)
        (ns_read (hs_heap s) (hs_vps s)) (ns_read (hs_heap s) (hs_sps s)) (ns_read (hs_heap s) (hs_pps s))).

(** codec_paraments.go:156-179 NewAVCCodecData. *)
Definition new_avc_codec_data (sps pps : list Z) : res codec_data :=
  i <- avc_parse_sps sps;;
  Ok (CdAvc {| cc_width := as_width i; cc_height := as_height i; cc_annexb := mix [[sps]; [pps]]; cc_m4vc := None |} [sps] [pps]).

(** codec_paraments.go:181-206 NewHEVCCodecData: the record is fresh, LengthSizeMinusOne is 0. *)
Definition new_hevc_codec_data (vps sps pps : list Z) : res codec_data :=
  i <- hevc_parse_sps sps;;
  Ok (CdHevc {| cc_width := hsp_width i; cc_height := hsp_height i; cc_annexb := mix [[vps]; [sps]; [pps]]; cc_m4vc := None |} 0 [vps] [sps] [pps]).

(* ---------------------------------------------------------------------------------------- *)
(** ** av_stream.go, video_stream.go *)

(** av_stream.go:13-23 AVStream. *)
Record stream := mkStream {
  st_media : Z; st_index : Z; st_codec : Z; st_params : option codec_data; st_data : option (list Z); st_timebase : Z; st_audio : audio_config }.

(** av_stream.go:25-27 NewAVStream. *)
Definition new_av_stream (media index codec : Z) (extra : option (list Z)) (config : option codec_data) : stream :=
  mkStream media index codec config extra 0 audio_config_zero.

(** video_stream.go:12-24 CreateHevcStreamFromKeyFrame. *)
Definition create_hevc_stream (data : list Z) (index : Z) : res stream :=
  '(vps, sps, pps) <- hevc_parse_extra_data data;;
  c <- new_hevc_codec_data vps sps pps;;
  Ok (new_av_stream AVMediaTypeVideo index AVCodecIdH265 (Some (cd_annexb c)) (Some c)).
(** video_stream.go:27-39 CreateAVCStreamFromKeyFrame. *)
Definition create_avc_stream (data : list Z) (index : Z) : res stream :=
  '(sps, pps) <- avc_parse_extra_data data;;
  c <- new_avc_codec_data sps pps;;
  Ok (new_av_stream AVMediaTypeVideo index AVCodecIdH264 (Some (cd_annexb c)) (Some c)).

(** video_stream.go:41-61 ExtractVideoExtraDataFromKeyFrame; nil is [None]. *)
Definition extract_video_extra_data (codec : Z) (data : list Z) : res (option (list Z)) :=
  if AVCodecIdH264 =? codec then
    '(sps, pps) <- avc_parse_extra_data data;; Ok (Some (sps ++ pps))
  else if AVCodecIdH265 =? codec then
    '(vps, sps, pps) <- hevc_parse_extra_data data;; Ok (Some ((vps ++ sps) ++ pps))
  else Ok None.

(** video_stream.go:182-209 generateVideoCodecData. *)
Definition generate_video_codec_data (grow : nat -> nat) (packType id : Z) (data : list Z) : res (option codec_data) :=
  if packType =? PacketTypeAVCC then
    if id =? AVCodecIdH264 then c <- parse_avc_record data;; Ok (Some c)
    else if id =? AVCodecIdH265 then c <- parse_hevc_record grow data;; Ok (Some c)
    else Ok None
  else
    if id =? AVCodecIdH264 then
      '(sps, pps) <- avc_parse_extra_data data;; c <- new_avc_codec_data sps pps;; Ok (Some c)
    else if id =? AVCodecIdH265 then
      '(vps, sps, pps) <- hevc_parse_extra_data data;; c <- new_hevc_codec_data vps sps pps;; Ok (Some c)
    else Ok None.

(* ---------------------------------------------------------------------------------------- *)
(** ** av_packet.go *)

(** av_packet.go:37-55 AVPacket.  [pk_alloc] is OnBufferAlloc: given a size, the contents of the slice it returns. *)
Record packet := mkPkt {
  pk_data : list Z; pk_pts : Z; pk_dts : Z; pk_duration : Z; pk_key : bool; pk_created : Z; pk_buffer : Z; pk_index : Z; pk_timebase : Z;
  pk_media : Z; pk_codec : Z; pk_type : Z; pk_avcc : option (list Z); pk_annexb : option (list Z); pk_alloc : option (Z -> list Z) }.

(** av_packet.go:31-33, the New function of PacketPool. *)
Definition pkt_zero : packet := mkPkt [] 0 0 0 false 0 0 0 0 0 0 0 None None None.

(** av_packet.go:91-98, on the packet taken from the pool. *)
Definition init_audio (p : packet) (data : list Z) (ts id index timebase : Z) : packet :=
  mkPkt data ts ts (pk_duration p) (pk_key p) (pk_created p) (pk_buffer p) index timebase AVMediaTypeAudio id (pk_type p) (pk_avcc p) (pk_annexb p) (pk_alloc p).
(** av_packet.go:104-113. *)
Definition init_video (p : packet) (data : list Z) (dts pts : Z) (key : bool) (type id index timebase : Z) : packet :=
  mkPkt data pts dts (pk_duration p) key (pk_created p) (pk_buffer p) index timebase AVMediaTypeVideo id type (pk_avcc p) (pk_annexb p) (pk_alloc p).
(** av_packet.go:119-133: what FreePacket puts into the pool. *)
Definition freed (p : packet) : packet :=
  mkPkt [] 0 0 0 false 0 0 0 0 AVMediaTypeUnknown AVCodecIdNONE PacketTypeNONE None None None.

(** sync.Pool: Get returns some packet put before, or a new one; the pool may drop packets at any time.  [Some k] takes the k-th. *)
Definition pool := list packet.
Definition pool_get (s : pool) (choice : option nat) : packet * pool :=
  match choice with
  | Some k => match nth_error s k with Some p => (p, firstn k s ++ skipn (S k) s) | None => (pkt_zero, s) end
  | None => (pkt_zero, s)
  end.
(** av_packet.go:90-101 NewAudioPacket. *)
Definition new_audio_packet (s : pool) (choice : option nat) data ts id index timebase : packet * pool :=
  let '(p, s') := pool_get s choice in (init_audio p data ts id index timebase, s').
(** av_packet.go:103-116 NewVideoPacket. *)
Definition new_video_packet (s : pool) (choice : option nat) data dts pts key type id index timebase : packet * pool :=
  let '(p, s') := pool_get s choice in (init_video p data dts pts key type id index timebase, s').
(** av_packet.go:118-135 FreePacket. *)
Definition free_packet (s : pool) (p : packet) : pool := freed p :: s.

(** video_stream.go:152-180 ExtractAudioPacket: skip is 0, so the data is the same slice. *)
Definition extract_audio_packet (s : pool) (choice : option nat) (codec : Z) (data : list Z) (ts index timebase : Z) (adts : bool) : res (packet * pool) :=
  if (AVCodecIdAAC =? codec) && adts then
    d <- of_opt (slice_from data 0);; Ok (new_audio_packet s choice d ts codec index timebase)
  else Ok (new_audio_packet s choice data ts codec index timebase).

(* ---------------------------------------------------------------------------------------- *)
(** ** packet_utils.go *)

Definition set_annexb (p : packet) (l : list Z) : packet :=
  mkPkt (pk_data p) (pk_pts p) (pk_dts p) (pk_duration p) (pk_key p) (pk_created p) (pk_buffer p) (pk_index p) (pk_timebase p)
    (pk_media p) (pk_codec p) (pk_type p) (pk_avcc p) (Some l) (pk_alloc p).
Definition set_avcc (p : packet) (l : list Z) : packet :=
  mkPkt (pk_data p) (pk_pts p) (pk_dts p) (pk_duration p) (pk_key p) (pk_created p) (pk_buffer p) (pk_index p) (pk_timebase p)
    (pk_media p) (pk_codec p) (pk_type p) (Some l) (pk_annexb p) (pk_alloc p).

(** packet_utils.go:24-28, 51-55, 84-88: OnBufferAlloc(size) or make([]byte, size). *)
Definition alloc (p : packet) (size : Z) : list Z :=
  match pk_alloc p with Some f => f size | None => zeros (Z.to_nat size) end.

(** packet_utils.go:21 avc.RemoveStartCode(x)[0]. *)
Definition first_header (x : list Z) : res Z := n <- remove_start_code x;; of_opt (idx n 0).

Definition is_h26x (id : Z) : bool := (id =? AVCodecIdH264) || (id =? AVCodecIdH265).

(** packet_utils.go:14-75 AVCCPacket2AnnexB: the packet afterwards and the returned slice. *)
Definition avcc_packet_to_annexb (s : stream) (p : packet) : res (packet * list Z) :=
  _ <- assert (AVMediaTypeVideo =? pk_media p);;
  if negb (PacketTypeAVCC =? pk_type p) || negb (is_h26x (st_codec s)) then
    p1 <- match pk_key p && is_h26x (st_codec s), st_params s, pk_annexb p with
          | true, Some c, None =>
            let extra := cd_annexb c in
            h1 <- first_header extra;;
            h2 <- first_header (pk_data p);;
            if negb (h1 =? h2) then
              let data := copy (alloc p (zlen extra + zlen (pk_data p))) extra in
              data <- of_opt (copy_at data (zlen extra) (pk_data p));;
              Ok (set_annexb p data)
            else Ok p
          | _, _, _ => Ok p
          end;;
    match pk_annexb p1 with Some d => Ok (p1, d) | None => Ok (p1, pk_data p1) end
  else
    match pk_annexb p with
    | Some d => Ok (p, d)
    | None =>
      let extraSize := match pk_key p, st_params s with true, Some c => zlen (cd_annexb c) | _, _ => 0 end in
      let bytes := alloc p (extraSize + zlen (pk_data p) + 256) in
      '(bytes, n) <-
        (if AVCodecIdH264 =? pk_codec p then
           call_sub bytes extraSize (fun t => avcc2annexb t (pk_data p) [])
         else if AVCodecIdH265 =? pk_codec p then
           match st_params s with
           | Some (CdHevc _ lengthSize _ _ _) =>
             match call_sub bytes extraSize (fun t => hevc_mp4_to_annexb t (pk_data p) [] lengthSize) with Err => Panic | r => r end
           | _ => Panic
           end
         else Ok (bytes, 0));;
      c <- of_opt (st_params s);;
      head <- of_opt (slice bytes 0 extraSize);;
      let bytes := copy head (cd_annexb c) ++ skipn (Z.to_nat extraSize) bytes in
      r <- of_opt (slice bytes 0 (n + extraSize));;
      Ok (set_annexb p r, r)
    end.

(** packet_utils.go:77-96 AnnexBPacket2AVCC. *)
Definition annexb_packet_to_avcc (p : packet) : res (packet * list Z) :=
  _ <- assert (AVMediaTypeVideo =? pk_media p);;
  if negb (PacketTypeAnnexB =? pk_type p) || negb (is_h26x (pk_codec p)) then Ok (p, pk_data p)
  else
    match pk_avcc p with
    | Some d => Ok (p, d)
    | None =>
      '(bytes, n) <- annexb2avcc (alloc p (zlen (pk_data p) + 256)) (pk_data p);;
      r <- of_opt (slice bytes 0 n);;
      Ok (set_avcc p r, r)
    end.

(** packet_utils.go:98-106 IsKeyFrame. *)
Definition is_key_frame (id : Z) (data : list Z) : res bool :=
  if AVCodecIdH264 =? id then avc_is_key_frame data
  else if AVCodecIdH265 =? id then hevc_is_key_frame data
  else Ok false.

(* ---------------------------------------------------------------------------------------- *)
(** ** tracks.go, muxer.go *)

(** tracks.go:9-16 Add. *)
Definition tm_add (t : list stream) (s : stream) : list stream := t ++ [s].
(** tracks.go:18-26 Find, 28-36 FindTrackWithType: the position of the track found. *)
Fixpoint tm_find_from (f : stream -> bool) (i : Z) (t : list stream) : option Z :=
  match t with [] => None | s :: r => if f s then Some i else tm_find_from f (i + 1) r end.
Definition tm_find (t : list stream) (id : Z) : option Z := tm_find_from (fun s => st_codec s =? id) 0 t.
Definition tm_find_type (t : list stream) (media : Z) : option Z := tm_find_from (fun s => st_media s =? media) 0 t.
(** tracks.go:38-40 Get. *)
Definition tm_get (t : list stream) (i : Z) : res stream := of_opt (idx t i).

(** muxer.go:13-16 BaseMuxer. *)
Record muxer := { mx_tracks : list stream; mx_completed : bool }.
Definition mx_new : muxer := {| mx_tracks := []; mx_completed := false |}.
(** muxer.go:18-27 AddTrack: [Err] is the error return (with -1).  The message is built by fmt.Errorf with %s, which recovers
    from a panic of MediaType.String(). *)
Definition mx_add_track (m : muxer) (s : stream) : muxer * res Z :=
  match tm_find_type (mx_tracks m) (st_media s) with
  | Some _ => (m, Err)
  | None => let t := tm_add (mx_tracks m) s in ({| mx_tracks := t; mx_completed := mx_completed m |}, Ok (zlen t - 1))
  end.
(** muxer.go:29-32 WriteHeader. *)
Definition mx_write_header (m : muxer) : muxer * Z := ({| mx_tracks := mx_tracks m; mx_completed := true |}, 0).

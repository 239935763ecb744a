(** * RecordSafeSpec: calls that no part of the recording chain panics on. *)
From Verif Require Import Base AacModel PacketModel PacketProofs DemuxModel DemuxProofs PropertiesDemux.

(** No track is announced and the demuxer is not closed. A key frame begins with a unit of at least one byte and its parameter sets can be looked for. *)
Definition safe_call (x : oracle * op) : Prop :=
  match snd x with
  | OpVideo _ id data true _ _ => bytes_ok data /\ ~ key_panics id data /\ nal_header data <> None
  | OpNewAudio _ _ _ _ _ | OpNewVideo _ _ _ _ | OpClose => False
  | _ => True
  end.
(** A key frame that does not begin with a unit, in an H.264 or H.265 track with parameter sets. *)
Definition headless (tracks : list stream) (p : packet) : Prop :=
  pk_media p = AVMediaTypeVideo /\ pk_key p = true /\ nal_header (pk_data p) = None /\ exists s, idx tracks (pk_index p) = Some s /\ is_h26x (st_codec s) = true /\ st_params s <> None.

(** Calls of an flv parser with H.264 video: any records, any packet data; an announced AAC track needs an AudioSpecificConfig of two bytes. *)
Definition flv_call (x : oracle * op) : Prop :=
  match snd x with
  | OpNewVideo _ id _ record => id = AVCodecIdH264 /\ bytes_ok record /\ zlen record < 2 ^ 63
  | OpNewAudio _ id _ extra c => is_h26x id = false /\ (id = AVCodecIdAAC -> ac_has_adts c = false -> exists e, extra = Some e /\ bytes_ok e /\ 2 <= zlen e)
  | OpVideo _ id data _ _ _ => id = AVCodecIdH264 /\ bytes_ok data
  | OpAudio _ id _ _ => is_h26x id = false
  | OpClose => False
  | _ => True
  end.

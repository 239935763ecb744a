(** * FlvSafeSpec: calls of an flv parser, and packets that cannot be recorded. *)
From Coq Require Import List.
From Verif Require Import Base NaluSpec AacModel PacketModel PacketProofs DemuxModel DemuxProofs TrackSpec IntakeSpec.

(** Video of any codec, any records, any packet data; an announced AAC track needs an AudioSpecificConfig of two bytes. *)
Definition flv_source (x : oracle * op) : Prop :=
  match snd x with
  | OpNewVideo _ _ _ record => bytes_ok record /\ zlen record < 2 ^ 63
  | OpNewAudio _ id _ extra c => is_h26x id = false /\ (id = AVCodecIdAAC -> ac_has_adts c = false -> exists e, extra = Some e /\ bytes_ok e /\ 2 <= zlen e)
  | OpVideo _ _ data _ _ _ => bytes_ok data
  | OpAudio _ id _ _ => is_h26x id = false
  | OpClose => False
  | _ => True
  end.
(** The units of an H.265 packet in a track whose record announces length prefixes of [k] bytes; converting them must not need more than 256 bytes more. *)
Definition readable (s : stream) (p : packet) : Prop :=
  exists cc k v sp pp units, st_params s = Some (CdHevc cc (Z.of_nat k) v sp pp) /\ pk_data p = lp k units /\ Forall (lp_unit_ok k) units /\ (4 - Z.of_nat k) * zlen units <= 256.
(** An H.265 packet in an H.264 track, or one that does not consist of whole units, or of too many of them. *)
Definition unreadable (tracks : list stream) (p : packet) : Prop :=
  pk_media p = AVMediaTypeVideo /\ pk_codec p = AVCodecIdH265 /\ exists s, idx tracks (pk_index p) = Some s /\ is_h26x (st_codec s) = true /\ ~ readable s p.
(** The payload is the units [units] in the form which the record of its track announces. *)
Definition whole_units (tracks : list stream) (bs : list Z) (units : payload -> list (list Z)) (x : payload) : Prop :=
  exists j s cc k v sp pp, nth_error tracks j = Some s /\ nth_error bs j = Some (payload_buffer x) /\ st_params s = Some (CdHevc cc (Z.of_nat k) v sp pp) /\
    payload_data x = lp k (units x) /\ Forall (lp_unit_ok k) (units x) /\ (4 - Z.of_nat k) * zlen (units x) <= 256.

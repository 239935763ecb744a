(** * Specification vocabulary for tracks and packets (C89-C95).

    Nothing here mentions how the demuxer works: what a call hands over, what a packet holds, and what the
    container formats fix. *)
From Verif Require Import Base NaluModel AacModel PacketModel DemuxModel.
From Coq Require Import String.
Local Open Scope list_scope.

(** Media type, buffer index, codec, bytes, key flag, decoding and presentation time. *)
Definition payload : Type := Z * Z * Z * list Z * bool * Z * Z.
(** What OnAudioPacket and OnVideoPacket are called with. An audio packet has one time and no key flag. *)
Definition call_payload (a : op) : option payload :=
  match a with
  | OpAudio buf id data ts => Some (AVMediaTypeAudio, buf, id, data, false, ts, ts)
  | OpVideo buf id data key dts pts => Some (AVMediaTypeVideo, buf, id, data, key, dts, pts)
  | _ => None
  end.
Definition payloads (h : list (oracle * op)) : list payload := flat_map (fun x => match call_payload (snd x) with Some c => [c] | None => [] end) h.
Definition payload_of (p : packet) : payload := (pk_media p, pk_buffer p, pk_codec p, pk_data p, pk_key p, pk_dts p, pk_pts p).

(** [subseq a b]: [a] is [b] with some elements left out. *)
Inductive subseq {A} : list A -> list A -> Prop :=
| sub_nil : subseq [] []
| sub_skip x a b : subseq a b -> subseq a (x :: b)
| sub_take x a b : subseq a b -> subseq (x :: a) (x :: b).

(** No preprocessing hook is installed. *)
Definition no_hook (x : oracle * op) : Prop := match snd x with OpSetPre (Some _) => False | _ => True end.

(** Ticks per second of a container: FLV and JT/T 1078 count milliseconds, MPEG PS and TS a 90 kHz clock. *)
Definition clock : list (string * Z) := [("flv", 1000); ("jt1078", 1000); ("ps", 90000); ("ts", 90000)]%string.
(** How a container packs video: FLV uses length prefixes (type 2), the others start codes (type 1). *)
Definition packing : list (string * Z) := [("flv", 2); ("jt1078", 1); ("ps", 1); ("ts", 1)]%string.

(** PCM and G.726 carry no header: their rates are estimated from two packets. *)
Definition estimated (codec : Z) : Prop := codec = AVCodecIdPCMS16LE \/ codec = AVCodecIdADPCMG726.

(** [s] and [s'] are the same track up to what is estimated when the probe completes. *)
Definition same_up_to_estimates (s s' : stream) : Prop :=
  st_media s' = st_media s /\ st_index s' = st_index s /\ st_codec s' = st_codec s /\ st_params s' = st_params s /\ st_data s' = st_data s /\ st_timebase s' = st_timebase s /\
  (~ estimated (st_codec s) -> s' = s).

(** The media type, buffer and codec of a call that can open a track. *)
Definition track_call (a : op) : option (Z * Z * Z) :=
  match a with
  | OpNewAudio buf id _ _ _ | OpAudio buf id _ _ => Some (AVMediaTypeAudio, buf, id)
  | OpNewVideo buf id _ _ | OpVideo buf id _ _ _ _ => Some (AVMediaTypeVideo, buf, id)
  | _ => None
  end.

(** * IntakeSpec: the calls of one buffer, and the calls that can open a track. *)
From Verif Require Import Base NaluModel AacModel PacketModel DemuxModel TrackSpec.
From Coq Require Import String.
Local Open Scope list_scope.

Definition payload_buffer (x : payload) : Z := let '(_, b, _, _, _, _, _) := x in b.
Definition payload_data (x : payload) : list Z := let '(_, _, _, data, _, _, _) := x in data.
Definition payload_dts (x : payload) : Z := let '(_, _, _, _, _, dts, _) := x in dts.
(** The elements for buffer [b], in order. *)
Definition for_buffer (b : Z) (l : list payload) : list payload := filter (fun x => payload_buffer x =? b) l.

(** A call whose data describe a track: audio of any codec but AAC, AAC with an ADTS header, and a video key frame of a container
    with start codes whose parameter sets can be read. *)
Definition opens (name : string) (x : payload) : Prop :=
  let '(m, _, c, data, key, _, _) := x in
  (m = AVMediaTypeAudio /\ (c <> AVCodecIdAAC \/ (7 <= zlen data /\ exists hd, read_adts_fixed_header data = Ok hd))) \/
  (m = AVMediaTypeVideo /\ In (name, 1) packing /\ key = true /\
   exists e cd, extract_video_extra_data c data = Ok (Some e) /\ generate_video_codec_data (fun n => n) PacketTypeAnnexB c e = Ok cd).

(** * RemuxSpec: packets passed on from one container to another. *)
From Coq Require Import List.
From Verif Require Import Base NaluModel NaluSpec PacketModel PacketProofs TrackSpec IntakeSpec RecordedSpec RecordedProofs PropertiesRound.
Import ListNotations.
Local Open Scope list_scope.

(** A packet delivered by a demuxer and what is handed to the next one for it: the same kind of packet with the AVCC form of the data. The times may be converted. *)
Definition sent_avcc (p : packet) (x : payload) : Prop :=
  payload_media x = pk_media p /\ payload_codec x = pk_codec p /\ payload_key x = pk_key p /\ exists p', annexb_packet_to_avcc p = Ok (p', payload_data x).
(** Units of one packet that survive AnnexBPacket2AVCC. *)
Definition sendable (l : list (bool * list Z)) : Prop := l <> [] /\ Forall kept l /\ zlen (short_codes l) <= 256.

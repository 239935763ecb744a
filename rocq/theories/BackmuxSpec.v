(** * BackmuxSpec: packets of an flv demuxer sent on in start code form. *)
From Coq Require Import List.
From Verif Require Import Base NaluSpec PacketModel PacketProofs TrackSpec IntakeSpec RecordedSpec RecordedProofs PropertiesUnitsOut.
Import ListNotations.
Local Open Scope list_scope.

(** The payload [x] is the packet [p] of track [s] in start code form. *)
Definition sent_annexb (s : stream) (p : packet) (x : payload) : Prop :=
  payload_media x = pk_media p /\ payload_codec x = pk_codec p /\ payload_key x = pk_key p /\ exists p', avcc_packet_to_annexb s p = Ok (p', payload_data x).
(** The units in start code form of an H.264 payload: a key frame behind the parameter sets, SEI left out. *)
Definition out_avc (sets : list (bool * list Z)) (units : payload -> list (list Z)) (x : payload) : list (bool * list Z) :=
  (if payload_key x then sets else []) ++ norm_units (filter not_sei (units x)).
(** The same for H.265, with SEI. *)
Definition out_hevc (sets : list (bool * list Z)) (units : payload -> list (list Z)) (x : payload) : list (bool * list Z) :=
  (if payload_key x then sets else []) ++ map (pair true) (units x).

(** * FlvRecordSpec: what a recording holds for one call, in a container with length prefixes (flv). *)
From Verif Require Import Base NaluSpec PacketModel PacketProofs TrackSpec IntakeSpec RecordedSpec.
Local Open Scope list_scope.

(** Audio as it is. Video in start code form without SEI; a key frame behind the parameter sets [sets], which are there twice. *)
Definition recorded_flv (sets : list Z) (units : payload -> list (list Z)) (x : payload) : list Z :=
  let '(m, _, _, data, key, _, _) := x in
  if m =? AVMediaTypeVideo then (if key then sets ++ sets else []) ++ annexb_norm (filter not_sei (units x)) else data.

(** The same for H.265: SEI units are kept, every unit gets a start code of four bytes. *)
Definition recorded_flv_hevc (sets : list Z) (units : payload -> list (list Z)) (x : payload) : list Z :=
  let '(m, _, _, data, key, _, _) := x in
  if m =? AVMediaTypeVideo then (if key then sets ++ sets else []) ++ annexb4 (units x) else data.
(** The length of the length prefixes which a decoder configuration record announces. *)
Definition prefix_length (c : codec_data) : Z := match c with CdHevc _ k _ _ _ => k | _ => 0 end.

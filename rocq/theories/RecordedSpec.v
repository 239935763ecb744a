(** * RecordedSpec: what a recording holds for one call, in a container with start codes. *)
From Verif Require Import Base NaluSpec PacketModel PacketProofs TrackSpec IntakeSpec.
Local Open Scope list_scope.

(** The data; in front of it, for a key frame of a track with parameter sets, the parameter sets, unless the data starts with a unit of
    the same header byte as they do. *)
Definition recorded (s : stream) (x : payload) : list Z :=
  let '(m, _, _, data, key, _, _) := x in
  match (if (m =? AVMediaTypeVideo) && key && is_h26x (st_codec s) then st_params s else None) with
  | Some c => match nal_header (cd_annexb c), nal_header data with Some a, Some b => if a =? b then data else cd_annexb c ++ data | _, _ => data end
  | None => data
  end.

Definition payload_key (x : payload) : bool := let '(_, _, _, _, key, _, _) := x in key.
(** The same on units: [sets] are the parameter sets, [l] the units of the call. *)
Definition unit_head (l : list (bool * list Z)) : Z := match l with (_, b :: _) :: _ => b | _ => 0 end.
Definition recorded_units (sets : list (bool * list Z)) (key : bool) (l : list (bool * list Z)) : list (bool * list Z) :=
  if key && negb (unit_head sets =? unit_head l) then sets ++ l else l.

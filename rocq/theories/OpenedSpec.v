(** * OpenedSpec: what the first packet of a buffer says about its track. *)
From Verif Require Import Base NaluModel AacModel PacketModel DemuxModel TrackSpec.
Local Open Scope list_scope.

(** The parameter sets [e] are in the packet itself. *)
Definition own_data (x : payload) (e : list Z) : Prop :=
  let '(_, _, c, data, key, _, _) := x in key = true /\ extract_video_extra_data c data = Ok (Some e).
(** [e] are the data of the first track with codec [c], which is older than track [i]. *)
Definition older_data (tracks : list stream) (i c : Z) (e : list Z) : Prop :=
  exists j s, 0 <= j < i /\ idx tracks j = Some s /\ st_codec s = c /\ st_data s = Some e /\ forall k s', 0 <= k < j -> idx tracks k = Some s' -> st_codec s' <> c.
(** Track [i] of [tracks], [s], is what packet [x] describes. *)
Definition opened (tracks : list stream) (i : Z) (x : payload) (s : stream) : Prop :=
  let '(m, _, c, data, _, _, _) := x in
  st_media s = m /\ st_codec s = c /\
  ((m = AVMediaTypeAudio /\ exists extra k cfg, extract_audio_extra_data c data = Ok (extra, k, cfg) /\ st_params s = None /\ st_data s = (if 0 <? zlen (of_nil extra) then extra else None) /\ (~ estimated c -> st_audio s = cfg)) \/
   (m = AVMediaTypeVideo /\ exists e, st_data s = Some e /\ generate_video_codec_data (fun n => n) PacketTypeAnnexB c e = Ok (st_params s) /\ (own_data x e \/ ((forall e', ~ own_data x e') /\ older_data tracks i c e)))).

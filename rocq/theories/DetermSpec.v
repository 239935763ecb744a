(** * DetermSpec: the same calls with other choices of the runtime. *)
From Coq Require Import List Permutation String.
From Verif Require Import Base NaluModel PacketModel DemuxModel DemuxProofs.
Import ListNotations.
Local Open Scope list_scope.

(** A packet without the packet type of an audio packet, which NewAudioPacket leaves as it comes from the pool (C60). *)
Definition untyped (p : packet) : packet :=
  mkPkt (pk_data p) (pk_pts p) (pk_dts p) (pk_duration p) (pk_key p) (pk_created p) (pk_buffer p) (pk_index p) (pk_timebase p) (pk_media p) (pk_codec p)
        (if pk_media p =? AVMediaTypeAudio then 0 else pk_type p) (pk_avcc p) (pk_annexb p) (pk_alloc p).
Definition untyped_ev (e : event) : event := match e with EvPacket p => EvPacket (untyped p) | EvAdd p n => EvAdd (untyped p) n | x => x end.
(** The events other than the delivery of packets and the release of their blocks. *)
Definition other (l : list event) : list event := filter (fun e => match e with EvPacket _ | EvDiscardHead _ => false | _ => true end) l.
(** The same events; packets may be delivered in another order. *)
Definition same_events (e e' : list event) : Prop := map untyped_ev (other e) = map untyped_ev (other e') /\ Permutation (map untyped_ev e) (map untyped_ev e').
(** The same demuxer up to the packet types of the audio packets it keeps. *)
Definition same_demuxer (d d' : demuxer) : Prop := d' = with_packets d (dm_packets d') /\ map (map untyped) (dm_packets d) = map (map untyped) (dm_packets d').

(** The same calls. The order of maps, the order of equal elements in sort.Slice and the packet pool may differ; the growth of append and the conversion of floats out of
    range belong to the compiler and stay the same. *)
Definition same_call (x y : oracle * op) : Prop := snd x = snd y /\ or_ms (fst x) = or_ms (fst y) /\ or_grow (fst x) = or_grow (fst y).
(** No two tracks read from one buffer, at any time of the session. *)
Definition apart (name : string) (h : list (oracle * op)) : Prop := forall h1 h2 d e, h = h1 ++ h2 -> run (dm_new name) h1 = Ok (d, e) -> NoDup (map snd (dm_map d)).

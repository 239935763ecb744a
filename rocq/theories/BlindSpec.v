(** * BlindSpec: the same session with other bytes in the packets. *)
From Verif Require Import Base PacketModel DemuxModel.
From Coq Require Import List.
Import ListNotations.
Local Open Scope list_scope.

Section blind.
Variable phi : list Z -> list Z.
Definition bl_packet (p : packet) : packet :=
  mkPkt (phi (pk_data p)) (pk_pts p) (pk_dts p) (pk_duration p) (pk_key p) (pk_created p) (pk_buffer p) (pk_index p) (pk_timebase p)
        (pk_media p) (pk_codec p) (pk_type p) (pk_avcc p) (pk_annexb p) (pk_alloc p).
Definition bl_op (a : op) : op :=
  match a with
  | OpAudio buf id data ts => OpAudio buf id (phi data) ts
  | OpVideo buf id data key dts pts => OpVideo buf id (phi data) key dts pts
  | a => a
  end.
Definition bl_call (x : oracle * op) : oracle * op := (fst x, bl_op (snd x)).
Definition bl_event (e : event) : event := match e with EvPacket p => EvPacket (bl_packet p) | EvAdd p n => EvAdd (bl_packet p) n | e => e end.
Definition bl_dm (d : demuxer) : demuxer := with_packets d (map (map bl_packet) (dm_packets d)).
Definition bl_res (x : res (demuxer * list event)) : res (demuxer * list event) :=
  match x with Ok (d, e) => Ok (bl_dm d, map bl_event e) | Err => Err | Panic => Panic | NoFuel => NoFuel end.

(** The hook does not look at the bytes; sort.Slice neither (its less function compares Dts). *)
Definition blind_hook (f : option (packet -> packet)) : Prop := match f with Some g => forall p, g (bl_packet p) = bl_packet (g p) | None => True end.
Definition blind_sort (o : oracle) : Prop := forall l, or_sort o (map bl_packet l) = map bl_packet (or_sort o l).
Definition blind_call (x : oracle * op) : Prop := blind_sort (fst x) /\ match snd x with OpSetPre f => blind_hook f | _ => True end.
(** The packets are for buffers that have a track. *)
Definition for_track (d : demuxer) (x : oracle * op) : Prop :=
  match snd x with OpAudio c _ _ _ | OpVideo c _ _ _ _ _ => exists i, In (i, c) (dm_map d) | _ => True end.
End blind.

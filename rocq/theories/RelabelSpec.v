(** * RelabelSpec: the same session with other times and other buffer numbers. *)
From Verif Require Import Base PacketModel DemuxModel.
From Coq Require Import List Permutation.
Import ListNotations.
Local Open Scope list_scope.

(** Dts are moved by a constant, Pts of pictures by another one (sound has Pts = Dts); buffers are renamed by a permutation of the integers. *)
Record relabel := { rl_dts : Z; rl_pts : Z; rl_buf : Z -> Z; rl_unbuf : Z -> Z }.
Definition relabel_ok (r : relabel) : Prop := (forall b, rl_unbuf r (rl_buf r b) = b) /\ (forall b, rl_buf r (rl_unbuf r b) = b).

Definition pts_move (r : relabel) (p : packet) : Z := if pk_media p =? AVMediaTypeVideo then rl_pts r else rl_dts r.
Definition rl_packet (r : relabel) (p : packet) : packet :=
  mkPkt (pk_data p) (pk_pts p + pts_move r p) (pk_dts p + rl_dts r) (pk_duration p) (pk_key p) (pk_created p) (rl_buf r (pk_buffer p)) (pk_index p) (pk_timebase p)
        (pk_media p) (pk_codec p) (pk_type p) (pk_avcc p) (pk_annexb p) (pk_alloc p).
Definition rl_back (r : relabel) (p : packet) : packet :=
  mkPkt (pk_data p) (pk_pts p - pts_move r p) (pk_dts p - rl_dts r) (pk_duration p) (pk_key p) (pk_created p) (rl_unbuf r (pk_buffer p)) (pk_index p) (pk_timebase p)
        (pk_media p) (pk_codec p) (pk_type p) (pk_avcc p) (pk_annexb p) (pk_alloc p).
(** A hook that does to relabelled packets what the old one does to the packets, and a sort.Slice that makes the same choices. *)
Definition rl_hook (r : relabel) (f : packet -> packet) : packet -> packet := fun p => rl_packet r (f (rl_back r p)).
Definition rl_oracle (r : relabel) (o : oracle) : oracle :=
  {| or_pick := or_pick o; or_sort := fun l => map (rl_packet r) (or_sort o (map (rl_back r) l)); or_ms := or_ms o; or_grow := or_grow o; or_recycled := or_recycled o |}.
Definition rl_op (r : relabel) (a : op) : op :=
  match a with
  | OpNewAudio buf id tb extra c => OpNewAudio (rl_buf r buf) id tb extra c
  | OpNewVideo buf id tb extra => OpNewVideo (rl_buf r buf) id tb extra
  | OpAudio buf id data ts => OpAudio (rl_buf r buf) id data (ts + rl_dts r)
  | OpVideo buf id data key dts pts => OpVideo (rl_buf r buf) id data key (dts + rl_dts r) (pts + rl_pts r)
  | OpSetPre f => OpSetPre (option_map (rl_hook r) f)
  | OpDiscardBack i => OpDiscardBack (rl_buf r i)
  | OpDiscardHead i => OpDiscardHead (rl_buf r i)
  | a => a
  end.
Definition rl_call (r : relabel) (x : oracle * op) : oracle * op := (rl_oracle r (fst x), rl_op r (snd x)).
Definition rl_event (r : relabel) (e : event) : event :=
  match e with
  | EvPacket p => EvPacket (rl_packet r p)
  | EvAdd p n => EvAdd (rl_packet r p) n
  | EvDiscardBack i => EvDiscardBack (rl_buf r i)
  | EvDiscardHead i => EvDiscardHead (rl_buf r i)
  | e => e
  end.
Definition rl_dm (r : relabel) (d : demuxer) : demuxer :=
  mkDm (dm_tracks d) (dm_handler d) (dm_name d) (dm_ordered d) (dm_probe d) (dm_completed d) (map (map (rl_packet r)) (dm_packets d)) (dm_autofree d)
       (map (fun e => (fst e, rl_buf r (snd e))) (dm_map d)) (option_map (rl_hook r) (dm_pre d)).
Definition rl_res (r : relabel) (x : res (demuxer * list event)) : res (demuxer * list event) :=
  match x with Ok (d, e) => Ok (rl_dm r d, map (rl_event r) e) | Err => Err | Panic => Panic | NoFuel => NoFuel end.

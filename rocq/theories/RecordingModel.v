(** * RecordingModel: a demuxer on real stream buffers with the file handler attached.

    In SystemSpec the handler only looks at the bytes of a packet. Here it is OnUnpackStream2FileHandler (handler.go:49-88), called at
    the same moments: during OnNewTrack and during OnPacket, before the block of the packet is released (demuxer.go:292-301). *)
From Coq Require Import String List.
From Verif Require Import Base BlockModel PacketModel DemuxModel DeliverySpec HandlerModel SystemSpec.
Import ListNotations.
Local Open Scope list_scope.

(** The packet as the handler finds it: its Data is the slice, whatever the memory under it holds by now (av_packet.go:38). *)
Definition with_data (p : packet) (b : list Z) : packet :=
  mkPkt b (pk_pts p) (pk_dts p) (pk_duration p) (pk_key p) (pk_created p) (pk_buffer p) (pk_index p) (pk_timebase p)
        (pk_media p) (pk_codec p) (pk_type p) (pk_avcc p) (pk_annexb p) (pk_alloc p).

(** The events of one call, as in [sys_events], with the handler in place of the list of what was seen. *)
Fixpoint rec_events (path : string) (cur : option gslice) (h : heap) (s : sbuf) (k : held) (f : file_handler) (l : list event) : res (sbuf * held * file_handler) :=
  match l with
  | [] => Ok (s, k, f)
  | EvAdd p _ :: t => sl <- of_opt cur;; rec_events path cur h s (k ++ [(pk_buffer p, tag p, sl)]) f t
  | EvNewTrack st :: t => f1 <- fh_new_track path f st;; rec_events path cur h s k f1 t
  | EvPacket p :: t =>
    '(sl, k1) <- of_opt (take_held (pk_buffer p) (tag p) k);;
    bytes <- read h sl;;
    '(f1, _) <- fh_on_packet f (with_data p bytes);;
    rec_events path cur h s k1 f1 t
  | EvDiscardHead i :: t => s1 <- sb_discard_head s i;; rec_events path cur h s1 k f t
  | EvDiscardBack i :: t => s1 <- sb_discard_back s i;; rec_events path cur h s1 k f t
  | _ :: t => rec_events path cur h s k f t
  end.

Definition rec_step (path : string) (y : system) (f : file_handler) (c : call) : res (system * file_handler) :=
  let '((o, a), chunks) := c in
  '(h1, s1, a1, cur) <- supply (sy_heap y) (sy_bufs y) a chunks;;
  '(d1, e) <- step o (sy_dm y) a1;;
  '(s2, k2, f2) <- rec_events path cur h1 s1 (sy_held y) f e;;
  Ok (mkSys h1 s2 k2 d1, f2).
Fixpoint rec_run (path : string) (y : system) (f : file_handler) (l : list call) : res (system * file_handler) :=
  match l with
  | [] => Ok (y, f)
  | c :: t => '(y1, f1) <- rec_step path y f c;; rec_run path y1 f1 t
  end.

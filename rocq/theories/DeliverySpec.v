(** * What a data pipeline does while a demuxer runs with AutoFree.

    The caller of the demuxer writes every packet (and every codec header) as one block to the buffer whose index it passes. The
    pipeline of one buffer is then a FIFO of blocks: a call appends its block, DiscardBackPacket removes the last block,
    DiscardHeadPacket the first. [None] means that a discard hits an empty pipeline, or that the block released after OnPacket
    is not the one the packet's data lies in. *)
From Verif Require Import Base PacketModel DemuxModel.
From Coq Require Import List.
Import ListNotations.
Local Open Scope list_scope.

(** The block of a call, if it has one. *)
Definition call_block (a : op) : option (Z * list Z) :=
  match a with
  | OpAudio buf _ data _ => Some (buf, data)
  | OpVideo buf _ data _ _ _ => Some (buf, data)
  | OpNewAudio buf _ _ (Some (x :: t)) _ => Some (buf, x :: t)
  | OpNewVideo buf _ _ (x :: t) => Some (buf, x :: t)
  | _ => None
  end.
Definition push_block (b : Z) (a : op) (q : list (list Z)) : list (list Z) :=
  match call_block a with Some (buf, data) => if buf =? b then q ++ [data] else q | None => q end.

(** The events of one call; [cur] is the packet passed to OnPacket just before. *)
Fixpoint pipe_events (b : Z) (q : list (list Z)) (cur : option packet) (l : list event) : option (list (list Z)) :=
  match l with
  | [] => Some q
  | EvPacket p :: t => pipe_events b q (Some p) t
  | EvDiscardHead i :: t =>
    if i =? b then
      match q, cur with
      | x :: q', Some p => if list_eq_dec Z.eq_dec x (pk_data p) then pipe_events b q' None t else None
      | _, _ => None
      end
    else pipe_events b q None t
  | EvDiscardBack i :: t =>
    if i =? b then match q with [] => None | _ => pipe_events b (removelast q) None t end else pipe_events b q None t
  | _ :: t => pipe_events b q cur t
  end.

(** The pipeline of buffer [b] during a history; [None] also if a call fails. *)
Fixpoint pipe_run (b : Z) (q : list (list Z)) (d : demuxer) (h : list (oracle * op)) : option (list (list Z)) :=
  match h with
  | [] => Some q
  | (o, a) :: t =>
    match step o d a with
    | Ok (d1, e) => match pipe_events b (push_block b a q) None e with Some q1 => pipe_run b q1 d1 t | None => None end
    | _ => None
    end
  end.

(** The packets waiting in the demuxer whose data lies in buffer [b]. *)
Definition waiting (b : Z) (d : demuxer) : list packet := filter (fun p => pk_buffer p =? b) (List.concat (dm_packets d)).

(** The same pipeline without a look at which packet was delivered: [None] only if a discard hits an empty pipeline. Gives the
    blocks released by DiscardHeadPacket and the blocks left. *)
Fixpoint fifo_events (b : Z) (q : list (list Z)) (l : list event) : option (list (list Z) * list (list Z)) :=
  match l with
  | [] => Some ([], q)
  | EvDiscardHead i :: t =>
    if i =? b then
      match q with
      | [] => None
      | x :: q' => match fifo_events b q' t with Some (out, r) => Some (x :: out, r) | None => None end
      end
    else fifo_events b q t
  | EvDiscardBack i :: t => if i =? b then match q with [] => None | _ => fifo_events b (removelast q) t end else fifo_events b q t
  | _ :: t => fifo_events b q t
  end.
(** For every call of the history its events and the blocks released in it, and the blocks left at the end. *)
Fixpoint fifo_run (b : Z) (q : list (list Z)) (d : demuxer) (h : list (oracle * op)) : option (list (list event * list (list Z)) * list (list Z)) :=
  match h with
  | [] => Some ([], q)
  | (o, a) :: t =>
    match step o d a with
    | Ok (d1, e) =>
      match fifo_events b (push_block b a q) e with
      | Some (out, q1) => match fifo_run b q1 d1 t with Some (l, r) => Some ((e, out) :: l, r) | None => None end
      | None => None
      end
    | _ => None
    end
  end.

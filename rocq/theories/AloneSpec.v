(** * AloneSpec: what one buffer contributes to a session. *)
From Verif Require Import Base PacketModel DemuxModel.
From Coq Require Import List.
Import ListNotations.
Local Open Scope list_scope.

(** The calls without the packets of the other buffers. *)
Definition other (b : Z) (a : op) : bool := match a with OpAudio c _ _ _ => negb (c =? b) | OpVideo c _ _ _ _ _ => negb (c =? b) | _ => false end.
Definition only (b : Z) (h : list (oracle * op)) : list (oracle * op) := filter (fun x => negb (other b (snd x))) h.

(** What happens to the packets and blocks of buffer [b], and all that is not about packets (the second part of [EvAdd] is a note of the
    model on the state of the demuxer). *)
Definition mine (b : Z) (evs : list event) : list event :=
  flat_map (fun e => match e with
                     | EvAdd p _ => if pk_buffer p =? b then [EvAdd p 0] else []
                     | EvPacket p => if pk_buffer p =? b then [EvPacket p] else []
                     | EvDiscardBack c => if c =? b then [EvDiscardBack c] else []
                     | EvDiscardHead c => if c =? b then [EvDiscardHead c] else []
                     | e => [e]
                     end) evs.

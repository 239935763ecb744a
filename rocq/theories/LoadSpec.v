(** * LoadSpec: sessions that are light enough for the stream buffers, read off the calls. *)
From Coq Require Import List.
From Verif Require Import Base DemuxModel DeliverySpec TrackSpec IntakeSpec SystemSpec.
Import ListNotations.
Local Open Scope list_scope.

(** The sizes of the packets handed over for buffer [b], in order. *)
Definition sizes (b : Z) (h : list (oracle * op)) : list Z := map (fun x => zlen (payload_data x)) (for_buffer b (payloads h)).
Definition total (l : list Z) : Z := fold_right Z.add 0 l.
(** The stream buffers opened by these calls: for each whether its first block was a video block. *)
Definition streams_of (l : list call) : list bool := fold_left (fun caps c => open_stream caps (snd (fst c))) l [].
(** The block of the call is written in at least one piece, its buffer is a known one or the next new one, and with [load] bytes for every
    buffer it fills at most half of the memory of that buffer. *)
Definition takes (load : Z -> Z) (before : list call) (c : call) : Prop :=
  match call_block (snd (fst c)) with
  | None => True
  | Some (b, data) =>
    concat (snd c) = data /\ snd c <> [] /\ 0 <= b <= zlen (streams_of before) /\
    load b + zlen data <= stream_half (nth (Z.to_nat b) (streams_of (before ++ [c])) false)
  end.
(** In [la] all packets so far count, in [lb] only the last one of the buffer. *)
Definition light (la lb : list call) : Prop :=
  (forall before c after, la = before ++ c :: after -> takes (fun b => total (sizes b (map fst before))) before c) /\
  (forall before c after, lb = before ++ c :: after -> takes (fun b => last (sizes b (map fst (la ++ before))) 0) (la ++ before) c).
(** The last element of a list, if there is one. *)
Definition last_only {A} (l : list A) : list A := match rev l with [] => [] | x :: _ => [x] end.

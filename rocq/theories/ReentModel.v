(** * ReentModel: demuxer.go once more, with a handler that calls the demuxer from its callbacks.

    [DemuxModel.v] lets the handler only look. Here [react k] is the list of calls that the handler makes on the demuxer during the
    [k]-th callback; [inner] executes such a call, and [k] counts the callbacks. The Go stack is the fuel of [step_re]. *)
From Verif Require Import Base NaluModel RecordModel AacModel FloatModel PacketModel DemuxModel.
From Coq Require Import String.
Local Open Scope list_scope.

Definition reaction := nat -> list (oracle * op).
Definition inner_call := nat -> oracle -> demuxer -> op -> res (demuxer * list event * nat).

Fixpoint nested (inner : inner_call) (k : nat) (d : demuxer) (l : list (oracle * op)) : res (demuxer * list event * nat) :=
  match l with
  | [] => Ok (d, [], k)
  | (o, a) :: t => '(d1, e, k1) <- inner k o d a;; '(d2, e', k2) <- nested inner k1 d1 t;; Ok (d2, e ++ e', k2)
  end.
(** A callback: a nil Handler panics, otherwise the handler makes its calls. *)
Definition notify (inner : inner_call) (react : reaction) (k : nat) (d : demuxer) (ev : event) : res (demuxer * list event * nat) :=
  if negb (dm_handler d) then Panic else '(d1, e, k1) <- nested inner (S k) d (react k);; Ok (d1, ev :: e, k1).

(** demuxer.go:292-301 forwardPacket. AutoFree and the map are read after OnPacket. *)
Definition forward_packet_re (inner : inner_call) (react : reaction) (k : nat) (d : demuxer) (p : packet) : res (demuxer * list event * nat) :=
  '(d1, e, k1) <- notify inner react k d (EvPacket p);;
  if dm_autofree d1 then match map_find (dm_map d1) (pk_index p) with Some b => Ok (d1, e ++ [EvDiscardHead b], k1) | None => Panic end
  else Ok (d1, e, k1).
Fixpoint forward_all_re (inner : inner_call) (react : reaction) (k : nat) (d : demuxer) (l : list packet) : res (demuxer * list event * nat) :=
  match l with
  | [] => Ok (d, [], k)
  | p :: t => '(d1, e, k1) <- forward_packet_re inner react k d p;; '(d2, e', k2) <- forward_all_re inner react k1 d1 t;; Ok (d2, e ++ e', k2)
  end.
(** demuxer.go:446-448 the loop over the tracks. *)
Fixpoint announce_re (inner : inner_call) (react : reaction) (k : nat) (d : demuxer) (l : list stream) : res (demuxer * list event * nat) :=
  match l with
  | [] => Ok (d, [], k)
  | s :: t => '(d1, e, k1) <- notify inner react k d (EvNewTrack s);; '(d2, e', k2) <- announce_re inner react k1 d1 t;; Ok (d2, e ++ e', k2)
  end.

(** demuxer.go:434-476 OnProbeComplete. The packets are collected after OnTrackComplete has returned. *)
Definition on_probe_complete_re (inner : inner_call) (react : reaction) (k : nat) (o : oracle) (d : demuxer) : res (demuxer * list event * nat) :=
  if dm_completed d then Ok (d, [], k)
  else
    let d1 := with_completed d in
    match dm_tracks d1 with
    | [] => notify inner react k d1 EvTrackNotFind
    | _ =>
      let ts := prepare_tracks o (dm_packets d1) (dm_tracks d1) in
      '(d2, e1, k1) <- announce_re inner react k (with_tracks d1 ts (dm_map d1)) ts;;
      '(d3, e2, k2) <- notify inner react k1 d2 EvTrackComplete;;
      let result := List.concat (map all_but_last (dm_packets d3)) in
      '(d4, e3, k3) <- forward_all_re inner react k2 (with_packets d3 (map only_last (dm_packets d3))) (or_sort o result);;
      Ok (d4, e1 ++ e2 ++ e3, k3)
    end.

(** demuxer.go:254-290 processBufferedPacket. *)
Definition process_buffered_packet_re (inner : inner_call) (react : reaction) (k : nat) (o : oracle) (d : demuxer) (p : packet) : res (demuxer * list event * nat) :=
  let n := zlen (dm_packets d) in
  let packets := if pk_index p <? n then dm_packets d else dm_packets d ++ [[]] in
  let i := if pk_index p <? n then pk_index p else n in
  l <- of_opt (idx packets i);;
  let add := EvAdd p n in
  let l1 := l ++ [p] in
  let prev := zlen l1 - 2 in
  if prev <? 0 then ps <- of_opt (upd packets i l1);; Ok (with_packets d ps, [add], k)
  else
    q <- of_opt (idx l1 prev);;
    let q1 := set_duration q (i64 (pk_dts p - pk_dts q)) in
    l2 <- of_opt (upd l1 prev q1);;
    if dm_completed d then
      ps <- of_opt (upd packets i (firstn (Z.to_nat prev) l2 ++ skipn (S (Z.to_nat prev)) l2));;
      '(d1, e, k1) <- forward_packet_re inner react k (with_packets d ps) q1;; Ok (d1, add :: e, k1)
    else
      ps <- of_opt (upd packets i l2);;
      let d1 := with_packets d ps in
      let duration := total_ms o (firstn (Z.to_nat (prev + 1)) l2) in
      if Z.max (Z.max (dm_probe d1) 200) duration <=? duration then
        '(d2, e, k1) <- on_probe_complete_re inner react k o d1;; Ok (d2, add :: e, k1)
      else Ok (d1, [add], k).

(** demuxer.go:171-204 OnAudioPacket. *)
Definition on_audio_packet_re (inner : inner_call) (react : reaction) (k : nat) (o : oracle) (d : demuxer) (buf id : Z) (data : list Z) (ts : Z) : res (demuxer * list event * nat) :=
  track <- find_track o d buf;;
  '(d1, track1) <- (match track with
                    | Some s => Ok (d, Some s)
                    | None =>
                      if dm_completed d then Ok (d, None)
                      else match extract_audio_extra_data id data with
                           | Ok (extra, _, config) => tb <- get_timebase (dm_name d);; create_audio_track d buf id tb extra config
                           | Err => Ok (d, None) | Panic => Panic | NoFuel => NoFuel
                           end
                    end);;
  match track1 with
  | None => Ok (d1, [EvDiscardBack buf], k)
  | Some s => process_buffered_packet_re inner react k o d1 (set_buffer (init_audio (pool_packet o) data ts id (st_index s) (st_timebase s)) buf)
  end.

(** demuxer.go:206-250 OnVideoPacket. *)
Definition on_video_packet_re (inner : inner_call) (react : reaction) (k : nat) (o : oracle) (d : demuxer) (buf id : Z) (data : list Z) (key : bool) (dts pts : Z) : res (demuxer * list event * nat) :=
  track <- find_track o d buf;;
  '(d1, track1) <- (match track with
                    | Some s => Ok (d, Some s)
                    | None =>
                      if negb (dm_completed d) && (get_pack_type (dm_name d) =? PacketTypeAnnexB) then
                        extra <- (if key then match extract_video_extra_data id data with Err => Ok None | r => r end else Ok None);;
                        extra1 <- (match extra with
                                   | Some e => Ok (Some e)
                                   | None => match tm_find (dm_tracks d) id with
                                             | None => Ok None
                                             | Some i => s <- tm_get (dm_tracks d) i;; Ok (st_data s)
                                             end
                                   end);;
                        match extra1 with
                        | None => Ok (d, None)
                        | Some e => tb <- get_timebase (dm_name d);; create_video_track o d buf id tb e
                        end
                      else Ok (d, None)
                    end);;
  match track1 with
  | None => Ok (d1, [EvDiscardBack buf], k)
  | Some s =>
    let p := set_buffer (init_video (pool_packet o) data dts pts key (get_pack_type (dm_name d1)) id (st_index s) (st_timebase s)) buf in
    let p1 := match dm_pre d1 with Some f => f p | None => p end in
    process_buffered_packet_re inner react k o d1 p1
  end.

(** One call with callbacks; [step_re f] allows calls nested [f] deep. *)
Definition step_with (inner : inner_call) (react : reaction) (k : nat) (o : oracle) (d : demuxer) (a : op) : res (demuxer * list event * nat) :=
  match a with
  | OpAudio buf id data ts => on_audio_packet_re inner react k o d buf id data ts
  | OpVideo buf id data key dts pts => on_video_packet_re inner react k o d buf id data key dts pts
  | OpProbeComplete => on_probe_complete_re inner react k o d
  | OpTryComplete => if need_more d then Ok (d, [], k) else on_probe_complete_re inner react k o d
  | _ => '(d1, e) <- step o d a;; Ok (d1, e, k)
  end.
Fixpoint step_re (f : nat) (react : reaction) (k : nat) (o : oracle) (d : demuxer) (a : op) : res (demuxer * list event * nat) :=
  match f with
  | O => NoFuel
  | S f' => step_with (step_re f' react) react k o d a
  end.
Fixpoint run_re (f : nat) (react : reaction) (k : nat) (d : demuxer) (l : list (oracle * op)) : res (demuxer * list event * nat) :=
  match l with
  | [] => Ok (d, [], k)
  | (o, a) :: t => '(d1, e, k1) <- step_re f react k o d a;; '(d2, e', k2) <- run_re f react k1 d1 t;; Ok (d2, e ++ e', k2)
  end.

(** * RecoverModel: the demuxer once more, for a caller that recovers from panics.

    In DemuxModel a panic ends the history. Here every call returns the state in which it leaves the demuxer and the events that took place,
    also when it panics, and the callbacks of the handler may panic. The deferred functions of OnAudioPacket and OnVideoPacket
    (demuxer.go:172-177, 207-212) run while a panic passes through. *)
From Coq Require Import List String.
From Verif Require Import Base AacModel FloatModel PacketModel DemuxModel.
Import ListNotations.
Local Open Scope list_scope.

(** Which callback of a call panics: [None] none of them, [Some n] the one after [n] callbacks that return. *)
Definition mood := option nat.
Definition calm (q : mood) : bool := match q with Some O => false | _ => true end.
Definition later (q : mood) : mood := match q with Some (S n) => Some n | _ => q end.
(** A callback of the handler: the event takes place also if it panics; on a nil Handler nothing is called. *)
Definition callback (d : demuxer) (q : mood) (e : event) : list event * res unit :=
  if negb (dm_handler d) then ([], Panic) else ([e], if calm q then Ok tt else Panic).

(** demuxer.go:292-301 forwardPacket. *)
Definition forward_r (q : mood) (d : demuxer) (p : packet) : list event * res unit :=
  let '(e, r) := callback d q (EvPacket p) in
  match r with
  | Ok _ =>
    if dm_autofree d then
      match map_find (dm_map d) (pk_index p) with Some b => (e ++ [EvDiscardHead b], Ok tt) | None => (e, Panic) end
    else (e, Ok tt)
  | _ => (e, r)
  end.
Fixpoint forward_all_r (q : mood) (d : demuxer) (l : list packet) : list event * res unit :=
  match l with
  | [] => ([], Ok tt)
  | p :: t =>
    let '(e, r) := forward_r q d p in
    match r with Ok _ => let '(e', r') := forward_all_r (later q) d t in (e ++ e', r') | _ => (e, r) end
  end.
(** demuxer.go:446-448 *)
Fixpoint new_tracks_r (q : mood) (d : demuxer) (ts : list stream) : list event * mood * res unit :=
  match ts with
  | [] => ([], q, Ok tt)
  | t :: l =>
    let '(e, r) := callback d q (EvNewTrack t) in
    match r with Ok _ => let '(e', q', r') := new_tracks_r (later q) d l in (e ++ e', q', r') | _ => (e, q, r) end
  end.

(** What a call leaves behind, and how it ended. *)
Definition reply : Type := demuxer * list event * res unit.

(** demuxer.go:434-476 OnProbeComplete: the packets are taken out of their lists after OnTrackComplete. *)
Definition complete_r (o : oracle) (q : mood) (d : demuxer) : reply :=
  if dm_completed d then (d, [], Ok tt)
  else
    let d1 := with_completed d in
    match dm_tracks d1 with
    | [] => let '(e, r) := callback d1 q EvTrackNotFind in (d1, e, r)
    | _ =>
      let ts := prepare_tracks o (dm_packets d1) (dm_tracks d1) in
      let d2 := with_tracks d1 ts (dm_map d1) in
      let '(e1, q1, r1) := new_tracks_r q d2 ts in
      match r1 with
      | Ok _ =>
        let '(e2, r2) := callback d2 q1 EvTrackComplete in
        match r2 with
        | Ok _ =>
          let result := List.concat (map all_but_last (dm_packets d2)) in
          let d3 := with_packets d2 (map only_last (dm_packets d2)) in
          let '(e3, r3) := forward_all_r (later q1) d3 (or_sort o result) in
          (d3, e1 ++ e2 ++ e3, r3)
        | _ => (d2, e1 ++ e2, r2)
        end
      | _ => (d2, e1, r1)
      end
    end.

(** demuxer.go:254-290 processBufferedPacket. An index below zero (from the hook) panics before anything is changed; the other lookups cannot fail. *)
Definition process_r (o : oracle) (q : mood) (d : demuxer) (p : packet) : reply :=
  let n := zlen (dm_packets d) in
  let packets := if pk_index p <? n then dm_packets d else dm_packets d ++ [[]] in
  let k := if pk_index p <? n then pk_index p else n in
  match idx packets k with
  | None => (d, [], Panic)
  | Some l =>
    let add := EvAdd p n in
    let l1 := l ++ [p] in
    let prev := zlen l1 - 2 in
    if prev <? 0 then (with_packets d (set_nth (Z.to_nat k) l1 packets), [add], Ok tt)
    else
      match idx l1 prev with
      | None => (d, [], Panic)
      | Some x =>
        let x1 := set_duration x (i64 (pk_dts p - pk_dts x)) in
        let l2 := set_nth (Z.to_nat prev) x1 l1 in
        if dm_completed d then
          let d1 := with_packets d (set_nth (Z.to_nat k) (firstn (Z.to_nat prev) l2 ++ skipn (S (Z.to_nat prev)) l2) packets) in
          let '(e, r) := forward_r q d1 x1 in (d1, add :: e, r)
        else
          let d1 := with_packets d (set_nth (Z.to_nat k) l2 packets) in
          let duration := total_ms o (firstn (Z.to_nat (prev + 1)) l2) in
          if Z.max (Z.max (dm_probe d1) 200) duration <=? duration then
            let '(d2, e, r) := complete_r o q d1 in (d2, add :: e, r)
          else (d1, [add], Ok tt)
      end
  end.

(** demuxer.go:180-190: the track of the buffer, made from the packet if there is none. Nothing is changed if this panics. *)
Definition audio_track (o : oracle) (d : demuxer) (buf id : Z) (data : list Z) : res (demuxer * option stream) :=
  track <- find_track o d buf;;
  match track with
  | Some s => Ok (d, Some s)
  | None =>
    if dm_completed d then Ok (d, None)
    else match extract_audio_extra_data id data with
         | Ok (extra, _, config) => tb <- get_timebase (dm_name d);; create_audio_track d buf id tb extra config
         | Err => Ok (d, None) | Panic => Panic | NoFuel => NoFuel
         end
  end.
(** demuxer.go:171-204 OnAudioPacket. *)
Definition audio_r (o : oracle) (q : mood) (d : demuxer) (buf id : Z) (data : list Z) (ts : Z) : reply :=
  match audio_track o d buf id data with
  | Ok (d1, None) => (d1, [EvDiscardBack buf], Ok tt)
  | Ok (d1, Some s) => process_r o q d1 (set_buffer (init_audio (pool_packet o) data ts id (st_index s) (st_timebase s)) buf)
  | Err => (d, [EvDiscardBack buf], Err) | Panic => (d, [EvDiscardBack buf], Panic) | NoFuel => (d, [EvDiscardBack buf], NoFuel)
  end.
(** demuxer.go:215-236 *)
Definition video_track (o : oracle) (d : demuxer) (buf id : Z) (data : list Z) (key : bool) : res (demuxer * option stream) :=
  track <- find_track o d buf;;
  match track with
  | Some s => Ok (d, Some s)
  | None =>
    if negb (dm_completed d) && (get_pack_type (dm_name d) =? PacketTypeAnnexB) then
      extra <- (if key then match extract_video_extra_data id data with Err => Ok None | r => r end else Ok None);;
      extra1 <- (match extra with
                 | Some e => Ok (Some e)
                 | None => match tm_find (dm_tracks d) id with
                           | None => Ok None
                           | Some i => s <- tm_get (dm_tracks d) i;; Ok (st_data s)
                           end
                 end);;
      match extra1 with
      | None => Ok (d, None)
      | Some e => tb <- get_timebase (dm_name d);; create_video_track o d buf id tb e
      end
    else Ok (d, None)
  end.
(** demuxer.go:206-250 OnVideoPacket. *)
Definition video_r (o : oracle) (q : mood) (d : demuxer) (buf id : Z) (data : list Z) (key : bool) (dts pts : Z) : reply :=
  match video_track o d buf id data key with
  | Ok (d1, None) => (d1, [EvDiscardBack buf], Ok tt)
  | Ok (d1, Some s) =>
    let p := set_buffer (init_video (pool_packet o) data dts pts key (get_pack_type (dm_name d1)) id (st_index s) (st_timebase s)) buf in
    process_r o q d1 (match dm_pre d1 with Some f => f p | None => p end)
  | Err => (d, [EvDiscardBack buf], Err) | Panic => (d, [EvDiscardBack buf], Panic) | NoFuel => (d, [EvDiscardBack buf], NoFuel)
  end.

(** The calls without callbacks: OnNewAudioTrack and OnNewVideoTrack (demuxer.go:79-90, 134-144) have no deferred function and change nothing
    before they panic. *)
Definition plain_r (d : demuxer) (x : res (demuxer * list event)) : reply :=
  match x with Ok (d1, e) => (d1, e, Ok tt) | Err => (d, [], Err) | Panic => (d, [], Panic) | NoFuel => (d, [], NoFuel) end.
Definition step_r (o : oracle) (q : mood) (d : demuxer) (a : op) : reply :=
  match a with
  | OpAudio buf id data ts => audio_r o q d buf id data ts
  | OpVideo buf id data key dts pts => video_r o q d buf id data key dts pts
  | OpProbeComplete => complete_r o q d
  | OpTryComplete => if need_more d then (d, [], Ok tt) else complete_r o q d
  | _ => plain_r d (step o d a)
  end.
(** A session whose caller recovers from every panic: the events of each call and how it ended. *)
Fixpoint run_r (d : demuxer) (l : list (oracle * mood * op)) : demuxer * list (op * list event * res unit) :=
  match l with
  | [] => (d, [])
  | (o, q, a) :: t => let '(d1, e, r) := step_r o q d a in let '(d2, es) := run_r d1 t in (d2, (a, e, r) :: es)
  end.

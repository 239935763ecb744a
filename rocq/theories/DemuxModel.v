(** * The demuxer base class (demuxer.go): tracks, probing, buffered packets and the callbacks to the handler.

    A call is a function [demuxer -> res (demuxer * list event)]. The events are the calls the demuxer makes on its
    handler and on its data pipeline, in order, plus one event for [packets.Add] (demuxer.go:264) and one for the result
    of FindBufferIndex. The choices the Go runtime makes (map iteration order, the permutation chosen by sort.Slice, a
    float-to-int conversion out of range, slice growth, what sync.Pool returns) are the fields of an [oracle], one per
    call. Panics end a history. *)
From Verif Require Import Base NaluModel RecordModel AacModel FloatModel PacketModel.
From Coq Require Import String Permutation Sorted.
Local Open Scope list_scope.

(** ** State *)
(** demuxer.go:29-41 BaseDemuxer. [dm_handler] says whether Handler is set (non-nil). *)
Record demuxer := mkDm {
  dm_tracks : list stream; dm_handler : bool; dm_name : string; dm_ordered : list Z; dm_probe : Z; dm_completed : bool;
  dm_packets : list (list packet); dm_autofree : bool; dm_map : list (Z * Z); dm_pre : option (packet -> packet) }.

(** The zero value with a name. *)
Definition dm_new (name : string) : demuxer := mkDm [] false name [] 0 false [] false [] None.

Definition with_tracks d t m := mkDm t (dm_handler d) (dm_name d) (dm_ordered d) (dm_probe d) (dm_completed d) (dm_packets d) (dm_autofree d) m (dm_pre d).
Definition with_packets d l := mkDm (dm_tracks d) (dm_handler d) (dm_name d) (dm_ordered d) (dm_probe d) (dm_completed d) l (dm_autofree d) (dm_map d) (dm_pre d).
Definition with_completed d := mkDm (dm_tracks d) (dm_handler d) (dm_name d) (dm_ordered d) (dm_probe d) true (dm_packets d) (dm_autofree d) (dm_map d) (dm_pre d).
Definition with_handler d b := mkDm (dm_tracks d) b (dm_name d) (dm_ordered d) (dm_probe d) (dm_completed d) (dm_packets d) (dm_autofree d) (dm_map d) (dm_pre d).
Definition with_pre d f := mkDm (dm_tracks d) (dm_handler d) (dm_name d) (dm_ordered d) (dm_probe d) (dm_completed d) (dm_packets d) (dm_autofree d) (dm_map d) f.
Definition with_probe d n := mkDm (dm_tracks d) (dm_handler d) (dm_name d) (dm_ordered d) n (dm_completed d) (dm_packets d) (dm_autofree d) (dm_map d) (dm_pre d).
Definition with_ordered d l := mkDm (dm_tracks d) (dm_handler d) (dm_name d) l (dm_probe d) (dm_completed d) (dm_packets d) (dm_autofree d) (dm_map d) (dm_pre d).
Definition with_autofree d b := mkDm (dm_tracks d) (dm_handler d) (dm_name d) (dm_ordered d) (dm_probe d) (dm_completed d) (dm_packets d) b (dm_map d) (dm_pre d).

Inductive event :=
| EvNewTrack (s : stream) | EvTrackComplete | EvTrackNotFind | EvPacket (p : packet)   (* Handler *)
| EvDiscardBack (i : Z) | EvDiscardHead (i : Z)                                         (* DataPipeline *)
| EvAdd (p : packet) (n : Z)        (* packets.Add(p) at demuxer.go:264; n is len(s.Packets) on entry *)
| EvIndex (marker i : Z).           (* FindBufferIndex(marker) returned i *)

(** The runtime's choices during one call. *)
Record oracle := {
  or_pick : nat;                            (* which of several matching map entries is met first *)
  or_sort : list packet -> list packet;     (* the permutation made by sort.Slice *)
  or_ms : Z -> Z -> Z;                      (* int64(float64) out of range, for a duration and a timebase *)
  or_grow : nat -> nat;                     (* growth of append *)
  or_recycled : bool }.                     (* whether the packet pool returns a recycled packet *)

(** What sort.Slice guarantees: a permutation in which no element is smaller than its predecessor. *)
Definition dts_le (a b : packet) : Prop := pk_dts a <= pk_dts b.
Definition oracle_ok (o : oracle) : Prop := forall l, Permutation l (or_sort o l) /\ Sorted dts_le (or_sort o l).

(** A packet from the pool: the zero packet, or one put back by FreePacket, of which only PacketType can differ from the
    zero packet after initialisation (C60). *)
Definition pool_packet (o : oracle) : packet := if or_recycled o then freed pkt_zero else pkt_zero.

(** ** Tracks *)
(** demuxer.go:52-61 GetTimebase. *)
Definition get_timebase (name : string) : res Z :=
  if (name =? "flv")%string || (name =? "jt1078")%string then Ok 1000
  else if (name =? "ps")%string || (name =? "ts")%string then Ok 90000 else Panic.
(** demuxer.go:63-73 GetPackType. *)
Definition get_pack_type (name : string) : Z :=
  if (name =? "flv")%string then PacketTypeAVCC
  else if (name =? "ps")%string || (name =? "ts")%string || (name =? "jt1078")%string then PacketTypeAnnexB else PacketTypeNONE.

Fixpoint map_find (m : list (Z * Z)) (k : Z) : option Z :=
  match m with [] => None | (a, b) :: t => if a =? k then Some b else map_find t k end.
(** m[k] = v *)
Definition map_set (m : list (Z * Z)) (k v : Z) : list (Z * Z) := filter (fun e => negb (fst e =? k)) m ++ [(k, v)].

(** demuxer.go:75-77 AddTrack, :122-131 and :159-168: add the track and record its buffer index. *)
Definition add_track (d : demuxer) (s : stream) (buf : Z) : demuxer * option stream :=
  if dm_completed d then (d, None) else (with_tracks d (tm_add (dm_tracks d) s) (map_set (dm_map d) (st_index s) buf), Some s).

(** demuxer.go:92-132 createAudioTrack. *)
Definition set_rate_channels (c : audio_config) (rate channels : Z) : audio_config :=
  {| ac_sample_rate := rate; ac_sample_size := ac_sample_size c; ac_channels := channels; ac_has_adts := ac_has_adts c; ac_bit_rate := ac_bit_rate c |}.
Definition create_audio_track (d : demuxer) (buf id timebase : Z) (extra : option (list Z)) (config : audio_config) : res (demuxer * option stream) :=
  let data := if 0 <? zlen (of_nil extra) then extra else None in
  let s config := mkStream AVMediaTypeAudio (zlen (dm_tracks d)) id None data timebase config in
  if (id =? AVCodecIdAAC) && negb (ac_has_adts config) then
    match extra with
    | None => Panic
    | Some e =>
      match parse_asc e with
      | Ok a => Ok (add_track d (s (set_rate_channels config (asc_sample_rate a) (asc_channels a))) buf)
      | Err => Ok (d, None) | Panic => Panic | NoFuel => NoFuel
      end
    end
  else Ok (add_track d (s config) buf).

(** demuxer.go:146-169 createVideoTrack. *)
Definition create_video_track (o : oracle) (d : demuxer) (buf id timebase : Z) (extra : list Z) : res (demuxer * option stream) :=
  match generate_video_codec_data (or_grow o) (get_pack_type (dm_name d)) id extra with
  | Ok config => Ok (add_track d (mkStream AVMediaTypeVideo (zlen (dm_tracks d)) id config (Some extra) timebase audio_config_zero) buf)
  | Err => Ok (d, None) | Panic => Panic | NoFuel => NoFuel
  end.

Definition discard_if (c : bool) (buf : Z) : list event := if c then [EvDiscardBack buf] else [].

(** demuxer.go:79-90 OnNewAudioTrack. *)
Definition on_new_audio_track (d : demuxer) (buf id timebase : Z) (extra : option (list Z)) (config : audio_config) : res (demuxer * list event) :=
  '(d', _) <- (match tm_find_type (dm_tracks d) AVMediaTypeAudio with
               | None => create_audio_track d buf id timebase extra config
               | Some _ => if (dm_name d =? "ts")%string then create_audio_track d buf id timebase extra config else Ok (d, None)
               end);;
  Ok (d', discard_if (0 <? zlen (of_nil extra)) buf).
(** demuxer.go:134-144 OnNewVideoTrack. *)
Definition on_new_video_track (o : oracle) (d : demuxer) (buf id timebase : Z) (extra : list Z) : res (demuxer * list event) :=
  '(d', _) <- (match tm_find_type (dm_tracks d) AVMediaTypeVideo with
               | None => create_video_track o d buf id timebase extra
               | Some _ => if (dm_name d =? "ts")%string then create_video_track o d buf id timebase extra else Ok (d, None)
               end);;
  Ok (d', discard_if (0 <? zlen extra) buf).

(** demuxer.go:326-334 findTrackByBufferIndex: the first entry in iteration order whose buffer index matches. *)
Definition find_track (o : oracle) (d : demuxer) (buf : Z) : res (option stream) :=
  let c := filter (fun e => snd e =? buf) (dm_map d) in
  match nth_error c (or_pick o mod List.length c)%nat with
  | None => Ok None
  | Some (i, _) => s <- tm_get (dm_tracks d) i;; Ok (Some s)
  end.

(** ** Probe completion *)
(** int(packet.GetDuration(1000)), av_packet.go:73-79. *)
Definition pk_ms (o : oracle) (p : packet) : Z :=
  match convert_field (pk_duration p) (pk_timebase p) 1000 with Some v => v | None => or_ms o (pk_duration p) (pk_timebase p) end.

(** demuxer.go:340-353, 386-399: the first list whose first packet has the codec; (0,0) if there is none. *)
Fixpoint first_packet_of (codec : Z) (l : list (list packet)) : option packet :=
  match l with
  | [] => None
  | [] :: t => first_packet_of codec t
  | (p :: _) :: t => if pk_codec p =? codec then Some p else first_packet_of codec t
  end.
Definition set_rate (s : stream) (r : Z) : stream :=
  let c := st_audio s in
  mkStream (st_media s) (st_index s) (st_codec s) (st_params s) (st_data s) (st_timebase s)
    {| ac_sample_rate := r; ac_sample_size := ac_sample_size c; ac_channels := ac_channels c; ac_has_adts := ac_has_adts c; ac_bit_rate := ac_bit_rate c |}.
Definition set_bit_rate (s : stream) (r : Z) : stream :=
  let c := st_audio s in
  mkStream (st_media s) (st_index s) (st_codec s) (st_params s) (st_data s) (st_timebase s)
    {| ac_sample_rate := ac_sample_rate c; ac_sample_size := ac_sample_size c; ac_channels := ac_channels c; ac_has_adts := ac_has_adts c; ac_bit_rate := r |}.

(** demuxer.go:337-380 calculatePCMFrequency. *)
Definition pcm_rate (sample_size ms_size : Z) : Z :=
  if ms_size <=? 16 then 8000 else if ms_size <=? 32 then 16000 else if ms_size <=? 64 then 32000 else if ms_size <=? 96 then 48000 else sample_size.
Definition calculate_pcm_frequency (o : oracle) (packets : list (list packet)) (tracks : list stream) : list stream :=
  match first_packet_of AVCodecIdPCMS16LE packets with
  | None => tracks
  | Some p =>
    if pk_ms o p <? 1 then tracks
    else map (fun s => if st_codec s =? AVCodecIdPCMS16LE then set_rate s (pcm_rate (ac_sample_size (st_audio s)) (Z.quot (zlen (pk_data p)) (pk_ms o p))) else s) tracks
  end.
(** demuxer.go:383-426 calculateG726BitRate. *)
Definition g726_bit_rate (bit_rate : Z) : option Z :=
  if bit_rate <=? 16000 then Some 16000 else if bit_rate <=? 24000 then Some 24000 else if bit_rate <=? 32000 then Some 32000
  else if bit_rate <=? 40000 then Some 40000 else None.
Definition calculate_g726_bit_rate (o : oracle) (packets : list (list packet)) (tracks : list stream) : list stream :=
  match first_packet_of AVCodecIdADPCMG726 packets with
  | None => tracks
  | Some p =>
    if pk_ms o p <? 1 then tracks
    else match g726_bit_rate (i64 (i64 (Z.quot (zlen (pk_data p)) (pk_ms o p) * 1000) * 8)) with
         | None => tracks
         | Some r => map (fun s => if st_codec s =? AVCodecIdADPCMG726 then set_bit_rate s r else s) tracks
         end
  end.
(** demuxer.go:429-432 prepareTracks. *)
Definition prepare_tracks (o : oracle) (packets : list (list packet)) (tracks : list stream) : list stream :=
  calculate_g726_bit_rate o packets (calculate_pcm_frequency o packets tracks).

(** demuxer.go:292-301 forwardPacket. A call on a nil Handler panics. *)
Definition forward_packet (d : demuxer) (p : packet) : res (list event) :=
  if negb (dm_handler d) then Panic
  else if dm_autofree d then
    match map_find (dm_map d) (pk_index p) with Some b => Ok [EvPacket p; EvDiscardHead b] | None => Panic end
  else Ok [EvPacket p].
Fixpoint forward_all (d : demuxer) (l : list packet) : res (list event) :=
  match l with
  | [] => Ok []
  | p :: t => e <- forward_packet d p;; e' <- forward_all d t;; Ok (e ++ e')
  end.

(** demuxer.go:454-466: all but the last packet of every list are removed and collected. *)
Definition all_but_last (l : list packet) : list packet := removelast l.
Definition only_last (l : list packet) : list packet := match l with [] => [] | p :: t => [last t p] end.

(** demuxer.go:434-476 OnProbeComplete. *)
Definition on_probe_complete (o : oracle) (d : demuxer) : res (demuxer * list event) :=
  if dm_completed d then Ok (d, [])
  else
    let d1 := with_completed d in
    match dm_tracks d1 with
    | [] => if dm_handler d1 then Ok (d1, [EvTrackNotFind]) else Panic
    | _ =>
      let ts := prepare_tracks o (dm_packets d1) (dm_tracks d1) in
      let d2 := with_tracks d1 ts (dm_map d1) in
      if negb (dm_handler d2) then Panic
      else
        let result := List.concat (map all_but_last (dm_packets d2)) in
        let d3 := with_packets d2 (map only_last (dm_packets d2)) in
        e <- forward_all d3 (or_sort o result);;
        Ok (d3, map EvNewTrack ts ++ [EvTrackComplete] ++ e)
    end.

(** ** Packets *)
Definition set_duration (p : packet) (v : Z) : packet :=
  mkPkt (pk_data p) (pk_pts p) (pk_dts p) v (pk_key p) (pk_created p) (pk_buffer p) (pk_index p) (pk_timebase p)
        (pk_media p) (pk_codec p) (pk_type p) (pk_avcc p) (pk_annexb p) (pk_alloc p).
Definition set_buffer (p : packet) (v : Z) : packet :=
  mkPkt (pk_data p) (pk_pts p) (pk_dts p) (pk_duration p) (pk_key p) (pk_created p) v (pk_index p) (pk_timebase p)
        (pk_media p) (pk_codec p) (pk_type p) (pk_avcc p) (pk_annexb p) (pk_alloc p).

(** demuxer.go:282-285: the sum of the durations in milliseconds of packets 0..prev. *)
Definition total_ms (o : oracle) (l : list packet) : Z := fold_left (fun a p => i64 (a + pk_ms o p)) l 0.

(** demuxer.go:254-290 processBufferedPacket. The list is used through its [list] view (C13). *)
Definition process_buffered_packet (o : oracle) (d : demuxer) (p : packet) : res (demuxer * list event) :=
  let n := zlen (dm_packets d) in
  let packets := if pk_index p <? n then dm_packets d else dm_packets d ++ [[]] in
  let k := if pk_index p <? n then pk_index p else n in
  l <- of_opt (idx packets k);;
  let add := EvAdd p n in
  let l1 := l ++ [p] in
  let prev := zlen l1 - 2 in
  if prev <? 0 then ps <- of_opt (upd packets k l1);; Ok (with_packets d ps, [add])
  else
    q <- of_opt (idx l1 prev);;
    let q1 := set_duration q (i64 (pk_dts p - pk_dts q)) in
    l2 <- of_opt (upd l1 prev q1);;
    if dm_completed d then
      ps <- of_opt (upd packets k (firstn (Z.to_nat prev) l2 ++ skipn (S (Z.to_nat prev)) l2));;
      let d1 := with_packets d ps in
      e <- forward_packet d1 q1;; Ok (d1, add :: e)
    else
      ps <- of_opt (upd packets k l2);;
      let d1 := with_packets d ps in
      let duration := total_ms o (firstn (Z.to_nat (prev + 1)) l2) in
      if Z.max (Z.max (dm_probe d1) 200) duration <=? duration then
        '(d2, e) <- on_probe_complete o d1;; Ok (d2, add :: e)
      else Ok (d1, [add]).

(** demuxer.go:171-204 OnAudioPacket. ExtractAudioPacket never fails (C60); [data[0:]] is [data]. *)
Definition on_audio_packet (o : oracle) (d : demuxer) (buf id : Z) (data : list Z) (ts : Z) : res (demuxer * list event) :=
  track <- find_track o d buf;;
  '(d1, track1) <- (match track with
                    | Some s => Ok (d, Some s)
                    | None =>
                      if dm_completed d then Ok (d, None)
                      else match extract_audio_extra_data id data with
                           | Ok (extra, _, config) => tb <- get_timebase (dm_name d);; create_audio_track d buf id tb extra config
                           | Err => Ok (d, None) | Panic => Panic | NoFuel => NoFuel
                           end
                    end);;
  match track1 with
  | None => Ok (d1, [EvDiscardBack buf])
  | Some s => process_buffered_packet o d1 (set_buffer (init_audio (pool_packet o) data ts id (st_index s) (st_timebase s)) buf)
  end.

(** demuxer.go:206-250 OnVideoPacket. *)
Definition on_video_packet (o : oracle) (d : demuxer) (buf id : Z) (data : list Z) (key : bool) (dts pts : Z) : res (demuxer * list event) :=
  track <- find_track o d buf;;
  '(d1, track1) <- (match track with
                    | Some s => Ok (d, Some s)
                    | None =>
                      if negb (dm_completed d) && (get_pack_type (dm_name d) =? PacketTypeAnnexB) then
                        extra <- (if key then match extract_video_extra_data id data with Err => Ok None | r => r end else Ok None);;
                        extra1 <- (match extra with
                                   | Some e => Ok (Some e)
                                   | None => match tm_find (dm_tracks d) id with
                                             | None => Ok None
                                             | Some i => s <- tm_get (dm_tracks d) i;; Ok (st_data s)
                                             end
                                   end);;
                        match extra1 with
                        | None => Ok (d, None)
                        | Some e => tb <- get_timebase (dm_name d);; create_video_track o d buf id tb e
                        end
                      else Ok (d, None)
                    end);;
  match track1 with
  | None => Ok (d1, [EvDiscardBack buf])
  | Some s =>
    let p := set_buffer (init_video (pool_packet o) data dts pts key (get_pack_type (dm_name d1)) id (st_index s) (st_timebase s)) buf in
    let p1 := match dm_pre d1 with Some f => f p | None => p end in
    process_buffered_packet o d1 p1
  end.

(** demuxer.go:315-324 FindBufferIndex. *)
Fixpoint marker_index (l : list Z) (i m : Z) : option Z :=
  match l with [] => None | x :: t => if m =? x then Some i else marker_index t (i + 1) m end.
Definition find_buffer_index (d : demuxer) (m : Z) : demuxer * Z :=
  match marker_index (dm_ordered d) 0 m with
  | Some i => (d, i)
  | None => let l := dm_ordered d ++ [m] in (with_ordered d l, zlen l - 1)
  end.

(** demuxer.go:492-514 TryCompleteProbe. *)
Definition need_more (d : demuxer) : bool :=
  existsb (fun s => ((st_codec s =? AVCodecIdPCMS16LE) || (st_codec s =? AVCodecIdADPCMG726)) &&
                    match idx (dm_packets d) (st_index s) with Some l => zlen l <? 2 | None => false end) (dm_tracks d).
Definition try_complete_probe (o : oracle) (d : demuxer) : res (demuxer * list event) :=
  if need_more d then Ok (d, []) else on_probe_complete o d.

(** ** Histories *)
Inductive op :=
| OpNewAudio (buf id timebase : Z) (extra : option (list Z)) (config : audio_config)
| OpNewVideo (buf id timebase : Z) (extra : list Z)
| OpAudio (buf id : Z) (data : list Z) (ts : Z)
| OpVideo (buf id : Z) (data : list Z) (key : bool) (dts pts : Z)
| OpProbeComplete | OpTryComplete
| OpSetProbe (n : Z) | OpSetHandler | OpSetPre (f : option (packet -> packet)) | OpSetAutoFree (b : bool) | OpClose
| OpFindIndex (marker : Z)       (* FindBufferIndex, and FindBufferIndexByMediaType (demuxer.go:311-313) *)
| OpDiscardBack (i : Z) | OpDiscardHead (i : Z).   (* demuxer.go:303-309, forwarded to the pipeline *)

Definition step (o : oracle) (d : demuxer) (a : op) : res (demuxer * list event) :=
  match a with
  | OpNewAudio buf id tb extra c => on_new_audio_track d buf id tb extra c
  | OpNewVideo buf id tb extra => on_new_video_track o d buf id tb extra
  | OpAudio buf id data ts => on_audio_packet o d buf id data ts
  | OpVideo buf id data key dts pts => on_video_packet o d buf id data key dts pts
  | OpProbeComplete => on_probe_complete o d
  | OpTryComplete => try_complete_probe o d
  | OpSetProbe n => Ok (with_probe d n, [])
  | OpSetHandler => Ok (with_handler d true, [])
  | OpSetPre f => Ok (with_pre d f, [])
  | OpSetAutoFree b => Ok (with_autofree d b, [])
  | OpClose => Ok (with_pre (with_handler d false) None, [])
  | OpFindIndex m => let '(d1, i) := find_buffer_index d m in Ok (d1, [EvIndex m i])
  | OpDiscardBack i => Ok (d, [EvDiscardBack i])
  | OpDiscardHead i => Ok (d, [EvDiscardHead i])
  end.

Fixpoint run (d : demuxer) (l : list (oracle * op)) : res (demuxer * list event) :=
  match l with
  | [] => Ok (d, [])
  | (o, a) :: t => '(d1, e) <- step o d a;; '(d2, e') <- run d1 t;; Ok (d2, e ++ e')
  end.

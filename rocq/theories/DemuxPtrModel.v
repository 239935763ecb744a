(** * The demuxer with packets behind pointers: demuxer.go over linked_list.go and the packet pool.

    DemuxModel keeps the queued packets as lists of values. Here [s.Packets] is what it is in Go: linked lists of pointers to packets that live in a
    memory, are taken from PacketPool and, with AutoFree, put back into it and used again. *)
From Verif Require Import Base CollectionsModel CollectionsSpec NaluModel RecordModel AacModel FloatModel PacketModel DemuxModel.
From Coq Require Import String Permutation Sorted.
Local Open Scope list_scope.

(** ** State *)
(** demuxer.go:29-41 BaseDemuxer. [pd_d] has all fields but Packets (its [dm_packets] stays empty). A pointer to a packet is an index into [pd_mem].
    [pd_pool] are the packets this demuxer has put into PacketPool and that are still in it.
    [pd_kept] is not a field in Go: it records the packets passed to OnPacket without AutoFree, as they were then. *)
Record pdm := mkPd { pd_d : demuxer; pd_lists : list (linked_list nat); pd_mem : list packet; pd_pool : list nat; pd_kept : list (nat * packet) }.
Definition pd_new (name : string) : pdm := mkPd (dm_new name) [] [] [] [].
Definition on_d (s : pdm) (d : demuxer) : pdm := mkPd d (pd_lists s) (pd_mem s) (pd_pool s) (pd_kept s).

(** What PacketPool.Get returns: a new packet, one freed by somebody else, or one of those this demuxer freed. *)
Inductive pool_choice := GNew | GForeign | GOwn (k : nat).
(** The runtime's choices. sort.Slice exchanges pointers: [po_perm] gives the positions in the order chosen. *)
Record poracle := { po_pick : nat; po_perm : list packet -> list nat; po_ms : Z -> Z -> Z; po_grow : nat -> nat; po_get : pool_choice }.
Definition order (l : list packet) (js : list nat) : list packet := map (fun j => nth j l pkt_zero) js.
Definition poracle_ok (o : poracle) : Prop := forall l, Permutation (po_perm o l) (seq 0 (List.length l)) /\ Sorted dts_le (order l (po_perm o l)).
(** The same choices as an [oracle] of DemuxModel; [recycled] says whether the packet comes from the pool. *)
Definition choices (o : poracle) (recycled : bool) : oracle :=
  {| or_pick := po_pick o; or_sort := fun l => order l (po_perm o l); or_ms := po_ms o; or_grow := po_grow o; or_recycled := recycled |}.

(** *p and *p = v *)
Definition load (mem : list packet) (p : nat) : res packet := of_opt (nth_error mem p).
Definition store (mem : list packet) (p : nat) (v : packet) : res (list packet) := match nth_error mem p with Some _ => Ok (set_nth p v mem) | None => Panic end.

(** av_packet.go:30-34, PacketPool.Get. *)
Definition pool_take (o : poracle) (mem : list packet) (pool : list nat) : nat * list packet * list nat :=
  match po_get o with
  | GNew => (List.length mem, mem ++ [pkt_zero], pool)
  | GForeign => (List.length mem, mem ++ [freed pkt_zero], pool)
  | GOwn k => match nth_error pool k with Some p => (p, mem, remove_nth k pool) | None => (List.length mem, mem ++ [pkt_zero], pool) end
  end.

(** demuxer.go:292-301 forwardPacket, with FreePacket (av_packet.go:118-135). *)
Definition forward_ptr (d : demuxer) (mem : list packet) (pool : list nat) (kept : list (nat * packet)) (p : nat) : res (list packet * list nat * list (nat * packet) * list event) :=
  pkt <- load mem p;;
  if negb (dm_handler d) then Panic
  else if dm_autofree d then
    match map_find (dm_map d) (pk_index pkt) with
    | Some b => mem1 <- store mem p (freed pkt);; Ok (mem1, p :: pool, kept, [EvPacket pkt; EvDiscardHead b])
    | None => Panic
    end
  else Ok (mem, pool, (p, pkt) :: kept, [EvPacket pkt]).
Fixpoint forward_ptrs (d : demuxer) (mem : list packet) (pool : list nat) (kept : list (nat * packet)) (l : list nat) : res (list packet * list nat * list (nat * packet) * list event) :=
  match l with
  | [] => Ok (mem, pool, kept, [])
  | p :: t => '(mem1, pool1, kept1, e) <- forward_ptr d mem pool kept p;; '(mem2, pool2, kept2, e') <- forward_ptrs d mem1 pool1 kept1 t;; Ok (mem2, pool2, kept2, e ++ e')
  end.

(** demuxer.go:340-353, 386-399: the first packet of the first non-empty list that starts with this codec. *)
Fixpoint first_ptr_of (codec : Z) (mem : list packet) (lists : list (linked_list nat)) : res (option packet) :=
  match lists with
  | [] => Ok None
  | l :: t =>
    if ll_size l <? 1 then first_ptr_of codec mem t
    else p <- ll_get l 0;; pkt <- load mem p;; if pk_codec pkt =? codec then Ok (Some pkt) else first_ptr_of codec mem t
  end.
(** demuxer.go:337-432. What is done with that packet is in DemuxModel. *)
Definition of_packet (p : option packet) : list (list packet) := match p with Some p => [[p]] | None => [] end.
Definition prepare_ptr (o : poracle) (mem : list packet) (lists : list (linked_list nat)) (tracks : list stream) : res (list stream) :=
  a <- first_ptr_of AVCodecIdPCMS16LE mem lists;;
  b <- first_ptr_of AVCodecIdADPCMG726 mem lists;;
  Ok (calculate_g726_bit_rate (choices o false) (of_packet b) (calculate_pcm_frequency (choices o false) (of_packet a) tracks)).

(** demuxer.go:461-465: Remove(0) as many times. *)
Fixpoint remove_front (n : nat) (l : linked_list nat) : res (list nat * linked_list nat) :=
  match n with O => Ok ([], l) | S n' => '(p, l1) <- ll_remove l 0;; '(ps, l2) <- remove_front n' l1;; Ok (p :: ps, l2) end.
(** demuxer.go:454-466. *)
Fixpoint collect (lists : list (linked_list nat)) : res (list nat * list (linked_list nat)) :=
  match lists with
  | [] => Ok ([], [])
  | l :: t =>
    let prev := ll_size l - 2 in
    '(ps, l1) <- (if prev <? 0 then Ok ([], l) else remove_front (Z.to_nat (prev + 1)) l);;
    '(qs, t1) <- collect t;; Ok (ps ++ qs, l1 :: t1)
  end.
Fixpoint load_all (mem : list packet) (ps : list nat) : res (list packet) :=
  match ps with [] => Ok [] | p :: t => v <- load mem p;; vs <- load_all mem t;; Ok (v :: vs) end.
(** demuxer.go:469-471: the pointers in the order of the dts of their packets. *)
Definition sort_ptrs (o : poracle) (mem : list packet) (ps : list nat) : res (list nat) :=
  vs <- load_all mem ps;; Ok (map (fun j => nth j ps 0%nat) (po_perm o vs)).

(** demuxer.go:434-476 OnProbeComplete. *)
Definition on_probe_complete_ptr (o : poracle) (s : pdm) : res (pdm * list event) :=
  let d := pd_d s in
  if dm_completed d then Ok (s, [])
  else
    let d1 := with_completed d in
    match dm_tracks d1 with
    | [] => if dm_handler d1 then Ok (on_d s d1, [EvTrackNotFind]) else Panic
    | _ =>
      ts <- prepare_ptr o (pd_mem s) (pd_lists s) (dm_tracks d1);;
      let d2 := with_tracks d1 ts (dm_map d1) in
      if negb (dm_handler d2) then Panic
      else
        '(result, lists) <- collect (pd_lists s);;
        sorted <- sort_ptrs o (pd_mem s) result;;
        '(mem, pool, kept, e) <- forward_ptrs d2 (pd_mem s) (pd_pool s) (pd_kept s) sorted;;
        Ok (mkPd d2 lists mem pool kept, map EvNewTrack ts ++ [EvTrackComplete] ++ e)
    end.

(** demuxer.go:282-285: the loop over packets 0..prev, [n] of them from [i]. *)
Fixpoint sum_ms (o : poracle) (mem : list packet) (l : linked_list nat) (i : Z) (n : nat) (a : Z) : res Z :=
  match n with
  | O => Ok a
  | S n' => p <- ll_get l i;; pkt <- load mem p;; sum_ms o mem l (i + 1) n' (i64 (a + pk_ms (choices o false) pkt))
  end.

(** demuxer.go:254-290 processBufferedPacket. *)
Definition process_ptr (o : poracle) (s : pdm) (p : nat) : res (pdm * list event) :=
  let d := pd_d s in
  pkt <- load (pd_mem s) p;;
  let n := zlen (pd_lists s) in
  let lists := if pk_index pkt <? n then pd_lists s else pd_lists s ++ [ll_new] in
  let k := if pk_index pkt <? n then pk_index pkt else n in
  l <- of_opt (idx lists k);;
  l1 <- ll_add l p;;
  let prev := ll_size l1 - 2 in
  if prev <? 0 then ls <- of_opt (upd lists k l1);; Ok (mkPd d ls (pd_mem s) (pd_pool s) (pd_kept s), [EvAdd pkt n])
  else
    qp <- ll_get l1 prev;;
    q <- load (pd_mem s) qp;;
    mem <- store (pd_mem s) qp (set_duration q (i64 (pk_dts pkt - pk_dts q)));;
    if dm_completed d then
      '(rp, l2) <- ll_remove l1 prev;;
      ls <- of_opt (upd lists k l2);;
      '(mem1, pool1, kept1, e) <- forward_ptr d mem (pd_pool s) (pd_kept s) rp;;
      Ok (mkPd d ls mem1 pool1 kept1, EvAdd pkt n :: e)
    else
      ls <- of_opt (upd lists k l1);;
      let s1 := mkPd d ls mem (pd_pool s) (pd_kept s) in
      duration <- sum_ms o mem l1 0 (Z.to_nat (prev + 1)) 0;;
      if Z.max (Z.max (dm_probe d) 200) duration <=? duration then
        '(s2, e) <- on_probe_complete_ptr o s1;; Ok (s2, EvAdd pkt n :: e)
      else Ok (s1, [EvAdd pkt n]).

(** av_packet.go:90-101 NewAudioPacket and demuxer.go:202, on the packet taken from the pool. *)
Definition on_audio_packet_ptr (o : poracle) (s : pdm) (buf id : Z) (data : list Z) (ts : Z) : res (pdm * list event) :=
  let d := pd_d s in
  track <- find_track (choices o false) d buf;;
  '(d1, track1) <- (match track with
                    | Some t => Ok (d, Some t)
                    | None =>
                      if dm_completed d then Ok (d, None)
                      else match extract_audio_extra_data id data with
                           | Ok (extra, _, config) => tb <- get_timebase (dm_name d);; create_audio_track d buf id tb extra config
                           | Err => Ok (d, None) | Panic => Panic | NoFuel => NoFuel
                           end
                    end);;
  match track1 with
  | None => Ok (on_d s d1, [EvDiscardBack buf])
  | Some t =>
    let '(p, mem, pool) := pool_take o (pd_mem s) (pd_pool s) in
    v <- load mem p;;
    mem1 <- store mem p (set_buffer (init_audio v data ts id (st_index t) (st_timebase t)) buf);;
    process_ptr o (mkPd d1 (pd_lists s) mem1 pool (pd_kept s)) p
  end.

(** demuxer.go:206-250 OnVideoPacket. *)
Definition on_video_packet_ptr (o : poracle) (s : pdm) (buf id : Z) (data : list Z) (key : bool) (dts pts : Z) : res (pdm * list event) :=
  let d := pd_d s in
  track <- find_track (choices o false) d buf;;
  '(d1, track1) <- (match track with
                    | Some t => Ok (d, Some t)
                    | None =>
                      if negb (dm_completed d) && (get_pack_type (dm_name d) =? PacketTypeAnnexB) then
                        extra <- (if key then match extract_video_extra_data id data with Err => Ok None | r => r end else Ok None);;
                        extra1 <- (match extra with
                                   | Some e => Ok (Some e)
                                   | None => match tm_find (dm_tracks d) id with
                                             | None => Ok None
                                             | Some i => t <- tm_get (dm_tracks d) i;; Ok (st_data t)
                                             end
                                   end);;
                        match extra1 with
                        | None => Ok (d, None)
                        | Some e => tb <- get_timebase (dm_name d);; create_video_track (choices o false) d buf id tb e
                        end
                      else Ok (d, None)
                    end);;
  match track1 with
  | None => Ok (on_d s d1, [EvDiscardBack buf])
  | Some t =>
    let '(p, mem, pool) := pool_take o (pd_mem s) (pd_pool s) in
    v <- load mem p;;
    mem1 <- store mem p (set_buffer (init_video v data dts pts key (get_pack_type (dm_name d1)) id (st_index t) (st_timebase t)) buf);;
    v1 <- load mem1 p;;
    mem2 <- store mem1 p (match dm_pre d1 with Some f => f v1 | None => v1 end);;
    process_ptr o (mkPd d1 (pd_lists s) mem2 pool (pd_kept s)) p
  end.

(** demuxer.go:492-514 TryCompleteProbe. *)
Definition need_more_ptr (s : pdm) : bool :=
  existsb (fun t => ((st_codec t =? AVCodecIdPCMS16LE) || (st_codec t =? AVCodecIdADPCMG726)) &&
                    match idx (pd_lists s) (st_index t) with Some l => ll_size l <? 2 | None => false end) (dm_tracks (pd_d s)).
Definition try_complete_probe_ptr (o : poracle) (s : pdm) : res (pdm * list event) :=
  if need_more_ptr s then Ok (s, []) else on_probe_complete_ptr o s.

(** ** Histories *)
(** The calls that do not touch the packets are those of DemuxModel. *)
Definition step_ptr (o : poracle) (s : pdm) (a : op) : res (pdm * list event) :=
  match a with
  | OpAudio buf id data ts => on_audio_packet_ptr o s buf id data ts
  | OpVideo buf id data key dts pts => on_video_packet_ptr o s buf id data key dts pts
  | OpProbeComplete => on_probe_complete_ptr o s
  | OpTryComplete => try_complete_probe_ptr o s
  | OpNewAudio _ _ _ _ _ | OpNewVideo _ _ _ _ | OpSetProbe _ | OpSetHandler | OpSetPre _ | OpSetAutoFree _ | OpClose | OpFindIndex _ | OpDiscardBack _ | OpDiscardHead _ =>
    '(d, e) <- step (choices o false) (pd_d s) a;; Ok (on_d s d, e)
  end.
Fixpoint run_ptr (s : pdm) (l : list (poracle * op)) : res (pdm * list event) :=
  match l with
  | [] => Ok (s, [])
  | (o, a) :: t => '(s1, e) <- step_ptr o s a;; '(s2, e') <- run_ptr s1 t;; Ok (s2, e ++ e')
  end.

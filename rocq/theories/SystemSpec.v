(** * SystemSpec: a demuxer on top of a real StreamsBuffer.

    The demuxer model holds packet data by value. Here every packet keeps the slice that Fetch returned for its block, and what the
    handler sees is what that slice shows in the shared memory at the moment of OnPacket. *)
From Verif Require Import Base BlockModel PacketModel DemuxModel DeliverySpec.
From Coq Require Import List.
Import ListNotations.
Local Open Scope list_scope.

(** The media type the caller passes to Write. *)
Definition call_video (a : op) : bool := match a with OpVideo _ _ _ _ _ _ | OpNewVideo _ _ _ _ => true | _ => false end.
(** The call with the bytes of the fetched slice. *)
Definition with_block (a : op) (bytes : list Z) : op :=
  match a with
  | OpAudio buf id _ ts => OpAudio buf id bytes ts
  | OpVideo buf id _ key dts pts => OpVideo buf id bytes key dts pts
  | OpNewAudio buf id tb _ c => OpNewAudio buf id tb (Some bytes) c
  | OpNewVideo buf id tb _ => OpNewVideo buf id tb bytes
  | _ => a
  end.

(** A call of the container parser: the demuxer call and the pieces in which its block is written. *)
Definition call : Type := (oracle * op) * list (list Z).

Fixpoint write_chunks (h : heap) (s : sbuf) (buf : Z) (video : bool) (chunks : list (list Z)) : res (heap * sbuf) :=
  match chunks with
  | [] => Ok (h, s)
  | c :: t => '(h1, s1, _) <- sb_write h s c buf video;; write_chunks h1 s1 buf video t
  end.
(** Write the block, fetch it. *)
Definition supply (h : heap) (s : sbuf) (a : op) (chunks : list (list Z)) : res (heap * sbuf * op * option gslice) :=
  match call_block a with
  | None => Ok (h, s, a, None)
  | Some (buf, _) =>
    '(h1, s1) <- write_chunks h s buf (call_video a) chunks;;
    '(h2, s2, x) <- sb_fetch h1 s1 buf;;
    sl <- of_opt x;;
    bytes <- read h2 sl;;
    Ok (h2, s2, with_block a bytes, Some sl)
  end.

(** The slices of the packets waiting in the demuxer. An entry is found by buffer index, dts and the bytes of the block at the time
    of the call; if several entries agree in all of them, the oldest is taken. *)
Definition tag (p : packet) : Z * list Z := (pk_dts p, pk_data p).
Definition tag_dec (x y : Z * list Z) : {x = y} + {x <> y}.
Proof. decide equality; [apply list_eq_dec, Z.eq_dec|apply Z.eq_dec]. Defined.
Definition held := list (Z * (Z * list Z) * gslice).
Fixpoint take_held (b : Z) (t : Z * list Z) (l : held) : option (gslice * held) :=
  match l with
  | [] => None
  | (b', t', s) :: l' =>
    if (b' =? b) && (if tag_dec t' t then true else false) then Some (s, l')
    else match take_held b t l' with Some (x, l'') => Some (x, (b', t', s) :: l'') | None => None end
  end.
(** The entries of one buffer. *)
Definition held_of (b : Z) (k : held) : list ((Z * list Z) * gslice) := map (fun x => (snd (fst x), snd x)) (filter (fun x => fst (fst x) =? b) k).

(** The events of one call, executed on the StreamsBuffer; [cur] is the slice of the call's block. Returns what the handler sees. *)
Fixpoint sys_events (cur : option gslice) (h : heap) (s : sbuf) (k : held) (l : list event) : res (sbuf * held * list (packet * list Z)) :=
  match l with
  | [] => Ok (s, k, [])
  | EvAdd p _ :: t => sl <- of_opt cur;; sys_events cur h s (k ++ [(pk_buffer p, tag p, sl)]) t
  | EvPacket p :: t =>
    '(sl, k1) <- of_opt (take_held (pk_buffer p) (tag p) k);;
    bytes <- read h sl;;
    '(s1, k2, out) <- sys_events cur h s k1 t;;
    Ok (s1, k2, (p, bytes) :: out)
  | EvDiscardHead i :: t => s1 <- sb_discard_head s i;; sys_events cur h s1 k t
  | EvDiscardBack i :: t => s1 <- sb_discard_back s i;; sys_events cur h s1 k t
  | _ :: t => sys_events cur h s k t
  end.

Record system := mkSys { sy_heap : heap; sy_bufs : sbuf; sy_held : held; sy_dm : demuxer }.
Definition sys_new (name : String.string) : system := mkSys [] [] [] (dm_new name).

Definition sys_step (y : system) (c : call) : res (system * list (packet * list Z)) :=
  let '((o, a), chunks) := c in
  '(h1, s1, a1, cur) <- supply (sy_heap y) (sy_bufs y) a chunks;;
  '(d1, e) <- step o (sy_dm y) a1;;
  '(s2, k2, out) <- sys_events cur h1 s1 (sy_held y) e;;
  Ok (mkSys h1 s2 k2 d1, out).
Fixpoint sys_run (y : system) (l : list call) : res (system * list (packet * list Z)) :=
  match l with
  | [] => Ok (y, [])
  | c :: t => '(y1, out) <- sys_step y c;; '(y2, out') <- sys_run y1 t;; Ok (y2, out ++ out')
  end.

(** ** The load bound, on the demuxer alone *)
Definition bytes_of (l : list packet) : Z := fold_right (fun p n => zlen (pk_data p) + n) 0 l.
(** Half of the memory of a stream: 2 MiB for video, 12 seconds at 48000 bytes for anything else. *)
Definition stream_half (video : bool) : Z := if video then 1048576 else 288000.
(** [caps] records for every stream buffer whether its first block was a video block. *)
Definition open_stream (caps : list bool) (a : op) : list bool :=
  match call_block a with Some (buf, _) => if buf =? zlen caps then caps ++ [call_video a] else caps | None => caps end.
(** Blocks are written in at least one piece, buffers are opened in order, and the bytes of the packets waiting for a buffer
    together with the new block fill at most half of it. *)
Definition supply_ok (d : demuxer) (caps : list bool) (a : op) (chunks : list (list Z)) : Prop :=
  match call_block a with
  | None => True
  | Some (buf, data) =>
    concat chunks = data /\ chunks <> [] /\ 0 <= buf <= zlen caps /\
    bytes_of (waiting buf d) + zlen data <= stream_half (nth (Z.to_nat buf) (open_stream caps a) false)
  end.
Fixpoint supplied (d : demuxer) (caps : list bool) (l : list call) : Prop :=
  match l with
  | [] => True
  | ((o, a), chunks) :: t =>
    supply_ok d caps a chunks /\ match step o d a with Ok (d1, _) => supplied d1 (open_stream caps a) t | _ => True end
  end.

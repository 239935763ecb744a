(** * BlockModel: block_buffer.go, buffer_direct.go, buffer_rb.go, streams_buffer.go, direct_pipeline.go.

    Byte slices are values (array, offset, length) into a heap of arrays, so aliasing is visible.
    All slices stored in the buffers have len = cap (they come from make, or from x[n:] of such a slice).
    The block queue is the plain list justified by C12; the pointer b.blocks.Tail() is only ever used to
    update the last block, which is written here as a functional update of the last element.
    Offsets and sizes are unbounded integers: a size near 2^62 would exhaust memory before overflowing. *)
From Verif Require Import Base CollectionsSpec.

(** A heap of byte arrays and slices into it. *)
Definition heap := list (list Z).
Record gslice := mkSlice { s_arr : nat; s_off : Z; s_len : Z }.

(** The bytes a slice shows. *)
Definition read (h : heap) (s : gslice) : res (list Z) :=
  a <- of_opt (nth_error h (s_arr s));; of_opt (slice a (s_off s) (s_off s + s_len s)).
(** s[lo:hi] (bounded by cap(s) = len(s)). *)
Definition reslice (s : gslice) (lo hi : Z) : res gslice :=
  if (0 <=? lo) && (lo <=? hi) && (hi <=? s_len s) then Ok (mkSlice (s_arr s) (s_off s + lo) (hi - lo)) else Panic.
(** copy(dst, src) *)
Definition hcopy (h : heap) (dst : gslice) (src : list Z) : res heap :=
  a <- of_opt (nth_error h (s_arr dst));;
  a' <- of_opt (copy_at a (s_off dst) (firstn (Z.to_nat (s_len dst)) src));;
  Ok (set_nth (s_arr dst) a' h).
(** make([]byte, n) *)
Definition make (h : heap) (n : Z) : res (heap * gslice) :=
  _ <- assert (0 <=? n);; Ok (h ++ [zeros (Z.to_nat n)], mkSlice (length h) 0 n).

(* ---------------------------------------------------------------------------------------- *)
(** ** buffer_direct.go *)

(** collections/buffer_direct.go:11-15, the anonymous block struct. *)
Record block := mkBlock { bk_index : Z; bk_size : Z; bk_completed : bool }.
(** collections/buffer_direct.go:6-16 DirectBlockBuffer. *)
Record dbuf := mkD { d_data : gslice; d_next : Z; d_sealed : bool; d_blocks : list block }.

(** collections/buffer_direct.go:136-145 NewDirectBlockBuffer. *)
Definition d_new (h : heap) (capacity : Z) : res (heap * dbuf) :=
  '(h1, s) <- make h capacity;; Ok (h1, mkD s 0 false []).

(** collections/buffer_direct.go:18-22 grow. *)
Definition d_grow (h : heap) (b : dbuf) (capacity : Z) : res (heap * gslice) :=
  '(h1, bytes) <- make h capacity;;
  s <- reslice (d_data b) 0 (d_next b);;
  src <- read h1 s;;
  h2 <- hcopy h1 bytes src;;
  Ok (h2, bytes).

(** collections/buffer_direct.go:28-67 Alloc. *)
Definition d_alloc (h : heap) (b : dbuf) (size : Z) : res (heap * dbuf * gslice) :=
  _ <- assert (negb (d_sealed b));;
  let fresh := (d_blocks b, mkBlock (d_next b) 0 false) in
  let '(front, blk) :=
    match last_of (d_blocks b) with
    | None => fresh
    | Some t => if bk_completed t then fresh else (removelast (d_blocks b), t)
    end in
  let next := d_next b + size in
  '(h1, data) <- (if next >? s_len (d_data b) then d_grow h b (next * 3 / 2) else Ok (h, d_data b));;
  let blk' := mkBlock (bk_index blk) (bk_size blk + size) (bk_completed blk) in
  bytes <- reslice data (d_next b) next;;
  Ok (h1, mkD data next (d_sealed b) (front ++ [blk']), bytes).

(** collections/buffer_direct.go:24-26 Write. *)
Definition d_write (h : heap) (b : dbuf) (data : list Z) : res (heap * dbuf) :=
  '(h1, b1, dst) <- d_alloc h b (zlen data);;
  h2 <- hcopy h1 dst data;;
  Ok (h2, b1).

(** collections/buffer_direct.go:69-77 Fetch; a nil slice is None. *)
Definition d_fetch (b : dbuf) : res (dbuf * option gslice) :=
  _ <- assert (negb (d_sealed b));;
  t <- of_opt (last_of (d_blocks b));;
  if bk_completed t then Ok (b, None)
  else
    s <- reslice (d_data b) (bk_index t) (bk_index t + bk_size t);;
    Ok (mkD (d_data b) (d_next b) (d_sealed b)
            (removelast (d_blocks b) ++ [mkBlock (bk_index t) (bk_size t) true]), Some s).

(** collections/buffer_direct.go:79-86 Pop (Queue.Pop on an empty queue does nothing). *)
Definition d_pop (b : dbuf) : res dbuf :=
  _ <- assert (negb (d_sealed b));;
  let bs := tl (d_blocks b) in
  Ok (mkD (d_data b) (if zlen bs =? 0 then 0 else d_next b) (d_sealed b) bs).

(** collections/buffer_direct.go:88-95 PopBack (Queue.PopBack asserts that the queue is not empty). *)
Definition d_pop_back (b : dbuf) : res dbuf :=
  _ <- assert (negb (d_sealed b));;
  _ <- assert (zlen (d_blocks b) >? 0);;
  let bs := removelast (d_blocks b) in
  Ok (mkD (d_data b) (if zlen bs =? 0 then 0 else d_next b) (d_sealed b) bs).

(** collections/buffer_direct.go:97-103 PendingBlockSize. *)
Definition d_pending (b : dbuf) : Z :=
  match last_of (d_blocks b) with
  | Some t => if bk_completed t then 0 else bk_size t
  | None => 0
  end.

(** collections/buffer_direct.go:105-109 Clear. *)
Definition d_clear (b : dbuf) : dbuf := mkD (d_data b) 0 false [].
(** collections/buffer_direct.go:111-113 Data. *)
Definition d_data_slice (b : dbuf) : res gslice := reslice (d_data b) 0 (d_next b).
(** collections/buffer_direct.go:115-117 AvailableBytes. *)
Definition d_available (b : dbuf) : Z := s_len (d_data b) - d_next b.
(** collections/buffer_direct.go:119-121 Size. *)
Definition d_size (b : dbuf) : Z := zlen (d_blocks b).

(** collections/buffer_direct.go:123-134 SplitOff: (sealed old buffer, new buffer). *)
Definition d_split_off (b : dbuf) : res (dbuf * dbuf) :=
  s <- reslice (d_data b) (d_next b) (s_len (d_data b));;
  Ok (mkD (d_data b) (d_next b) true (d_blocks b), mkD s (d_next b) false []).

(* ---------------------------------------------------------------------------------------- *)
(** ** buffer_rb.go *)

(** collections/buffer_rb.go:9-13 RBBlockBuffer. *)
Record rbuf := mkRB { rb_d : dbuf; rb_capacity : Z; rb_discard : Z }.

(** collections/buffer_rb.go:139-153 NewRBBlockBuffer. *)
Definition rb_new (h : heap) (capacity : Z) : res (heap * rbuf) :=
  '(h1, b) <- d_new h capacity;; Ok (h1, mkRB b capacity 0).

(** collections/buffer_rb.go:24-94 Alloc (grow: lines 15-18). *)
Definition rb_alloc (h : heap) (r : rbuf) (size : Z) : res (heap * rbuf * gslice) :=
  let d := rb_d r in
  let blocks := d_blocks d in
  let data := d_data d in
  let cap := s_len data in
  let n := zlen blocks in
  '(head, tail, old, capacity) <-
    (if n =? 0 then Ok (0, 0, None, cap)
     else if n =? 1 then
       b <- of_opt (first_of blocks);;
       Ok (bk_index b, bk_index b + bk_size b, Some b, cap)
     else
       b <- of_opt (last_of blocks);;
       hd <- of_opt (first_of blocks);;
       Ok (bk_index hd, bk_index b + bk_size b, Some b, rb_capacity r));;
  let fresh := (blocks, mkBlock tail 0 false) in
  let '(front, ob) :=
    match old with
    | None => fresh
    | Some b => if bk_completed b then fresh else (removelast blocks, b)
    end in
  let over := tail <? head in
  '(h', data', capacity', front', index', tail', discard') <-
    (if over && (head - tail >=? size) then Ok (h, data, capacity, front, bk_index ob, tail, rb_discard r)
     else if negb over && (capacity - tail >=? size) then Ok (h, data, capacity, front, bk_index ob, tail, rb_discard r)
     else if negb over && (head >=? bk_size ob + size) then
       s <- reslice data (bk_index ob) (bk_index ob + bk_size ob);;
       src <- read h s;;
       h1 <- hcopy h data src;;
       Ok (h1, data, tail - bk_size ob, front, 0, bk_size ob, rb_discard r)
     else
       let capacity1 := (cap + size) * 3 / 2 in
       '(h1, data1) <- make h capacity1;;
       s <- reslice data (bk_index ob) (bk_index ob + bk_size ob);;
       src <- read h1 s;;
       h2 <- hcopy h1 data1 src;;
       let discard := Z.max (zlen (front ++ [ob]) - 1) 0 in
       Ok (h2, data1, capacity1, skipn (Z.to_nat discard) front, 0, bk_size ob, discard));;
  bytes <- reslice data' tail' (tail' + size);;
  Ok (h', mkRB (mkD data' (d_next d) (d_sealed d) (front' ++ [mkBlock index' (bk_size ob + size) (bk_completed ob)]))
               capacity' discard', bytes).

(** collections/buffer_rb.go:20-22 Write. *)
Definition rb_write (h : heap) (r : rbuf) (data : list Z) : res (heap * rbuf) :=
  '(h1, r1, dst) <- rb_alloc h r (zlen data);;
  h2 <- hcopy h1 dst data;;
  Ok (h2, r1).

(** Fetch, PopBack, PendingBlockSize, Size are promoted from DirectBlockBuffer. *)
Definition rb_fetch (r : rbuf) : res (rbuf * option gslice) :=
  '(d, s) <- d_fetch (rb_d r);; Ok (mkRB d (rb_capacity r) (rb_discard r), s).
Definition rb_pop_back (r : rbuf) : res rbuf :=
  d <- d_pop_back (rb_d r);; Ok (mkRB d (rb_capacity r) (rb_discard r)).
Definition rb_pending (r : rbuf) : Z := d_pending (rb_d r).
Definition rb_size (r : rbuf) : Z := d_size (rb_d r).

(** collections/buffer_rb.go:96-110 Pop. *)
Definition rb_pop (r : rbuf) : res rbuf :=
  _ <- assert (negb (d_sealed (rb_d r)));;
  if rb_discard r >? 0 then Ok (mkRB (rb_d r) (rb_capacity r) (rb_discard r - 1))
  else
    d <- d_pop (rb_d r);;
    let full := match first_of (d_blocks d) with None => true | Some hd => bk_index hd =? 0 end in
    Ok (mkRB d (if full then s_len (d_data d) else rb_capacity r) (rb_discard r)).

(** collections/buffer_rb.go:112-116 Clear. *)
Definition rb_clear (r : rbuf) : rbuf := mkRB (d_clear (rb_d r)) (s_len (d_data (rb_d r))) 0.
(** collections/buffer_rb.go:118-120 Data: nil, nil. *)
Definition rb_data (r : rbuf) : option gslice * option gslice := (None, None).
(** collections/buffer_rb.go:122-137 AvailableBytes. *)
Definition rb_available (r : rbuf) : Z := 0.

(* ---------------------------------------------------------------------------------------- *)
(** ** streams_buffer.go *)

(** streams_buffer.go:8-10 StreamsBuffer: the buffers share one heap. *)
Definition sbuf := list rbuf.

(** utils/av_util.go AVMediaTypeVideo is the only media type the code distinguishes here. *)
Definition stream_capacity (video : bool) : Z := if video then 1024 * 1024 * 2 else 48000 * 12.

(** streams_buffer.go:12-23 findOrCreateStreamBuffer. *)
Definition sb_find_or_create (h : heap) (s : sbuf) (index : Z) (video : bool) : res (heap * sbuf * rbuf) :=
  '(h1, s1) <- (if index <? zlen s then Ok (h, s)
               else '(h1, r) <- rb_new h (stream_capacity video);; Ok (h1, s ++ [r]));;
  r <- of_opt (idx s1 index);;
  Ok (h1, s1, r).

Definition sb_put (s : sbuf) (index : Z) (r : rbuf) : sbuf := set_nth (Z.to_nat index) r s.

(** streams_buffer.go:25-28 Write. *)
Definition sb_write (h : heap) (s : sbuf) (data : list Z) (index : Z) (video : bool) : res (heap * sbuf * Z) :=
  '(h1, s1, r) <- sb_find_or_create h s index video;;
  '(h2, r') <- rb_write h1 r data;;
  Ok (h2, sb_put s1 index r', zlen data).

(** streams_buffer.go:30-33 Fetch (AVMediaTypeUnknown). *)
Definition sb_fetch (h : heap) (s : sbuf) (index : Z) : res (heap * sbuf * option gslice) :=
  '(h1, s1, r) <- sb_find_or_create h s index false;;
  '(r', o) <- rb_fetch r;;
  Ok (h1, sb_put s1 index r', o).

(** streams_buffer.go:35-37 Discard, 43-45 DiscardHeadPacket. *)
Definition sb_discard_head (s : sbuf) (index : Z) : res sbuf :=
  r <- of_opt (idx s index);; r' <- rb_pop r;; Ok (sb_put s index r').
(** streams_buffer.go:39-41 DiscardBackPacket. *)
Definition sb_discard_back (s : sbuf) (index : Z) : res sbuf :=
  r <- of_opt (idx s index);; r' <- rb_pop_back r;; Ok (sb_put s index r').
(** streams_buffer.go:47-49 PendingBlockSize. *)
Definition sb_pending (h : heap) (s : sbuf) (index : Z) : res (heap * sbuf * Z) :=
  '(h1, s1, r) <- sb_find_or_create h s index false;; Ok (h1, s1, rb_pending r).

(* ---------------------------------------------------------------------------------------- *)
(** ** direct_pipeline.go: only one array is live, its contents are kept by value. *)

(** direct_pipeline.go:8-11 DirectDataPipeline. *)
Record ddp := mkDDP { dp_data : list Z; dp_size : Z }.
Definition ddp_new : ddp := mkDDP [] 0.

(** direct_pipeline.go:13-26 Write. *)
Definition ddp_write (d : ddp) (data : list Z) : res (ddp * Z) :=
  let n := zlen (dp_data d) - dp_size d in
  let length := zlen data in
  buf <- (if n <? length then
            old <- of_opt (slice (dp_data d) 0 (dp_size d));;
            Ok (copy (zeros (Z.to_nat ((dp_size d + length) * 2))) old)
          else Ok (dp_data d));;
  buf' <- of_opt (copy_at buf (dp_size d) data);;
  Ok (mkDDP buf' (dp_size d + length), dp_size d + length).

(** direct_pipeline.go:28-32 Fetch. *)
Definition ddp_fetch (d : ddp) : res (ddp * list Z) :=
  bytes <- of_opt (slice (dp_data d) 0 (dp_size d));; Ok (mkDDP (dp_data d) 0, bytes).
(** direct_pipeline.go:34-37 Seek. *)
Definition ddp_seek (d : ddp) (offset : Z) : ddp := mkDDP (dp_data d) (Z.max (dp_size d + offset) 0).
(** direct_pipeline.go:39-41 PendingBlockSize. *)
Definition ddp_pending (d : ddp) : Z := dp_size d.

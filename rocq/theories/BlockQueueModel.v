(** * BlockQueueModel: the block buffers with the queue they really use.

    BlockModel keeps the blocks of a buffer in a plain list. Here they are kept as in the code: in a collections.Queue of
    pointers (CollectionsModel), and changed through the pointers. The blocks of a buffer are allocated by its own Alloc
    and no pointer to one leaves the buffer, so every buffer has its own memory for them; a pointer is an index into it. *)
From Verif Require Import Base CollectionsModel CollectionsSpec BlockModel BlockSpec StreamsSpec SafeSpec.

Notation bptr := (option nat).
(** p.field and p.field = v; a nil dereference panics. *)
Definition bget (mem : list block) (p : bptr) : res block := match p with None => Panic | Some i => of_opt (nth_error mem i) end.
Definition bset (mem : list block) (p : bptr) (b : block) : res (list block) :=
  match p with None => Panic | Some i => match nth_error mem i with None => Panic | Some _ => Ok (set_nth i b mem) end end.

(* ---------------------------------------------------------------------------------------- *)
(** ** buffer_direct.go *)

(** collections/buffer_direct.go:6-16 DirectBlockBuffer. *)
Record qdbuf := mkQD { qd_data : gslice; qd_next : Z; qd_sealed : bool; qd_mem : list block; qd_blocks : ring bptr }.

(** collections/buffer_direct.go:136-145 NewDirectBlockBuffer. *)
Definition qd_new (h : heap) (capacity : Z) : res (heap * qdbuf) :=
  '(h1, s) <- make h capacity;; q <- queue_new None 64;; Ok (h1, mkQD s 0 false [] q).

(** collections/buffer_direct.go:18-22 grow. *)
Definition qd_grow (h : heap) (b : qdbuf) (capacity : Z) : res (heap * gslice) :=
  '(h1, bytes) <- make h capacity;;
  s <- reslice (qd_data b) 0 (qd_next b);;
  src <- read h1 s;;
  h2 <- hcopy h1 bytes src;;
  Ok (h2, bytes).

(** block == nil || block.completed *)
Definition unusable (mem : list block) (p : bptr) : res bool :=
  match p with None => Ok true | Some _ => b <- bget mem p;; Ok (bk_completed b) end.
(** block := &struct{index, 0, false}; b.blocks.Push(block) *)
Definition push_block (mem : list block) (q : ring bptr) (index : Z) : res (list block * ring bptr * bptr) :=
  let p := Some (length mem) in q1 <- queue_push None q p;; Ok (mem ++ [mkBlock index 0 false], q1, p).

(** collections/buffer_direct.go:28-67 Alloc. *)
Definition qd_alloc (h : heap) (b : qdbuf) (size : Z) : res (heap * qdbuf * gslice) :=
  _ <- assert (negb (qd_sealed b));;
  p <- (if negb (ring_is_empty (qd_blocks b)) then ring_tail (qd_blocks b) else Ok None);;
  need <- unusable (qd_mem b) p;;
  '(mem, q, p) <- (if need : bool then push_block (qd_mem b) (qd_blocks b) (qd_next b) else Ok (qd_mem b, qd_blocks b, p));;
  let next := qd_next b + size in
  '(h1, data) <- (if next >? s_len (qd_data b) then qd_grow h b (next * 3 / 2) else Ok (h, qd_data b));;
  blk <- bget mem p;;
  mem1 <- bset mem p (mkBlock (bk_index blk) (bk_size blk + size) (bk_completed blk));;
  bytes <- reslice data (qd_next b) next;;
  Ok (h1, mkQD data next (qd_sealed b) mem1 q, bytes).

(** collections/buffer_direct.go:24-26 Write. *)
Definition qd_write (h : heap) (b : qdbuf) (data : list Z) : res (heap * qdbuf) :=
  '(h1, b1, dst) <- qd_alloc h b (zlen data);;
  h2 <- hcopy h1 dst data;;
  Ok (h2, b1).

(** collections/buffer_direct.go:69-77 Fetch; a nil slice is None. *)
Definition qd_fetch (b : qdbuf) : res (qdbuf * option gslice) :=
  _ <- assert (negb (qd_sealed b));;
  p <- ring_tail (qd_blocks b);;
  t <- bget (qd_mem b) p;;
  if bk_completed t then Ok (b, None)
  else
    mem <- bset (qd_mem b) p (mkBlock (bk_index t) (bk_size t) true);;
    s <- reslice (qd_data b) (bk_index t) (bk_index t + bk_size t);;
    Ok (mkQD (qd_data b) (qd_next b) (qd_sealed b) mem (qd_blocks b), Some s).

(** collections/buffer_direct.go:79-86 Pop. *)
Definition qd_pop (b : qdbuf) : res qdbuf :=
  _ <- assert (negb (qd_sealed b));;
  '(_, q) <- ring_pop None (qd_blocks b);;
  Ok (mkQD (qd_data b) (if ring_is_empty q then 0 else qd_next b) (qd_sealed b) (qd_mem b) q).

(** collections/buffer_direct.go:88-95 PopBack. *)
Definition qd_pop_back (b : qdbuf) : res qdbuf :=
  _ <- assert (negb (qd_sealed b));;
  '(_, q) <- queue_pop_back (qd_blocks b);;
  Ok (mkQD (qd_data b) (if ring_is_empty q then 0 else qd_next b) (qd_sealed b) (qd_mem b) q).

(** collections/buffer_direct.go:97-103 PendingBlockSize. *)
Definition qd_pending (b : qdbuf) : res Z :=
  if ring_is_empty (qd_blocks b) then Ok 0
  else
    p <- ring_tail (qd_blocks b);;
    t <- bget (qd_mem b) p;;
    if bk_completed t then Ok 0
    else p <- ring_tail (qd_blocks b);; t <- bget (qd_mem b) p;; Ok (bk_size t).

(** collections/buffer_direct.go:105-109 Clear. *)
Definition qd_clear (b : qdbuf) : qdbuf := mkQD (qd_data b) 0 false (qd_mem b) (ring_clear (qd_blocks b)).
(** collections/buffer_direct.go:111-113 Data. *)
Definition qd_data_slice (b : qdbuf) : res gslice := reslice (qd_data b) 0 (qd_next b).
(** collections/buffer_direct.go:115-117 AvailableBytes. *)
Definition qd_available (b : qdbuf) : Z := s_len (qd_data b) - qd_next b.
(** collections/buffer_direct.go:119-121 Size. *)
Definition qd_size (b : qdbuf) : Z := r_size (qd_blocks b).
(** collections/buffer_direct.go:123-134 SplitOff. *)
Definition qd_split_off (b : qdbuf) : res (qdbuf * qdbuf) :=
  s <- reslice (qd_data b) (qd_next b) (s_len (qd_data b));;
  q <- queue_new None 64;;
  Ok (mkQD (qd_data b) (qd_next b) true (qd_mem b) (qd_blocks b), mkQD s (qd_next b) false [] q).

(* ---------------------------------------------------------------------------------------- *)
(** ** buffer_rb.go *)

(** collections/buffer_rb.go:9-13 RBBlockBuffer. *)
Record qrbuf := mkQR { qr_d : qdbuf; qr_capacity : Z; qr_discard : Z }.

(** collections/buffer_rb.go:139-153 NewRBBlockBuffer. *)
Definition qr_new (h : heap) (capacity : Z) : res (heap * qrbuf) :=
  '(h1, b) <- qd_new h capacity;; Ok (h1, mkQR b capacity 0).

(** collections/buffer_rb.go:85-88: n times r.blocks.Pop(). *)
Fixpoint pops (n : nat) (q : ring bptr) : res (ring bptr) :=
  match n with O => Ok q | S k => '(_, q1) <- ring_pop None q;; pops k q1 end.

(** collections/buffer_rb.go:24-94 Alloc (grow: lines 15-18). *)
Definition qr_alloc (h : heap) (r : qrbuf) (size : Z) : res (heap * qrbuf * gslice) :=
  let d := qr_d r in
  let q := qd_blocks d in
  let data := qd_data d in
  let cap := s_len data in
  '(head, tail, p, capacity) <-
    (if r_size q =? 0 then Ok (0, 0, None, cap)
     else if r_size q =? 1 then
       p <- ring_head q;;
       b <- bget (qd_mem d) p;;
       Ok (bk_index b, bk_index b + bk_size b, p, cap)
     else
       p <- ring_tail q;;
       hp <- ring_head q;;
       hd <- bget (qd_mem d) hp;;
       b <- bget (qd_mem d) p;;
       Ok (bk_index hd, bk_index b + bk_size b, p, qr_capacity r));;
  need <- unusable (qd_mem d) p;;
  '(mem, q1, p) <- (if need : bool then push_block (qd_mem d) q tail else Ok (qd_mem d, q, p));;
  ob <- bget mem p;;
  let over := tail <? head in
  '(h', data', capacity', mem', q', tail', discard') <-
    (if over && (head - tail >=? size) then Ok (h, data, capacity, mem, q1, tail, qr_discard r)
     else if negb over && (capacity - tail >=? size) then Ok (h, data, capacity, mem, q1, tail, qr_discard r)
     else if negb over && (head >=? bk_size ob + size) then
       s <- reslice data (bk_index ob) (bk_index ob + bk_size ob);;
       src <- read h s;;
       h1 <- hcopy h data src;;
       mem1 <- bset mem p (mkBlock 0 (bk_size ob) (bk_completed ob));;
       Ok (h1, data, tail - bk_size ob, mem1, q1, bk_size ob, qr_discard r)
     else
       let capacity1 := (cap + size) * 3 / 2 in
       '(h1, data1) <- make h capacity1;;
       s <- reslice data (bk_index ob) (bk_index ob + bk_size ob);;
       src <- read h1 s;;
       h2 <- hcopy h1 data1 src;;
       mem1 <- bset mem p (mkBlock 0 (bk_size ob) (bk_completed ob));;
       let discard := Z.max (r_size q1 - 1) 0 in
       q2 <- pops (Z.to_nat discard) q1;;
       Ok (h2, data1, capacity1, mem1, q2, bk_size ob, discard));;
  bytes <- reslice data' tail' (tail' + size);;
  tp <- ring_tail q';;
  t <- bget mem' tp;;
  mem'' <- bset mem' tp (mkBlock (bk_index t) (bk_size t + size) (bk_completed t));;
  Ok (h', mkQR (mkQD data' (qd_next d) (qd_sealed d) mem'' q') capacity' discard', bytes).

(** collections/buffer_rb.go:20-22 Write. *)
Definition qr_write (h : heap) (r : qrbuf) (data : list Z) : res (heap * qrbuf) :=
  '(h1, r1, dst) <- qr_alloc h r (zlen data);;
  h2 <- hcopy h1 dst data;;
  Ok (h2, r1).

(** Fetch, PopBack, PendingBlockSize, Size are promoted from DirectBlockBuffer. *)
Definition qr_fetch (r : qrbuf) : res (qrbuf * option gslice) :=
  '(d, s) <- qd_fetch (qr_d r);; Ok (mkQR d (qr_capacity r) (qr_discard r), s).
Definition qr_pop_back (r : qrbuf) : res qrbuf :=
  d <- qd_pop_back (qr_d r);; Ok (mkQR d (qr_capacity r) (qr_discard r)).

(** collections/buffer_rb.go:96-110 Pop. *)
Definition qr_pop (r : qrbuf) : res qrbuf :=
  _ <- assert (negb (qd_sealed (qr_d r)));;
  if qr_discard r >? 0 then Ok (mkQR (qr_d r) (qr_capacity r) (qr_discard r - 1))
  else
    d <- qd_pop (qr_d r);;
    full <- (if r_size (qd_blocks d) =? 0 then Ok true
             else p <- ring_head (qd_blocks d);; hd <- bget (qd_mem d) p;; Ok (bk_index hd =? 0));;
    Ok (mkQR d (if full : bool then s_len (qd_data d) else qr_capacity r) (qr_discard r)).

(** collections/buffer_rb.go:112-116 Clear. *)
Definition qr_clear (r : qrbuf) : qrbuf := mkQR (qd_clear (qr_d r)) (s_len (qd_data (qr_d r))) 0.

(* ---------------------------------------------------------------------------------------- *)
(** ** streams_buffer.go *)
Definition qsbuf := list qrbuf.
(** streams_buffer.go:12-23 findOrCreateStreamBuffer. *)
Definition qs_find_or_create (h : heap) (s : qsbuf) (index : Z) (video : bool) : res (heap * qsbuf * qrbuf) :=
  '(h1, s1) <- (if index <? zlen s then Ok (h, s)
               else '(h1, r) <- qr_new h (stream_capacity video);; Ok (h1, s ++ [r]));;
  r <- of_opt (idx s1 index);;
  Ok (h1, s1, r).
(** The buffers are pointers: a call on one of them changes it in place. *)
Definition qs_put (s : qsbuf) (index : Z) (r : qrbuf) : qsbuf := set_nth (Z.to_nat index) r s.

(* ---------------------------------------------------------------------------------------- *)
(** ** Histories *)
(** All methods of RBBlockBuffer, as in SafeSpec. *)
Definition qr_call (h : heap) (r : qrbuf) (o : rb_op) : res (heap * qrbuf * raw) :=
  match o with
  | XWrite d => '(h1, r1) <- qr_write h r d;; Ok (h1, r1, RUnit)
  | XAlloc n => '(h1, r1, s) <- qr_alloc h r n;; Ok (h1, r1, RSlice (Some s))
  | XFetch => '(r1, s) <- qr_fetch r;; Ok (h, r1, RSlice s)
  | XPop => r1 <- qr_pop r;; Ok (h, r1, RUnit)
  | XPopBack => r1 <- qr_pop_back r;; Ok (h, r1, RUnit)
  | XPending => n <- qd_pending (qr_d r);; Ok (h, r, RNum n)
  | XSize => Ok (h, r, RNum (qd_size (qr_d r)))
  | XClear => Ok (h, qr_clear r, RUnit)
  | XSplitOff => '(old, _) <- qd_split_off (qr_d r);; Ok (h, mkQR old (qr_capacity r) (qr_discard r), RUnit)
  | XStore s d => h1 <- hcopy h s d;; Ok (h1, r, RUnit)
  end.

(** All methods of DirectBlockBuffer on a family of buffers: SplitOff adds the new buffer at the end. *)
Inductive fam_op := FCall (o : rb_op) | FData | FAvailable.
Definition qd_call (h : heap) (b : qdbuf) (o : fam_op) : res (heap * qdbuf * list qdbuf * raw) :=
  match o with
  | FCall (XWrite d) => '(h1, b1) <- qd_write h b d;; Ok (h1, b1, [], RUnit)
  | FCall (XAlloc n) => '(h1, b1, s) <- qd_alloc h b n;; Ok (h1, b1, [], RSlice (Some s))
  | FCall XFetch => '(b1, s) <- qd_fetch b;; Ok (h, b1, [], RSlice s)
  | FCall XPop => b1 <- qd_pop b;; Ok (h, b1, [], RUnit)
  | FCall XPopBack => b1 <- qd_pop_back b;; Ok (h, b1, [], RUnit)
  | FCall XPending => n <- qd_pending b;; Ok (h, b, [], RNum n)
  | FCall XSize => Ok (h, b, [], RNum (qd_size b))
  | FCall XClear => Ok (h, qd_clear b, [], RUnit)
  | FCall XSplitOff => '(old, new) <- qd_split_off b;; Ok (h, old, [new], RUnit)
  | FCall (XStore s d) => h1 <- hcopy h s d;; Ok (h1, b, [], RUnit)
  | FData => s <- qd_data_slice b;; Ok (h, b, [], RSlice (Some s))
  | FAvailable => Ok (h, b, [], RNum (qd_available b))
  end.
(** The same with the list model. *)
Definition d_call (h : heap) (b : dbuf) (o : fam_op) : res (heap * dbuf * list dbuf * raw) :=
  match o with
  | FCall (XWrite d) => '(h1, b1) <- d_write h b d;; Ok (h1, b1, [], RUnit)
  | FCall (XAlloc n) => '(h1, b1, s) <- d_alloc h b n;; Ok (h1, b1, [], RSlice (Some s))
  | FCall XFetch => '(b1, s) <- d_fetch b;; Ok (h, b1, [], RSlice s)
  | FCall XPop => b1 <- d_pop b;; Ok (h, b1, [], RUnit)
  | FCall XPopBack => b1 <- d_pop_back b;; Ok (h, b1, [], RUnit)
  | FCall XPending => Ok (h, b, [], RNum (d_pending b))
  | FCall XSize => Ok (h, b, [], RNum (d_size b))
  | FCall XClear => Ok (h, d_clear b, [], RUnit)
  | FCall XSplitOff => '(old, new) <- d_split_off b;; Ok (h, old, [new], RUnit)
  | FCall (XStore s d) => h1 <- hcopy h s d;; Ok (h1, b, [], RUnit)
  | FData => s <- d_data_slice b;; Ok (h, b, [], RSlice (Some s))
  | FAvailable => Ok (h, b, [], RNum (d_available b))
  end.
(** A call on buffer [i] of the family. *)
Definition on_family {B} (call : heap -> B -> fam_op -> res (heap * B * list B * raw)) (h : heap) (fam : list B) (c : Z * fam_op) : res (heap * list B * raw) :=
  b <- of_opt (idx fam (fst c));;
  '(h1, b1, new, out) <- call h b (snd c);;
  Ok (h1, set_nth (Z.to_nat (fst c)) b1 fam ++ new, out).

(** All methods of StreamsBuffer (streams_buffer.go:25-49). *)
Definition qs_call (h : heap) (s : qsbuf) (c : Z * sop) : res (heap * qsbuf * raw) :=
  let '(i, o) := c in
  match o with
  | SWrite d v =>
    '(h1, s1, r) <- qs_find_or_create h s i v;; '(h2, r') <- qr_write h1 r d;; Ok (h2, qs_put s1 i r', RNum (zlen d))
  | SFetch =>
    '(h1, s1, r) <- qs_find_or_create h s i false;; '(r', x) <- qr_fetch r;; Ok (h1, qs_put s1 i r', RSlice x)
  | SDiscardHead => r <- of_opt (idx s i);; r' <- qr_pop r;; Ok (h, qs_put s i r', RUnit)
  | SDiscardBack => r <- of_opt (idx s i);; r' <- qr_pop_back r;; Ok (h, qs_put s i r', RUnit)
  | SPending => '(h1, s1, r) <- qs_find_or_create h s i false;; n <- qd_pending (qr_d r);; Ok (h1, s1, RNum n)
  end.

(** What a history shows: the result of every call up to and including the first that fails, and the memory after each of them. *)
Fixpoint trace {B O} (call : heap -> B -> O -> res (heap * B * raw)) (h : heap) (b : B) (ops : list O) : list (res (heap * raw)) :=
  match ops with
  | [] => []
  | o :: t =>
    match call h b o with
    | Ok (h1, b1, out) => Ok (h1, out) :: trace call h1 b1 t
    | Err => [Err] | Panic => [Panic] | NoFuel => [NoFuel]
    end
  end.

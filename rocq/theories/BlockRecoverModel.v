(** * BlockRecoverModel: the block buffers and pipelines once more, for a caller that recovers from panics.

    In BlockModel a panic has no state. Here every call returns the state in which it leaves the memory and the buffer, also when it panics;
    the assignments are made in the order of the Go code. An array that was made but not stored anywhere before the panic is not kept. *)
From Verif Require Import Base CollectionsSpec BlockModel BlockSpec StreamsSpec SafeSpec PipeModel PipeSpec BlockQueueModel.

(** Go on with the value of [x]; if it has none, stop in state [s]. *)
Definition attempt {S A B} (s : S) (x : res A) (k : A -> S * res B) : S * res B :=
  match x with Ok a => k a | Err => (s, Err) | Panic => (s, Panic) | NoFuel => (s, NoFuel) end.

(* ---------------------------------------------------------------------------------------- *)
(** ** buffer_direct.go *)

(** collections/buffer_direct.go:28-67 Alloc: the new block is pushed (:53) before the growth (:60), its size is counted (:63) before the slice is taken (:64). *)
Definition d_alloc_r (h : heap) (b : dbuf) (size : Z) : heap * dbuf * res gslice :=
  attempt (h, b) (assert (negb (d_sealed b))) (fun _ =>
  let fresh := (d_blocks b, mkBlock (d_next b) 0 false) in
  let '(front, blk) :=
    match last_of (d_blocks b) with
    | None => fresh
    | Some t => if bk_completed t then fresh else (removelast (d_blocks b), t)
    end in
  let next := d_next b + size in
  attempt (h, mkD (d_data b) (d_next b) (d_sealed b) (front ++ [blk]))
    (if next >? s_len (d_data b) then d_grow h b (next * 3 / 2) else Ok (h, d_data b)) (fun '(h1, data) =>
  let blocks := front ++ [mkBlock (bk_index blk) (bk_size blk + size) (bk_completed blk)] in
  attempt (h1, mkD data (d_next b) (d_sealed b) blocks) (reslice data (d_next b) next) (fun bytes =>
  ((h1, mkD data next (d_sealed b) blocks), Ok bytes)))).

(** collections/buffer_direct.go:24-26 Write. *)
Definition d_write_r (h : heap) (b : dbuf) (data : list Z) : heap * dbuf * res unit :=
  let '(h1, b1, x) := d_alloc_r h b (zlen data) in
  attempt (h1, b1) x (fun dst => attempt (h1, b1) (hcopy h1 dst data) (fun h2 => ((h2, b1), Ok tt))).

(** collections/buffer_direct.go:69-77 Fetch: the block is completed (:75) before the slice is taken (:76). *)
Definition d_fetch_r (b : dbuf) : dbuf * res (option gslice) :=
  attempt b (assert (negb (d_sealed b))) (fun _ =>
  attempt b (of_opt (last_of (d_blocks b))) (fun t =>
  if bk_completed t then (b, Ok None)
  else
    let b1 := mkD (d_data b) (d_next b) (d_sealed b) (removelast (d_blocks b) ++ [mkBlock (bk_index t) (bk_size t) true]) in
    attempt b1 (reslice (d_data b) (bk_index t) (bk_index t + bk_size t)) (fun s => (b1, Ok (Some s))))).

(** collections/buffer_direct.go:123-134 SplitOff: the old buffer is sealed (:124) before the slice is taken (:126). *)
Definition d_split_off_r (b : dbuf) : dbuf * res dbuf :=
  let old := mkD (d_data b) (d_next b) true (d_blocks b) in
  attempt old (reslice (d_data b) (d_next b) (s_len (d_data b))) (fun s => (old, Ok (mkD s (d_next b) false []))).

(** The other methods make their assignments after everything that can fail (buffer_direct.go:79-95, 111-113). *)
Definition plain {B A} (h : heap) (b : B) (x : res (heap * B * A)) : heap * B * res A :=
  attempt (h, b) x (fun '(h1, b1, a) => ((h1, b1), Ok a)).

(** All methods, as [d_call]. *)
Definition d_one (h : heap) (b : dbuf) (o : fam_op) : res (heap * dbuf * (list dbuf * raw)) :=
  '(h1, b1, new, x) <- d_call h b o;; Ok (h1, b1, (new, x)).
Definition d_call_r (h : heap) (b : dbuf) (o : fam_op) : heap * dbuf * res (list dbuf * raw) :=
  match o with
  | FCall (XWrite d) => let '(s, x) := d_write_r h b d in attempt s x (fun _ => (s, Ok ([], RUnit)))
  | FCall (XAlloc n) => let '(s, x) := d_alloc_r h b n in attempt s x (fun a => (s, Ok ([], RSlice (Some a))))
  | FCall XFetch => let '(b1, x) := d_fetch_r b in attempt (h, b1) x (fun a => ((h, b1), Ok ([], RSlice a)))
  | FCall XSplitOff => let '(b1, x) := d_split_off_r b in attempt (h, b1) x (fun new => ((h, b1), Ok ([new], RUnit)))
  | _ => plain h b (d_one h b o)
  end.

(* ---------------------------------------------------------------------------------------- *)
(** ** buffer_rb.go *)

(** collections/buffer_rb.go:24-94 Alloc: the capacity is reset (:35, :40), the new block is pushed (:59), a wrap sets the capacity (:71) before it
    copies (:73), a growth stores the new array (:79) before it copies (:81); the size is counted at the end (:92), after the slice is taken (:91). *)
Definition rb_alloc_r (h : heap) (r : rbuf) (size : Z) : heap * rbuf * res gslice :=
  let d := rb_d r in
  let blocks := d_blocks d in
  let data := d_data d in
  let cap := s_len data in
  let n := zlen blocks in
  attempt (h, r)
    (if n =? 0 then Ok (0, 0, None, cap)
     else if n =? 1 then
       b <- of_opt (first_of blocks);;
       Ok (bk_index b, bk_index b + bk_size b, Some b, cap)
     else
       b <- of_opt (last_of blocks);;
       hd <- of_opt (first_of blocks);;
       Ok (bk_index hd, bk_index b + bk_size b, Some b, rb_capacity r)) (fun '(head, tail, old, capacity) =>
  let fresh := (blocks, mkBlock tail 0 false) in
  let '(front, ob) :=
    match old with
    | None => fresh
    | Some b => if bk_completed b then fresh else (removelast blocks, b)
    end in
  let ring data capacity bs discard := mkRB (mkD data (d_next d) (d_sealed d) bs) capacity discard in
  let finish h data capacity front index tail discard :=
    attempt (h, ring data capacity (front ++ [mkBlock index (bk_size ob) (bk_completed ob)]) discard) (reslice data tail (tail + size)) (fun bytes =>
    ((h, ring data capacity (front ++ [mkBlock index (bk_size ob + size) (bk_completed ob)]) discard), Ok bytes)) in
  let over := tail <? head in
  if over && (head - tail >=? size) then finish h data capacity front (bk_index ob) tail (rb_discard r)
  else if negb over && (capacity - tail >=? size) then finish h data capacity front (bk_index ob) tail (rb_discard r)
  else if negb over && (head >=? bk_size ob + size) then
    let capacity1 := tail - bk_size ob in
    let stop := (h, ring data capacity1 (front ++ [ob]) (rb_discard r)) in
    attempt stop (reslice data (bk_index ob) (bk_index ob + bk_size ob)) (fun s =>
    attempt stop (read h s) (fun src =>
    attempt stop (hcopy h data src) (fun h1 =>
    finish h1 data capacity1 front 0 (bk_size ob) (rb_discard r))))
  else
    let capacity1 := (cap + size) * 3 / 2 in
    attempt (h, ring data capacity (front ++ [ob]) (rb_discard r)) (make h capacity1) (fun '(h1, data1) =>
    let stop := (h1, ring data1 capacity1 (front ++ [ob]) (rb_discard r)) in
    attempt stop (reslice data (bk_index ob) (bk_index ob + bk_size ob)) (fun s =>
    attempt stop (read h1 s) (fun src =>
    attempt stop (hcopy h1 data1 src) (fun h2 =>
    let discard := Z.max (zlen (front ++ [ob]) - 1) 0 in
    finish h2 data1 capacity1 (skipn (Z.to_nat discard) front) 0 (bk_size ob) discard))))).

(** collections/buffer_rb.go:20-22 Write. *)
Definition rb_write_r (h : heap) (r : rbuf) (data : list Z) : heap * rbuf * res unit :=
  let '(h1, r1, x) := rb_alloc_r h r (zlen data) in
  attempt (h1, r1) x (fun dst => attempt (h1, r1) (hcopy h1 dst data) (fun h2 => ((h2, r1), Ok tt))).
(** Fetch and SplitOff are promoted from DirectBlockBuffer. *)
Definition rb_fetch_r (r : rbuf) : rbuf * res (option gslice) :=
  let '(d, x) := d_fetch_r (rb_d r) in (mkRB d (rb_capacity r) (rb_discard r), x).
Definition rb_split_off_r (r : rbuf) : rbuf * res dbuf :=
  let '(d, x) := d_split_off_r (rb_d r) in (mkRB d (rb_capacity r) (rb_discard r), x).
(** collections/buffer_rb.go:96-110 Pop and PopBack fail before they assign anything. All methods, as [rb_call]. *)
Definition rb_call_r (h : heap) (r : rbuf) (o : rb_op) : heap * rbuf * res raw :=
  match o with
  | XWrite d => let '(s, x) := rb_write_r h r d in attempt s x (fun _ => (s, Ok RUnit))
  | XAlloc n => let '(s, x) := rb_alloc_r h r n in attempt s x (fun a => (s, Ok (RSlice (Some a))))
  | XFetch => let '(r1, x) := rb_fetch_r r in attempt (h, r1) x (fun a => ((h, r1), Ok (RSlice a)))
  | XSplitOff => let '(r1, x) := rb_split_off_r r in attempt (h, r1) x (fun _ => ((h, r1), Ok RUnit))
  | _ => plain h r (rb_call h r o)
  end.

(* ---------------------------------------------------------------------------------------- *)
(** ** streams_buffer.go *)

(** streams_buffer.go:12-23 findOrCreateStreamBuffer: the new buffer is appended (:16, :18) before the index is used (:22). *)
Definition sb_find_r (h : heap) (s : sbuf) (index : Z) (video : bool) : heap * sbuf * res rbuf :=
  if index <? zlen s then ((h, s), of_opt (idx s index))
  else attempt (h, s) (rb_new h (stream_capacity video)) (fun '(h1, r) => ((h1, s ++ [r]), of_opt (idx (s ++ [r]) index))).

(** streams_buffer.go:25-49: the methods. *)
Definition sb_call_r (h : heap) (s : sbuf) (c : Z * sop) : heap * sbuf * res raw :=
  let '(i, o) := c in
  match o with
  | SWrite d v =>
    let '(h1, s1, x) := sb_find_r h s i v in
    attempt (h1, s1) x (fun r => let '(h2, r1, y) := rb_write_r h1 r d in attempt (h2, sb_put s1 i r1) y (fun _ => ((h2, sb_put s1 i r1), Ok (RNum (zlen d)))))
  | SFetch =>
    let '(h1, s1, x) := sb_find_r h s i false in
    attempt (h1, s1) x (fun r => let '(r1, y) := rb_fetch_r r in attempt (h1, sb_put s1 i r1) y (fun a => ((h1, sb_put s1 i r1), Ok (RSlice a))))
  | SPending => let '(h1, s1, x) := sb_find_r h s i false in attempt (h1, s1) x (fun r => ((h1, s1), Ok (RNum (rb_pending r))))
  | SDiscardHead | SDiscardBack => plain h s (sb_impl h s i o)
  end.

(* ---------------------------------------------------------------------------------------- *)
(** ** direct_pipeline.go *)

(** direct_pipeline.go:13-26 Write: the new array is stored (:19) before the bytes are copied into it (:22). *)
Definition hp_write_r (h : heap) (p : hpipe) (data : list Z) : heap * hpipe * res Z :=
  let n := s_len (hp_data p) - hp_size p in
  let length := zlen data in
  attempt (h, p) (if n <? length then
                   '(h1, bytes) <- make h ((hp_size p + length) * 2);;
                   s <- reslice (hp_data p) 0 (hp_size p);;
                   old <- read h1 s;;
                   h2 <- hcopy h1 bytes old;;
                   Ok (h2, bytes)
                 else Ok (h, hp_data p)) (fun '(h1, buf) =>
  attempt (h1, mkHP buf (hp_size p)) (reslice buf (hp_size p) (s_len buf)) (fun dst =>
  attempt (h1, mkHP buf (hp_size p)) (hcopy h1 dst data) (fun h2 =>
  ((h2, mkHP buf (hp_size p + length)), Ok (hp_size p + length))))).
(** direct_pipeline.go:28-32 Fetch: the slice is taken first. *)
Definition hp_fetch_r (p : hpipe) : hpipe * res gslice :=
  attempt p (reslice (hp_data p) 0 (hp_size p)) (fun s => (mkHP (hp_data p) 0, Ok s)).
(** All methods, as [pp_call]; Seek, Discard and PendingBlockSize cannot fail (direct_pipeline.go:34-47). *)
Definition pp_call_r (h : heap) (p : hpipe) (o : pp_op) : heap * hpipe * res pp_raw :=
  match o with
  | PWrite d => let '(s, x) := hp_write_r h p d in attempt s x (fun n => (s, Ok (PNum n)))
  | PFetch => let '(p1, x) := hp_fetch_r p in attempt (h, p1) x (fun s => ((h, p1), Ok (PSlice s)))
  | _ => plain h p (pp_call h p o)
  end.

(* ---------------------------------------------------------------------------------------- *)
(** ** Histories *)
(** The caller recovers from every panic: the final state and how each call ended. *)
Fixpoint recovered {B O A} (call : heap -> B -> O -> heap * B * res A) (h : heap) (b : B) (ops : list O) : heap * B * list (res A) :=
  match ops with
  | [] => (h, b, [])
  | o :: t => let '(h1, b1, x) := call h b o in let '(h2, b2, xs) := recovered call h1 b1 t in (h2, b2, x :: xs)
  end.

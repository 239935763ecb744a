(** * StreamsSpec: a StreamsBuffer is one independent buffer per stream. *)
From Verif Require Import Base CollectionsSpec BlockModel BlockSpec.

Inductive sop := SWrite (d : list Z) (video : bool) | SFetch | SDiscardHead | SDiscardBack | SPending.

(** One call on a StreamsBuffer. *)
Definition sb_impl (h : heap) (s : sbuf) (i : Z) (o : sop) : res (heap * sbuf * raw) :=
  match o with
  | SWrite d v => '(h1, s1, n) <- sb_write h s d i v;; Ok (h1, s1, RNum n)
  | SFetch => '(h1, s1, x) <- sb_fetch h s i;; Ok (h1, s1, RSlice x)
  | SDiscardHead => s1 <- sb_discard_head s i;; Ok (h, s1, RUnit)
  | SDiscardBack => s1 <- sb_discard_back s i;; Ok (h, s1, RUnit)
  | SPending => '(h1, s1, n) <- sb_pending h s i;; Ok (h1, s1, RNum n)
  end.

(** A history, as long as nothing panics: final state and, per call, the stream, the raw result and
    what the caller sees. *)
Fixpoint sb_run (h : heap) (s : sbuf) (ops : list (Z * sop)) : res (heap * sbuf * list (Z * (raw * bb_out))) :=
  match ops with
  | [] => Ok (h, s, [])
  | (i, o) :: ops' =>
    '(h1, s1, r) <- sb_impl h s i o;;
    out <- observe h1 r;;
    '(h2, s2, outs) <- sb_run h1 s1 ops';;
    Ok (h2, s2, (i, (r, out)) :: outs)
  end.

(** The same calls on a buffer that has its own private memory. *)
Definition alone := option (heap * rbuf).

Definition alone_open (st : alone) (video : bool) : res (heap * rbuf) :=
  match st with Some x => Ok x | None => rb_new [] (stream_capacity video) end.

Definition alone_step (st : alone) (o : sop) : res (alone * bb_out) :=
  match o with
  | SWrite d v =>
    '(h, r) <- alone_open st v;; '(h1, r1) <- rb_write h r d;; Ok (Some (h1, r1), BNum (zlen d))
  | SFetch =>
    '(h, r) <- alone_open st false;; '(r1, x) <- rb_fetch r;; out <- observe h (RSlice x);; Ok (Some (h, r1), out)
  | SDiscardHead =>
    '(h, r) <- of_opt st;; r1 <- rb_pop r;; Ok (Some (h, r1), BUnit)
  | SDiscardBack =>
    '(h, r) <- of_opt st;; r1 <- rb_pop_back r;; Ok (Some (h, r1), BUnit)
  | SPending =>
    '(h, r) <- alone_open st false;; Ok (Some (h, r), BNum (rb_pending r))
  end.

Fixpoint alone_run (st : alone) (ops : list sop) : res (alone * list bb_out) :=
  match ops with
  | [] => Ok (st, [])
  | o :: ops' =>
    '(st1, out) <- alone_step st o;;
    '(st2, outs) <- alone_run st1 ops';;
    Ok (st2, out :: outs)
  end.

(** The calls of one stream. *)
Definition of_stream {A} (j : Z) (l : list (Z * A)) : list A := map snd (filter (fun p => fst p =? j) l).

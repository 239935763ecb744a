(** * PipeSpec: what a slice returned by DirectDataPipeline.Fetch shows later. *)
From Verif Require Import Base CollectionsSpec BlockModel PipelineProofs PipeModel.

Inductive pp_op := PWrite (d : list Z) | PFetch | PSeek (offset : Z) | PPending | PDiscard.
Inductive pp_raw := PNone | PNum (z : Z) | PSlice (s : gslice).

Definition pp_call (h : heap) (p : hpipe) (o : pp_op) : res (heap * hpipe * pp_raw) :=
  match o with
  | PWrite d => '(h1, p1, n) <- hp_write h p d;; Ok (h1, p1, PNum n)
  | PFetch => '(p1, s) <- hp_fetch p;; Ok (h, p1, PSlice s)
  | PSeek off => Ok (h, hp_seek p off, PNone)
  | PPending => Ok (h, p, PNum (hp_pending p))
  | PDiscard => Ok (h, hp_discard p, PNone)
  end.
Fixpoint pp_calls (h : heap) (p : hpipe) (ops : list pp_op) : res (heap * hpipe * list pp_raw) :=
  match ops with
  | [] => Ok (h, p, [])
  | o :: t => '(h1, p1, x) <- pp_call h p o;; '(h2, p2, xs) <- pp_calls h1 p1 t;; Ok (h2, p2, x :: xs)
  end.

(** [d] written over [l] from position [k] on; [l] keeps its length. *)
Fixpoint over (l d : list Z) : list Z :=
  match l, d with
  | x :: t, y :: u => y :: over t u
  | _, _ => l
  end.
Fixpoint overlay (l : list Z) (k : nat) (d : list Z) {struct k} : list Z :=
  match k, l with
  | O, _ => over l d
  | S _, [] => []
  | S k', x :: t => x :: overlay t k' d
  end.

(** Capacity and fill level. *)
Definition geom (g : Z * Z) (o : pp_op) : Z * Z :=
  let '(c, n) := g in
  match o with
  | PWrite d => (if c - n <? zlen d then (n + zlen d) * 2 else c, n + zlen d)
  | PFetch => (c, 0)
  | PSeek off => (c, Z.max (n + off) 0)
  | PPending | PDiscard => (c, n)
  end.
(** The bytes of a slice fetched before [ops]: every Write goes on top of them until one moves to a new array. *)
Fixpoint seen_through (g : Z * Z) (l : list Z) (ops : list pp_op) : list Z :=
  match ops with
  | [] => l
  | o :: t =>
    match o with
    | PWrite d => if fst g - snd g <? zlen d then l else seen_through (geom g o) (overlay l (Z.to_nat (snd g)) d) t
    | _ => seen_through (geom g o) l t
    end
  end.

(** The calls on the value model of C24. *)
Definition value_call (s : ddp) (o : pp_op) : res (ddp * dp_out) :=
  match o with
  | PWrite d => '(s1, n) <- ddp_write s d;; Ok (s1, DPNum n)
  | PFetch => '(s1, l) <- ddp_fetch s;; Ok (s1, DPBytes l)
  | PSeek off => Ok (ddp_seek s off, DPUnit)
  | PPending => Ok (s, DPNum (ddp_pending s))
  | PDiscard => Ok (s, DPUnit)
  end.
Definition pp_observe (h : heap) (x : pp_raw) : res dp_out :=
  match x with PNone => Ok DPUnit | PNum z => Ok (DPNum z) | PSlice s => l <- read h s;; Ok (DPBytes l) end.
Fixpoint pp_watch (h : heap) (p : hpipe) (ops : list pp_op) : res (list dp_out) :=
  match ops with
  | [] => Ok []
  | o :: t => '(h1, p1, x) <- pp_call h p o;; y <- pp_observe h1 x;; ys <- pp_watch h1 p1 t;; Ok (y :: ys)
  end.
Fixpoint value_calls (s : ddp) (ops : list pp_op) : res (list dp_out) :=
  match ops with
  | [] => Ok []
  | o :: t => '(s1, y) <- value_call s o;; ys <- value_calls s1 t;; Ok (y :: ys)
  end.
(** Write and Fetch panic when Seek went past the array. *)
Definition pp_panics (g : Z * Z) (o : pp_op) : bool :=
  match o with PWrite _ | PFetch => fst g <? snd g | _ => false end.

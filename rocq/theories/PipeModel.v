(** * PipeModel: direct_pipeline.go with its memory visible.

    [ddp] of BlockModel keeps the live array by value. Here the slices Fetch returns are slices into a heap of arrays. *)
From Verif Require Import Base CollectionsSpec BlockModel.

(** direct_pipeline.go:8-11 DirectDataPipeline. *)
Record hpipe := mkHP { hp_data : gslice; hp_size : Z }.
(** A nil slice is an empty array. *)
Definition hp_new (h : heap) : res (heap * hpipe) := '(h1, s) <- make h 0;; Ok (h1, mkHP s 0).

(** direct_pipeline.go:13-26 Write. *)
Definition hp_write (h : heap) (p : hpipe) (data : list Z) : res (heap * hpipe * Z) :=
  let n := s_len (hp_data p) - hp_size p in
  let length := zlen data in
  '(h1, buf) <- (if n <? length then
                   '(h1, bytes) <- make h ((hp_size p + length) * 2);;
                   s <- reslice (hp_data p) 0 (hp_size p);;
                   old <- read h1 s;;
                   h2 <- hcopy h1 bytes old;;
                   Ok (h2, bytes)
                 else Ok (h, hp_data p));;
  dst <- reslice buf (hp_size p) (s_len buf);;
  h2 <- hcopy h1 dst data;;
  Ok (h2, mkHP buf (hp_size p + length), hp_size p + length).

(** direct_pipeline.go:28-32 Fetch. *)
Definition hp_fetch (p : hpipe) : res (hpipe * gslice) :=
  bytes <- reslice (hp_data p) 0 (hp_size p);; Ok (mkHP (hp_data p) 0, bytes).
(** direct_pipeline.go:34-37 Seek. *)
Definition hp_seek (p : hpipe) (offset : Z) : hpipe := mkHP (hp_data p) (Z.max (hp_size p + offset) 0).
(** direct_pipeline.go:39-41 PendingBlockSize. *)
Definition hp_pending (p : hpipe) : Z := hp_size p.
(** direct_pipeline.go:43-47 DiscardBackPacket, DiscardHeadPacket do nothing. *)
Definition hp_discard (p : hpipe) : hpipe := p.

(** * LendFileModel: a demuxer on a DirectDataPipeline with the file handler attached.

    In BorrowSpec the handler only looks at the bytes of a packet. Here it is OnUnpackStream2FileHandler (handler.go:49-88), called at
    the same moments: during OnNewTrack and during OnPacket (demuxer.go:292-301). *)
From Coq Require Import String List.
From Verif Require Import Base BlockModel PacketModel DemuxModel DeliverySpec HandlerModel SystemSpec PipeModel PipeSpec BorrowSpec RecordingModel.
Import ListNotations.
Local Open Scope list_scope.

(** The events of one call, as in [lend_events], with the handler in place of the list of what was seen. *)
Fixpoint lendfile_events (path : string) (cur : option gslice) (h : heap) (p : hpipe) (k : held) (f : file_handler) (l : list event) : res (hpipe * held * file_handler) :=
  match l with
  | [] => Ok (p, k, f)
  | EvAdd q _ :: t => sl <- of_opt cur;; lendfile_events path cur h p (k ++ [(pk_buffer q, tag q, sl)]) f t
  | EvNewTrack st :: t => f1 <- fh_new_track path f st;; lendfile_events path cur h p k f1 t
  | EvPacket q :: t =>
    '(sl, k1) <- of_opt (take_held (pk_buffer q) (tag q) k);;
    bytes <- read h sl;;
    '(f1, _) <- fh_on_packet f (with_data q bytes);;
    lendfile_events path cur h p k1 f1 t
  | EvDiscardHead _ :: t | EvDiscardBack _ :: t => lendfile_events path cur h (hp_discard p) k f t
  | _ :: t => lendfile_events path cur h p k f t
  end.

Definition lendfile_step (path : string) (y : lender) (f : file_handler) (c : call) : res (lender * file_handler) :=
  let '((o, a), chunks) := c in
  '(h1, p1, a1, cur) <- lend (ln_heap y) (ln_pipe y) a chunks;;
  '(d1, e) <- step o (ln_dm y) a1;;
  '(p2, k2, f2) <- lendfile_events path cur h1 p1 (ln_held y) f e;;
  Ok (mkLend h1 p2 k2 d1, f2).
Fixpoint lendfile_run (path : string) (y : lender) (f : file_handler) (l : list call) : res (lender * file_handler) :=
  match l with
  | [] => Ok (y, f)
  | c :: t => '(y1, f1) <- lendfile_step path y f c;; lendfile_run path y1 f1 t
  end.
(** A session from the start. *)
Definition record_lent (path : string) (k : disk) (name : string) (l : list call) : res (lender * file_handler) :=
  y <- lend_new name;; lendfile_run path y (fh_start k) l.

(** * BorrowSpec: a demuxer on top of a DirectDataPipeline.

    As in SystemSpec every packet keeps the slice that Fetch returned for its block, and what the handler sees is what that slice shows
    at the moment of OnPacket. A DirectDataPipeline has one array for all streams, and writes every block from its start. *)
From Verif Require Import Base BlockModel PacketModel DemuxModel DeliverySpec SystemSpec PipeModel PipeSpec.
From Coq Require Import List.
Import ListNotations.
Local Open Scope list_scope.

Fixpoint lend_chunks (h : heap) (p : hpipe) (chunks : list (list Z)) : res (heap * hpipe) :=
  match chunks with
  | [] => Ok (h, p)
  | c :: t => '(h1, p1, _) <- hp_write h p c;; lend_chunks h1 p1 t
  end.
(** Write the block, fetch it. *)
Definition lend (h : heap) (p : hpipe) (a : op) (chunks : list (list Z)) : res (heap * hpipe * op * option gslice) :=
  match call_block a with
  | None => Ok (h, p, a, None)
  | Some _ =>
    '(h1, p1) <- lend_chunks h p chunks;;
    '(p2, sl) <- hp_fetch p1;;
    bytes <- read h1 sl;;
    Ok (h1, p2, with_block a bytes, Some sl)
  end.
(** The events of one call; the two Discard methods do nothing. *)
Fixpoint lend_events (cur : option gslice) (h : heap) (p : hpipe) (k : held) (l : list event) : res (hpipe * held * list (packet * list Z)) :=
  match l with
  | [] => Ok (p, k, [])
  | EvAdd q _ :: t => sl <- of_opt cur;; lend_events cur h p (k ++ [(pk_buffer q, tag q, sl)]) t
  | EvPacket q :: t =>
    '(sl, k1) <- of_opt (take_held (pk_buffer q) (tag q) k);;
    bytes <- read h sl;;
    '(p1, k2, out) <- lend_events cur h p k1 t;;
    Ok (p1, k2, (q, bytes) :: out)
  | EvDiscardHead _ :: t | EvDiscardBack _ :: t => lend_events cur h (hp_discard p) k t
  | _ :: t => lend_events cur h p k t
  end.

Record lender := mkLend { ln_heap : heap; ln_pipe : hpipe; ln_held : held; ln_dm : demuxer }.
Definition lend_new (name : String.string) : res lender := '(h, p) <- hp_new [];; Ok (mkLend h p [] (dm_new name)).
Definition lend_step (y : lender) (c : call) : res (lender * list (packet * list Z)) :=
  let '((o, a), chunks) := c in
  '(h1, p1, a1, cur) <- lend (ln_heap y) (ln_pipe y) a chunks;;
  '(d1, e) <- step o (ln_dm y) a1;;
  '(p2, k2, out) <- lend_events cur h1 p1 (ln_held y) e;;
  Ok (mkLend h1 p2 k2 d1, out).
Fixpoint lend_run (y : lender) (l : list call) : res (lender * list (packet * list Z)) :=
  match l with
  | [] => Ok (y, [])
  | c :: t => '(y1, out) <- lend_step y c;; '(y2, out') <- lend_run y1 t;; Ok (y2, out ++ out')
  end.

(** Every call writes exactly its block. *)
Definition honest (c : call) : Prop := match call_block (snd (fst c)) with Some (_, data) => concat (snd c) = data | None => True end.
(** The blocks written by some calls, in pieces. *)
Definition blocks (l : list call) : list (list (list Z)) :=
  flat_map (fun c => match call_block (snd (fst c)) with Some _ => [snd c] | None => [] end) l.

(** The length of the array after a block, from position [n] on. *)
Fixpoint grown (c n : Z) (chunks : list (list Z)) : Z :=
  match chunks with
  | [] => c
  | d :: t => grown (if c - n <? zlen d then (n + zlen d) * 2 else c) (n + zlen d) t
  end.
Definition room (l : list call) : Z := fold_left (fun c b => grown c 0 b) (blocks l) 0.
(** The bytes that reach an array of length [c]: the pieces before the first one that does not fit. *)
Fixpoint landed (c n : Z) (chunks : list (list Z)) : list Z :=
  match chunks with
  | [] => []
  | d :: t => if c - n <? zlen d then [] else d ++ landed c (n + zlen d) t
  end.
(** What a slice with bytes [l] shows after further blocks: every block lies over it, up to the first one that does not fit. *)
Fixpoint shown (c : Z) (l : list Z) (bs : list (list (list Z))) : list Z :=
  match bs with
  | [] => l
  | b :: t => if zlen (concat b) <=? c then shown c (over l (concat b)) t else over l (landed c 0 b)
  end.

(** Calls under which packets keep the data they are given: a preprocessing hook leaves it alone. *)
Definition plain_hook (x : oracle * op) : Prop :=
  match snd x with OpSetPre (Some g) => forall p, pk_data (g p) = pk_data p | _ => True end.
(** [c] after the calls [l1] makes packet [q]. *)
Definition made (name : String.string) (l1 : list call) (c : call) (q : packet) : Prop :=
  exists d0 e0 d1 m r, run (dm_new name) (map fst l1) = Ok (d0, e0) /\ step (fst (fst c)) d0 (snd (fst c)) = Ok (d1, EvAdd q m :: r) /\
    call_block (snd (fst c)) = Some (pk_buffer q, pk_data q).
(** [bytes] is what packet [q] shows in the last of the calls [l]. *)
Definition seen_after (name : String.string) (l : list call) (q : packet) (bytes : list Z) : Prop :=
  exists l1 c l2 q0, l = l1 ++ c :: l2 /\ made name l1 c q0 /\ pk_buffer q = pk_buffer q0 /\ tag q = tag q0 /\
    bytes = shown (room (l1 ++ [c])) (pk_data q) (blocks l2).
(** How often the pieces of the blocks move to a new array. *)
Fixpoint piece_moves (c n : Z) (chunks : list (list Z)) : nat :=
  match chunks with
  | [] => 0
  | d :: t => if c - n <? zlen d then S (piece_moves ((n + zlen d) * 2) (n + zlen d) t) else piece_moves c (n + zlen d) t
  end.
Fixpoint moves (c : Z) (bs : list (list (list Z))) : nat :=
  match bs with [] => 0 | b :: t => piece_moves c 0 b + moves (grown c 0 b) t end.

(** * BlockSpec: a block buffer is a FIFO of blocks.

    A block is its bytes and, once fetched, the slice that was handed out for it.  The specification
    never looks at the representation: it only counts and concatenates. *)
From Verif Require Import Base CollectionsSpec BlockModel.

Inductive bb_op := BWrite (d : list Z) | BFetch | BPop | BPopBack | BPending | BSize | BClear.

Inductive bb_out := BUnit | BBytes (l : option (list Z)) | BNum (z : Z).

Definition gblock := (list Z * option gslice)%type.

Definition pending_of (q : list gblock) : option (list Z) :=
  match last_of q with Some (c, None) => Some c | _ => None end.

(** [ret] is the slice the implementation returned for this operation, if any. *)
Definition bb_spec (q : list gblock) (ret : option gslice) (o : bb_op) : list gblock * res bb_out :=
  match o with
  | BWrite d =>
    match pending_of q with
    | Some c => (removelast q ++ [(c ++ d, None)], Ok BUnit)
    | None => (q ++ [(d, None)], Ok BUnit)
    end
  | BFetch =>
    match q, pending_of q with
    | [], _ => (q, Panic)
    | _, Some c => (removelast q ++ [(c, ret)], Ok (BBytes (Some c)))
    | _, None => (q, Ok (BBytes None))
    end
  | BPop => (tl q, Ok BUnit)
  | BPopBack => match q with [] => (q, Panic) | _ => (removelast q, Ok BUnit) end
  | BPending => (q, Ok (BNum (match pending_of q with Some c => zlen c | None => 0 end)))
  | BSize => (q, Ok (BNum (zlen q)))
  | BClear => ([], Ok BUnit)
  end.

(** What an implementation does for one operation: new heap, new buffer, returned slice, returned number.
    A panic leaves the state as it was. *)
Inductive raw := RUnit | RSlice (s : option gslice) | RNum (z : Z).
Definition raw_slice (r : raw) : option gslice := match r with RSlice s => s | _ => None end.

(** The bytes seen through the returned slice at the moment of the return. *)
Definition observe (h : heap) (r : raw) : res bb_out :=
  match r with
  | RUnit => Ok BUnit
  | RNum z => Ok (BNum z)
  | RSlice None => Ok (BBytes None)
  | RSlice (Some s) => l <- read h s;; Ok (BBytes (Some l))
  end.

Section Run.
  Context {B : Type} (impl : heap -> B -> bb_op -> res (heap * B * raw)).

  (** One operation on the implementation and on the FIFO: new states and both outcomes. *)
  Definition co_step (h : heap) (b : B) (q : list gblock) (o : bb_op)
    : (heap * B * list gblock) * (res bb_out * res bb_out) :=
    match impl h b o with
    | Ok (h', b', r) =>
      let '(q', spec_out) := bb_spec q (raw_slice r) o in ((h', b', q'), (observe h' r, spec_out))
    | Err => let '(q', spec_out) := bb_spec q None o in ((h, b, q'), (Err, spec_out))
    | Panic => let '(q', spec_out) := bb_spec q None o in ((h, b, q'), (Panic, spec_out))
    | NoFuel => let '(q', spec_out) := bb_spec q None o in ((h, b, q'), (NoFuel, spec_out))
    end.

  Fixpoint co_run (h : heap) (b : B) (q : list gblock) (ops : list bb_op)
    : (heap * B * list gblock) * list (res bb_out * res bb_out) :=
    match ops with
    | [] => ((h, b, q), [])
    | o :: ops' =>
      let '((h1, b1, q1), out) := co_step h b q o in
      let '(st, outs) := co_run h1 b1 q1 ops' in (st, out :: outs)
    end.

  (** A side condition on every operation, evaluated in the state in which it is issued. *)
  Fixpoint all_ops (P : heap -> B -> bb_op -> Prop) (h : heap) (b : B) (q : list gblock) (ops : list bb_op) : Prop :=
    match ops with
    | [] => True
    | o :: ops' => P h b o /\ let '((h1, b1, q1), _) := co_step h b q o in all_ops P h1 b1 q1 ops'
    end.
End Run.

(** Every fetched block still in the FIFO shows the bytes it was fetched with. *)
Definition held_intact (h : heap) (q : list gblock) : Prop :=
  forall c s, In (c, Some s) q -> read h s = Ok c.

(** The two implementations as operation dispatchers. *)
Definition d_impl (h : heap) (b : dbuf) (o : bb_op) : res (heap * dbuf * raw) :=
  match o with
  | BWrite d => '(h1, b1) <- d_write h b d;; Ok (h1, b1, RUnit)
  | BFetch => '(b1, s) <- d_fetch b;; Ok (h, b1, RSlice s)
  | BPop => b1 <- d_pop b;; Ok (h, b1, RUnit)
  | BPopBack => b1 <- d_pop_back b;; Ok (h, b1, RUnit)
  | BPending => Ok (h, b, RNum (d_pending b))
  | BSize => Ok (h, b, RNum (d_size b))
  | BClear => Ok (h, d_clear b, RUnit)
  end.

Definition rb_impl (h : heap) (r : rbuf) (o : bb_op) : res (heap * rbuf * raw) :=
  match o with
  | BWrite d => '(h1, r1) <- rb_write h r d;; Ok (h1, r1, RUnit)
  | BFetch => '(r1, s) <- rb_fetch r;; Ok (h, r1, RSlice s)
  | BPop => r1 <- rb_pop r;; Ok (h, r1, RUnit)
  | BPopBack => r1 <- rb_pop_back r;; Ok (h, r1, RUnit)
  | BPending => Ok (h, r, RNum (rb_pending r))
  | BSize => Ok (h, r, RNum (rb_size r))
  | BClear => Ok (h, rb_clear r, RUnit)
  end.

(** The ring is exactly full: it has wrapped and the newest block ends where the oldest begins. *)
Definition rb_full (r : rbuf) : Prop :=
  exists hd t, first_of (d_blocks (rb_d r)) = Some hd /\ last_of (d_blocks (rb_d r)) = Some t /\
  bk_index t < bk_index hd /\ bk_index t + bk_size t = bk_index hd.

(** Side conditions under which RBBlockBuffer works: no second growth while blocks dropped by an earlier
    growth are still waiting for their Pop, and no Fetch/PopBack when only such dropped blocks are left ... *)
Definition rb_cond (h : heap) (r : rbuf) (o : bb_op) : Prop :=
  match o with
  | BWrite d => rb_discard r > 0 -> forall h' r', rb_write h r d = Ok (h', r') -> d_data (rb_d r') = d_data (rb_d r)
  | BFetch | BPopBack => d_blocks (rb_d r) = [] -> rb_discard r = 0
  | BSize => rb_discard r = 0
  | _ => True
  end.
(** ... and no Write into an exactly full ring. *)
Definition rb_cond_full (h : heap) (r : rbuf) (o : bb_op) : Prop :=
  rb_cond h r o /\ match o with BWrite _ => ~ rb_full r | _ => True end.

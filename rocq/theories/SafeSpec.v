(** * SafeSpec: histories of all RBBlockBuffer methods, and which calls panic. *)
From Verif Require Import Base CollectionsSpec BlockModel BlockSpec StreamsSpec.

(** [XStore] is a store through a slice by the caller, e.g. into the bytes Alloc returned. *)
Inductive rb_op := XWrite (d : list Z) | XAlloc (n : Z) | XFetch | XPop | XPopBack | XPending | XSize | XClear | XSplitOff | XStore (s : gslice) (d : list Z).

(** SplitOff is promoted from DirectBlockBuffer; here only the old buffer is followed. *)
Definition rb_call (h : heap) (r : rbuf) (o : rb_op) : res (heap * rbuf * raw) :=
  match o with
  | XWrite d => rb_impl h r (BWrite d)
  | XAlloc n => '(h1, r1, s) <- rb_alloc h r n;; Ok (h1, r1, RSlice (Some s))
  | XFetch => rb_impl h r BFetch
  | XPop => rb_impl h r BPop
  | XPopBack => rb_impl h r BPopBack
  | XPending => rb_impl h r BPending
  | XSize => rb_impl h r BSize
  | XClear => rb_impl h r BClear
  | XSplitOff => '(old, _) <- d_split_off (rb_d r);; Ok (h, mkRB old (rb_capacity r) (rb_discard r), RUnit)
  | XStore s d => h1 <- hcopy h s d;; Ok (h1, r, RUnit)
  end.
Fixpoint rb_calls (h : heap) (r : rbuf) (ops : list rb_op) : res (heap * rbuf) :=
  match ops with
  | [] => Ok (h, r)
  | o :: t => '(h1, r1, _) <- rb_call h r o;; rb_calls h1 r1 t
  end.

(** There was a SplitOff and no Clear since. *)
Definition split_before (ops : list rb_op) : bool :=
  fold_left (fun b o => match o with XSplitOff => true | XClear => false | _ => b end) ops false.

(** [split]: see above; [size]: what Size() returns. *)
Definition rb_panics (split : bool) (size : Z) (o : rb_op) : bool :=
  match o with
  | XAlloc n => n <? 0
  | XFetch | XPopBack => split || (size =? 0)
  | XPop => split
  | _ => false
  end.

(** [sizes]: Size() of each buffer of a StreamsBuffer; [i]: the stream index of the call. *)
Definition sb_panics (sizes : list Z) (i : Z) (o : sop) : bool :=
  match o with
  | SWrite _ _ | SPending => (i <? 0) || (zlen sizes <? i)
  | SDiscardHead => (i <? 0) || (zlen sizes <=? i)
  | SFetch | SDiscardBack => match idx sizes i with Some n => n =? 0 | None => true end
  end.

(** Writes to the buffer SplitOff returned. *)
Fixpoint d_writes (h : heap) (b : dbuf) (ws : list (list Z)) : res (heap * dbuf) :=
  match ws with
  | [] => Ok (h, b)
  | w :: t => '(h1, b1) <- d_write h b w;; d_writes h1 b1 t
  end.
(** The bytes of the writes up to the first one that does not fit into [room] bytes any more. *)
Fixpoint landed (room : Z) (ws : list (list Z)) : list Z :=
  match ws with
  | [] => []
  | w :: t => if zlen w <=? room then w ++ landed (room - zlen w) t else []
  end.
(** Bytes [l'] are bytes [l], found at [p], with what [src] puts over them at [q]. *)
Definition painted (p q : Z) (src l l' : list Z) : Prop :=
  length l' = length l /\
  forall k, (k < length l)%nat -> nth_error l' k = if (q <=? p + Z.of_nat k) && (p + Z.of_nat k <? q + zlen src) then nth_error src (Z.to_nat (p + Z.of_nat k - q)) else nth_error l k.

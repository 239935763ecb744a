(** * CollectionsModel: ring_buffer.go, queue.go, linked_list.go, reference_counter.go. *)
From Verif Require Import Base.

(* ---------------------------------------------------------------------------------------- *)
(** ** ring_buffer.go *)

(** collections/ring_buffer.go:29-36 ringBuffer; the slice is never resliced, so cap(data) = len(data).
    The zero value of T is a parameter of the functions instead of a field. *)
Record ring (A : Type) := mkRing {
  r_data : list A; r_head : Z; r_tail : Z; r_size : Z; r_capacity : Z }.
Arguments mkRing {A}. Arguments r_data {A}. Arguments r_head {A}. Arguments r_tail {A}.
Arguments r_size {A}. Arguments r_capacity {A}.

(** collections/ring_buffer.go:38-44 IsEmpty, IsFull. *)
Definition ring_is_empty {A} (r : ring A) : bool := r_size r =? 0.
Definition ring_is_full {A} (r : ring A) : bool := r_size r =? zlen (r_data r).

(** collections/ring_buffer.go:107-111 Clear. *)
Definition ring_clear {A} (r : ring A) : ring A := mkRing (r_data r) 0 0 0 (r_capacity r).

(** collections/ring_buffer.go:57-71 Pop. *)
Definition ring_pop {A} (zero : A) (r : ring A) : res (A * ring A) :=
  if ring_is_empty r then Ok (zero, r)
  else
    element <- of_opt (idx (r_data r) (r_head r));;
    d <- of_opt (upd (r_data r) (r_head r) zero);;
    let r1 := mkRing d (Z.rem (r_head r + 1) (zlen d)) (r_tail r) (r_size r - 1) (r_capacity r) in
    Ok (element, if r_size r1 =? 0 then ring_clear r1 else r1).

(** collections/ring_buffer.go:46-55 Push. *)
Definition ring_push {A} (zero : A) (r : ring A) (value : A) : res (ring A) :=
  r1 <- (if ring_is_full r then '(_, r') <- ring_pop zero r;; Ok r' else Ok r);;
  d <- of_opt (upd (r_data r1) (r_tail r1) value);;
  Ok (mkRing d (r_head r1) (Z.rem (r_tail r1 + 1) (zlen d)) (r_size r1 + 1) (r_capacity r1)).

(** collections/ring_buffer.go:73-76 Head. *)
Definition ring_head {A} (r : ring A) : res A :=
  _ <- assert (negb (ring_is_empty r));; of_opt (idx (r_data r) (r_head r)).

(** collections/ring_buffer.go:78-85 Tail. *)
Definition ring_tail {A} (r : ring A) : res A :=
  _ <- assert (negb (ring_is_empty r));;
  if r_tail r >? 0 then of_opt (idx (r_data r) (r_tail r - 1))
  else of_opt (idx (r_data r) (zlen (r_data r) - 1)).

(** collections/ring_buffer.go:95-105 Data; a nil slice is [None]. *)
Definition ring_data {A} (r : ring A) : res (option (list A) * option (list A)) :=
  if r_size r =? 0 then Ok (None, None)
  else if r_tail r <=? r_head r then
    a <- of_opt (slice_from (r_data r) (r_head r));;
    b <- of_opt (slice (r_data r) 0 (r_tail r));;
    Ok (Some a, Some b)
  else
    a <- of_opt (slice (r_data r) (r_head r) (r_tail r));;
    Ok (Some a, None).

(** collections/ring_buffer.go:113-124 NewRingBuffer. *)
Definition ring_new {A} (zero : A) (capacity : Z) : res (ring A) :=
  _ <- assert (capacity >? 0);;
  Ok (mkRing (repeat zero (Z.to_nat capacity)) 0 0 0 capacity).

(* ---------------------------------------------------------------------------------------- *)
(** ** queue.go: Queue embeds *ringBuffer. *)

Definition opt_list {A} (o : option (list A)) : list A := match o with Some l => l | None => [] end.

(** collections/queue.go:11-29 Push. *)
Definition queue_push {A} (zero : A) (q : ring A) (value : A) : res (ring A) :=
  q1 <- (if ring_is_full q then
           let newArray := repeat zero (Z.to_nat (r_size q * 2)) in
           '(head, tail) <- ring_data q;;
           let a1 := copy newArray (opt_list head) in
           a2 <- match tail with
                 | Some t => of_opt (copy_at a1 (zlen (opt_list head)) t)
                 | None => Ok a1
                 end;;
           Ok (mkRing a2 0 (r_size q) (r_size q) (r_capacity q))
         else Ok q);;
  d <- of_opt (upd (r_data q1) (r_tail q1) value);;
  Ok (mkRing d (r_head q1) (Z.rem (r_tail q1 + 1) (zlen d)) (r_size q1 + 1) (r_capacity q1)).

(** collections/queue.go:31-42 PopBack. *)
Definition queue_pop_back {A} (q : ring A) : res (A * ring A) :=
  _ <- assert (r_size q >? 0);;
  value <- ring_tail q;;
  let q1 := mkRing (r_data q) (r_head q) (Z.rem (r_tail q - 1 + zlen (r_data q)) (zlen (r_data q))) (r_size q - 1) (r_capacity q) in
  Ok (value, if r_size q1 =? 0 then ring_clear q1 else q1).

(** collections/queue.go:44-51 Peek. *)
Definition queue_peek {A} (q : ring A) (index : Z) : res A :=
  '(head, tail) <- ring_data q;;
  if index <? zlen (opt_list head) then of_opt (idx (opt_list head) index)
  else of_opt (idx (opt_list tail) (index - zlen (opt_list head))).

(** collections/queue.go:53-62 NewQueue: the capacity field keeps its zero value. *)
Definition queue_new {A} (zero : A) (capacity : Z) : res (ring A) :=
  _ <- assert (capacity >? 0);;
  Ok (mkRing (repeat zero (Z.to_nat capacity)) 0 0 0 0).

(* ---------------------------------------------------------------------------------------- *)
(** ** linked_list.go

    The heap of nodes is a list; a pointer is an index into it (nil = None).  Nodes are never freed. *)

(** collections/linked_list.go:5-8 Node. *)
Record node (A : Type) := mkNode { n_data : A; n_next : option nat }.
Arguments mkNode {A}. Arguments n_data {A}. Arguments n_next {A}.

(** collections/linked_list.go:10-14 LinkedList (the field is spelled fist). *)
Record linked_list (A : Type) := mkLL {
  ll_heap : list (node A); ll_first : option nat; ll_last : option nat; ll_size : Z }.
Arguments mkLL {A}. Arguments ll_heap {A}. Arguments ll_first {A}. Arguments ll_last {A}. Arguments ll_size {A}.

Definition ll_new {A} : linked_list A := mkLL [] None None 0.

(** p.field, a nil dereference panics. *)
Definition deref {A} (h : list (node A)) (p : option nat) : res (node A) :=
  match p with None => Panic | Some i => of_opt (nth_error h i) end.

(** p.next = v *)
Definition set_next {A} (h : list (node A)) (p : option nat) (v : option nat) : res (list (node A)) :=
  match p with
  | None => Panic
  | Some i => match nth_error h i with
              | Some n => Ok (set_nth i (mkNode (n_data n) v) h)
              | None => Panic
              end
  end.

Definition ptr_eqb (p q : option nat) : bool :=
  match p, q with
  | None, None => true
  | Some a, Some b => Nat.eqb a b
  | _, _ => false
  end.

(** collections/linked_list.go:16-27 Add. *)
Definition ll_add {A} (l : linked_list A) (data : A) : res (linked_list A) :=
  let p := length (ll_heap l) in
  let h := ll_heap l ++ [mkNode data None] in
  match ll_last l with
  | Some _ =>
    h' <- set_next h (ll_last l) (Some p);;
    Ok (mkLL h' (ll_first l) (Some p) (ll_size l + 1))
  | None => Ok (mkLL h (Some p) (Some p) (ll_size l + 1))
  end.

(** collections/linked_list.go:34-41, the loop of Remove; [k] iterations left, i counts up. *)
Fixpoint ll_walk {A} (h : list (node A)) (k : nat) (i index : Z) (prev off : option nat) : res (option nat * option nat) :=
  match k with
  | O => Ok (prev, off)
  | S k' =>
    if i =? index then Ok (prev, off)
    else
      n <- deref h off;;
      ll_walk h k' (i + 1) index off (n_next n)
  end.

(** collections/linked_list.go:29-58 Remove. *)
Definition ll_remove {A} (l : linked_list A) (index : Z) : res (A * linked_list A) :=
  _ <- assert (index <? ll_size l);;
  '(prev, off) <- ll_walk (ll_heap l) (Z.to_nat (ll_size l)) 0 index (ll_first l) (ll_first l);;
  '(h, first, last) <-
     (if ptr_eqb off (ll_first l) then
        n <- deref (ll_heap l) (ll_first l);;
        Ok (ll_heap l, n_next n, ll_last l)
      else if ptr_eqb off (ll_last l) then Ok (ll_heap l, ll_first l, prev)
      else
        n <- deref (ll_heap l) off;;
        h' <- set_next (ll_heap l) prev (n_next n);;
        Ok (h', ll_first l, ll_last l));;
  let size := ll_size l - 1 in
  n <- deref h off;;
  Ok (n_data n, if size =? 0 then mkLL h None None size else mkLL h first last size).

(** collections/linked_list.go:60-73 Get: the same walk. *)
Definition ll_get {A} (l : linked_list A) (index : Z) : res A :=
  _ <- assert (index <? ll_size l);;
  '(_, off) <- ll_walk (ll_heap l) (Z.to_nat (ll_size l)) 0 index (ll_first l) (ll_first l);;
  n <- deref (ll_heap l) off;;
  Ok (n_data n).

(* ---------------------------------------------------------------------------------------- *)
(** ** reference_counter.go: the counter is one atomic int32. *)

(** collections/reference_counter.go:10-12 Refer (one atomic step). *)
Definition rc_refer (c : Z) : Z := i32 (c + 1).
(** collections/reference_counter.go:14-16 Release (one atomic step). *)
Definition rc_release (c : Z) : Z * bool := let c' := i32 (c + -1) in (c', c' =? 0).
(** collections/reference_counter.go:18-20 UseCount. *)
Definition rc_use_count (c : Z) : Z := c.
(** collections/reference_counter.go:35-40 NewReferenceCounter. *)
Definition rc_new : Z := 1.

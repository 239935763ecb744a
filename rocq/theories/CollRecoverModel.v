(** * CollRecoverModel: bit cursors and containers for a caller that recovers from panics: every call returns the state it leaves behind, also when it panics. *)
From Verif Require Import Base BufioModel CollectionsModel CollectionsSpec.
Open Scope Z_scope.

(** The rest of a call behind an expression that may panic. *)
Definition after {S A B} (s : S) (r : res A) (f : A -> S * res B) : S * res B :=
  match r with Ok a => f a | Err => (s, Err) | Panic => (s, Panic) | NoFuel => (s, NoFuel) end.

(* ---------------------------------------------------------------------------------------- *)
(** ** bits_reader.go, bits_writer.go *)

(** bufio/bits_reader.go:31-35 Read: Offset is moved behind ReadBits. *)
Definition br_read_x (b : bits_cursor) (n : Z) : bits_cursor * res Z :=
  after b (read_bits (bc_data b) (bc_off b) n) (fun v => ({| bc_data := bc_data b; bc_off := bc_off b + n |}, Ok v)).
(** bufio/bits_reader.go:41-45 ReadBytes: Offset is moved before the slice is taken. *)
Definition br_read_bytes_x (b : bits_cursor) (n : Z) : bits_cursor * res (list Z) :=
  let b1 := {| bc_data := bc_data b; bc_off := bc_off b + 8 * n |} in
  (b1, of_opt (slice (bc_data b1) (Z.quot (bc_off b) 8) (Z.quot (bc_off b1) 8))).
(** bufio/bits_writer.go:7-23, the loop of WriteBits: the bits before a panic are written. *)
Fixpoint write_bits_loop_x (data : list Z) (n : nat) (cur value : Z) : list Z * res unit :=
  match n with
  | O => (data, Ok tt)
  | S n' =>
    let byteIndex := Z.quot cur 8 in
    let bitIndex := 7 - Z.rem cur 8 in
    if byteIndex >=? zlen data then (data, Ok tt)
    else
      let bitValue := Z.land (Z.shiftr value (Z.of_nat n')) 1 in
      after data (of_opt (idx data byteIndex)) (fun b =>
      let b1 := Z.ldiff b (u8 (Z.shiftl 1 bitIndex)) in
      after data (of_opt (upd data byteIndex b1)) (fun data1 =>
      let b2 := Z.lor b1 (u8 (Z.shiftl bitValue bitIndex)) in
      after data1 (of_opt (upd data1 byteIndex b2)) (fun data2 =>
      write_bits_loop_x data2 n' (cur + 1) value)))
  end.
(** bufio/bits_writer.go:31-34 Write. *)
Definition bw_write_x (b : bits_cursor) (n value : Z) : bits_cursor * res unit :=
  let '(d, r) := write_bits_loop_x (bc_data b) (Z.to_nat n) (bc_off b) value in
  let b1 := {| bc_data := d; bc_off := bc_off b |} in
  after b1 r (fun _ => ({| bc_data := d; bc_off := bc_off b + n |}, Ok tt)).
(** bufio/bits_writer.go:40-43 WriteBytes. *)
Definition bw_write_bytes_x (b : bits_cursor) (data : list Z) : bits_cursor * res unit :=
  after b (of_opt (copy_at (bc_data b) (Z.quot (bc_off b) 8) data)) (fun d => ({| bc_data := d; bc_off := bc_off b + zlen data * 8 |}, Ok tt)).

(** The calls on a BitsReader and on a BitsWriter. *)
Inductive bits_op := BtRead (n : Z) | BtReadBytes (n : Z) | BtSafeRead (n : Z) | BtSeek (n : Z) | BtWrite (n v : Z) | BtWriteBytes (d : list Z).
Inductive bits_val := BvUnit | BvNum (z : Z) | BvList (l : list Z).
Definition bits_x {A} (f : A -> bits_val) (x : bits_cursor * res A) : bits_cursor * res bits_val :=
  (fst x, match snd x with Ok a => Ok (f a) | Err => Err | Panic => Panic | NoFuel => NoFuel end).
Definition bits_step_x (b : bits_cursor) (o : bits_op) : bits_cursor * res bits_val :=
  match o with
  | BtRead n => bits_x BvNum (br_read_x b n)
  | BtReadBytes n => bits_x BvList (br_read_bytes_x b n)
  | BtSafeRead _ => (b, Ok (BvNum 0))
  | BtSeek n => (bc_seek b n, Ok BvUnit)
  | BtWrite n v => bits_x (fun _ => BvUnit) (bw_write_x b n v)
  | BtWriteBytes d => bits_x (fun _ => BvUnit) (bw_write_bytes_x b d)
  end.

(* ---------------------------------------------------------------------------------------- *)
(** ** ring_buffer.go, queue.go: one assignment after the other. *)

Section Ring.
Context {A : Type} (zero : A).
Definition set_slot (r : ring A) (i : Z) (v : A) : res (ring A) := d <- of_opt (upd (r_data r) i v);; Ok (mkRing d (r_head r) (r_tail r) (r_size r) (r_capacity r)).
Definition set_head (r : ring A) (z : Z) : ring A := mkRing (r_data r) z (r_tail r) (r_size r) (r_capacity r).
Definition set_tail (r : ring A) (z : Z) : ring A := mkRing (r_data r) (r_head r) z (r_size r) (r_capacity r).
Definition set_size (r : ring A) (z : Z) : ring A := mkRing (r_data r) (r_head r) (r_tail r) z (r_capacity r).

(** collections/ring_buffer.go:57-71 Pop. *)
Definition ring_pop_x (r : ring A) : ring A * res A :=
  if ring_is_empty r then (r, Ok zero)
  else
    after r (of_opt (idx (r_data r) (r_head r))) (fun element =>
    after r (set_slot r (r_head r) zero) (fun r1 =>
    let r2 := set_head r1 (Z.rem (r_head r1 + 1) (zlen (r_data r1))) in
    let r3 := set_size r2 (r_size r2 - 1) in
    (if r_size r3 =? 0 then ring_clear r3 else r3, Ok element))).
(** ring_buffer.go:51-54 and queue.go:25-28. *)
Definition ring_put_x (r : ring A) (value : A) : ring A * res unit :=
  after r (set_slot r (r_tail r) value) (fun r1 =>
  let r2 := set_tail r1 (Z.rem (r_tail r1 + 1) (zlen (r_data r1))) in
  (set_size r2 (r_size r2 + 1), Ok tt)).
(** collections/ring_buffer.go:46-55 Push. *)
Definition ring_push_x (r : ring A) (value : A) : ring A * res unit :=
  if ring_is_full r then let '(r1, x) := ring_pop_x r in after r1 x (fun _ => ring_put_x r1 value) else ring_put_x r value.
(** collections/queue.go:11-29 Push. *)
Definition queue_push_x (q : ring A) (value : A) : ring A * res unit :=
  if ring_is_full q then
    let newArray := repeat zero (Z.to_nat (r_size q * 2)) in
    after q (ring_data q) (fun '(head, tail) =>
    let a1 := copy newArray (opt_list head) in
    after q (match tail with Some t => of_opt (copy_at a1 (zlen (opt_list head)) t) | None => Ok a1 end) (fun a2 =>
    let q1 := mkRing a2 (r_head q) (r_tail q) (r_size q) (r_capacity q) in
    let q2 := set_head q1 0 in
    let q3 := set_tail q2 (r_size q2) in
    ring_put_x q3 value))
  else ring_put_x q value.
(** collections/queue.go:31-42 PopBack. *)
Definition queue_pop_back_x (q : ring A) : ring A * res A :=
  after q (assert (r_size q >? 0)) (fun _ =>
  after q (ring_tail q) (fun value =>
  let q1 := set_size q (r_size q - 1) in
  let q2 := set_tail q1 (Z.rem (r_tail q1 - 1 + zlen (r_data q1)) (zlen (r_data q1))) in
  (if r_size q2 =? 0 then ring_clear q2 else q2, Ok value))).

Definition cout_x {S B} (f : B -> cout A) (x : S * res B) : S * res (cout A) :=
  (fst x, match snd x with Ok a => Ok (f a) | Err => Err | Panic => Panic | NoFuel => NoFuel end).
Definition ring_step_x (r : ring A) (o : ring_op A) : ring A * res (cout A) :=
  match o with
  | RPush a => cout_x (fun _ => OUnit) (ring_push_x r a)
  | RPop => cout_x OElem (ring_pop_x r)
  | RHead => cout_x OElem (r, ring_head r)
  | RTail => cout_x OElem (r, ring_tail r)
  | RSize => (r, Ok (ONum (r_size r)))
  | RCapacity => (r, Ok (ONum (r_capacity r)))
  | RIsEmpty => (r, Ok (OBool (ring_is_empty r)))
  | RIsFull => (r, Ok (OBool (ring_is_full r)))
  | RData => cout_x (fun d => OList (opt_list (fst d) ++ opt_list (snd d))) (r, ring_data r)
  | RClear => (ring_clear r, Ok OUnit)
  end.
Definition queue_step_x (r : ring A) (o : queue_op A) : ring A * res (cout A) :=
  match o with
  | QPush a => cout_x (fun _ => OUnit) (queue_push_x r a)
  | QPop => cout_x OElem (ring_pop_x r)
  | QPopBack => cout_x OElem (queue_pop_back_x r)
  | QPeek i => cout_x OElem (r, queue_peek r i)
  | QHead => cout_x OElem (r, ring_head r)
  | QTail => cout_x OElem (r, ring_tail r)
  | QSize => (r, Ok (ONum (r_size r)))
  | QIsEmpty => (r, Ok (OBool (ring_is_empty r)))
  | QData => cout_x (fun d => OList (opt_list (fst d) ++ opt_list (snd d))) (r, ring_data r)
  | QClear => (ring_clear r, Ok OUnit)
  end.

(* ---------------------------------------------------------------------------------------- *)
(** ** linked_list.go *)

(** collections/linked_list.go:16-27 Add: the node is made first. *)
Definition ll_add_x (l : linked_list A) (data : A) : linked_list A * res unit :=
  let p := length (ll_heap l) in
  let l1 := mkLL (ll_heap l ++ [mkNode data None]) (ll_first l) (ll_last l) (ll_size l) in
  match ll_last l1 with
  | Some _ => after l1 (set_next (ll_heap l1) (ll_last l1) (Some p)) (fun h => (mkLL h (ll_first l1) (Some p) (ll_size l1 + 1), Ok tt))
  | None => (mkLL (ll_heap l1) (Some p) (Some p) (ll_size l1 + 1), Ok tt)
  end.
(** collections/linked_list.go:43-51: which pointer Remove changes. *)
Definition ll_unlink_x (l : linked_list A) (prev off : option nat) : linked_list A * res unit :=
  if ptr_eqb off (ll_first l) then after l (deref (ll_heap l) (ll_first l)) (fun n => (mkLL (ll_heap l) (n_next n) (ll_last l) (ll_size l), Ok tt))
  else if ptr_eqb off (ll_last l) then (mkLL (ll_heap l) (ll_first l) prev (ll_size l), Ok tt)
  else after l (deref (ll_heap l) off) (fun n => after l (set_next (ll_heap l) prev (n_next n)) (fun h => (mkLL h (ll_first l) (ll_last l) (ll_size l), Ok tt))).
(** collections/linked_list.go:29-58 Remove: the data is read last. *)
Definition ll_remove_x (l : linked_list A) (index : Z) : linked_list A * res A :=
  after l (assert (index <? ll_size l)) (fun _ =>
  after l (ll_walk (ll_heap l) (Z.to_nat (ll_size l)) 0 index (ll_first l) (ll_first l)) (fun '(prev, off) =>
  let '(l1, r) := ll_unlink_x l prev off in
  after l1 r (fun _ =>
  let l2 := if ll_size l1 - 1 =? 0 then mkLL (ll_heap l1) None None (ll_size l1 - 1) else mkLL (ll_heap l1) (ll_first l1) (ll_last l1) (ll_size l1 - 1) in
  after l2 (deref (ll_heap l2) off) (fun n => (l2, Ok (n_data n)))))).
Definition ll_step_x (l : linked_list A) (o : ll_op A) : linked_list A * res (cout A) :=
  match o with
  | LAdd a => cout_x (fun _ => OUnit) (ll_add_x l a)
  | LRemove i => cout_x OElem (ll_remove_x l i)
  | LGet i => cout_x OElem (l, ll_get l i)
  | LSize => (l, Ok (ONum (ll_size l)))
  end.
End Ring.

(** * RbFetchSpec: the block being written in an RBBlockBuffer, and the memory a Write changes. *)
From Verif Require Import Base CollectionsSpec BlockModel BlockSpec.

(** The bytes written since the last Fetch (None: no block is open). A Pop that leaves no block takes the open one too;
    [size] is what Size() returns after the call. *)
Definition open_after (cur : option (list Z)) (o : bb_op) (size : Z) : option (list Z) :=
  match o with
  | BWrite d => Some (match cur with Some c => c | None => [] end ++ d)
  | BFetch | BPopBack | BClear => None
  | BPop => if size =? 0 then None else cur
  | BPending | BSize => cur
  end.

(** A history; a panic leaves everything as it was. *)
Definition ring_step (st : heap * rbuf * option (list Z)) (o : bb_op) : heap * rbuf * option (list Z) :=
  let '(h, r, cur) := st in
  match rb_impl h r o with Ok (h1, r1, _) => (h1, r1, open_after cur o (rb_size r1)) | _ => st end.
Definition ring_run (st : heap * rbuf * option (list Z)) (ops : list bb_op) := fold_left ring_step ops st.

(** Where a Write puts its bytes: into the array at some place, or into a new array. [cur]: the bytes of the open block. *)
Inductive target := Put (at_ : Z) (bytes : list Z) | Grow.
Definition write_target (r : rbuf) (cur : list Z) (d : list Z) : target :=
  let blocks := d_blocks (rb_d r) in
  let cap := s_len (d_data (rb_d r)) in
  match first_of blocks, last_of blocks with
  | Some hd, Some t =>
    let head := bk_index hd in
    let tail := bk_index t + bk_size t in
    let limit := if zlen blocks =? 1 then cap else rb_capacity r in
    if tail <? head then (if tail + zlen d <=? head then Put tail d else Grow)
    else if tail + zlen d <=? limit then Put tail d
    else if zlen cur + zlen d <=? head then Put 0 (cur ++ d)
    else Grow
  | _, _ => if zlen d <=? cap then Put 0 d else Grow
  end.
Definition overlay (a : list Z) (at_ : Z) (bytes : list Z) : list Z :=
  firstn (Z.to_nat at_) a ++ bytes ++ skipn (Z.to_nat at_ + length bytes) a.

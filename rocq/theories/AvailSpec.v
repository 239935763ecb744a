(** * AvailSpec: what a DirectBlockBuffer shows as a whole, and how much an RBBlockBuffer can take. *)
From Verif Require Import Base CollectionsSpec BlockModel BlockSpec.

(** A history on the buffer alone; a panic leaves it as it was. *)
Definition d_step (st : heap * dbuf) (o : bb_op) : heap * dbuf :=
  match d_impl (fst st) (snd st) o with Ok (h, b, _) => (h, b) | _ => st end.
Definition d_run (st : heap * dbuf) (ops : list bb_op) : heap * dbuf := fold_left d_step ops st.

(** Number of blocks, whether the last one is still open, and the bytes written since the buffer was last without blocks. *)
Definition tally := (nat * bool * list Z)%type.
Definition since (t : tally) (o : bb_op) : tally :=
  let '(n, open, log) := t in
  let left m open := (m, open && (0 <? m)%nat, if (m =? 0)%nat then [] else log) in
  match o with
  | BWrite d => ((if open then n else S n), true, log ++ d)
  | BFetch => (n, false, log)
  | BPop => left (Nat.pred n) open
  | BPopBack => left (Nat.pred n) false
  | BClear => (0%nat, false, [])
  | BPending | BSize => t
  end.
Definition since_empty (ops : list bb_op) : tally := fold_left since ops (0%nat, false, []).

(** The largest Alloc a ring can serve in the memory it has: the gap between the newest and the oldest block when the blocks have wrapped;
    otherwise what is left behind the newest block or, if its open block is moved to the front, what is free there. *)
Definition rb_room (r : rbuf) : Z :=
  let blocks := d_blocks (rb_d r) in
  let cap := s_len (d_data (rb_d r)) in
  match first_of blocks, last_of blocks with
  | Some hd, Some t =>
    let head := bk_index hd in let tail := bk_index t + bk_size t in
    let moved := if bk_completed t then 0 else bk_size t in
    if tail <? head then head - tail else Z.max ((if zlen blocks =? 1 then cap else rb_capacity r) - tail) (head - moved)
  | _, _ => cap
  end.

(** Calls that leave every block in place, and the bytes they write. *)
Definition adds (o : bb_op) : Prop := match o with BWrite _ | BFetch | BPending | BSize => True | _ => False end.
Fixpoint written (ops : list bb_op) : list Z :=
  match ops with [] => [] | BWrite d :: t => d ++ written t | _ :: t => written t end.

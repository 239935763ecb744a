(** * RoomSpec: how many bytes a FIFO of blocks holds. *)
From Verif Require Import Base CollectionsSpec BlockModel BlockSpec.

(** The bytes of all blocks that have not been popped. *)
Fixpoint load (q : list gblock) : Z := match q with [] => 0 | b :: t => zlen (fst b) + load t end.

(** Run on the FIFO alone, no Write makes it hold more than half of [c] bytes. *)
Fixpoint half_full (c : Z) (q : list gblock) (ops : list bb_op) : Prop :=
  match ops with
  | [] => True
  | o :: t =>
    match o with BWrite d => 2 * (load q + zlen d) <= c | _ => True end /\
    half_full c (fst (bb_spec q (Some (mkSlice 0 0 0)) o)) t
  end.

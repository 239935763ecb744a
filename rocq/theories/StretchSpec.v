(** * StretchSpec: the units AnnexB2AVCC finds in arbitrary bytes, and what it stores when the room is short. *)
From Verif Require Import Base NaluSpec.

(** The units in the bytes after a start code: leading zero bytes are dropped, a unit ends before the next start code. *)
Inductive stretch : list Z -> list (list Z) -> Prop :=
| St_end r : strip0 r = [] -> stretch r []
| St_last r : strip0 r <> [] -> (forall k, ~ sc_at (strip0 r) k) -> stretch r [strip0 r]
| St_next r k us : first_sc (strip0 r) k -> stretch (skipn (Z.to_nat (k + 3)) (strip0 r)) us ->
    stretch r (firstn (Z.to_nat (k + 3 - sc_len_at (strip0 r) k)) (strip0 r) :: us).
Definition found_units (p : list Z) (us : list (list Z)) : Prop :=
  ((forall k, ~ sc_at p k) /\ us = []) \/ exists k, first_sc p k /\ stretch (skipn (Z.to_nat (k + 3)) p) us.

(** What is stored into [room] bytes: the last unit is cut off silently, anything else that does not fit is a panic. *)
Fixpoint stored (room : Z) (us : list (list Z)) : option (list Z) :=
  match us with
  | [] => Some []
  | u :: r =>
    if room <? 4 then None
    else if 4 + zlen u <=? room then match stored (room - (4 + zlen u)) r with Some b => Some (avcc [u] ++ b) | None => None end
    else match r with [] => Some (firstn (Z.to_nat room) (avcc [u])) | _ => None end
  end.

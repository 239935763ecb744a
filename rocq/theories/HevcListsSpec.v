(** * HevcListsSpec: the units of an hvcC record in order, and what a list that shares its array with another one holds. *)
From Verif Require Import Base NaluSpec.

(** The units of all arrays in order, with the type of their array and a start code. *)
Definition units_of (arrs : list (Z * list (list Z))) : list (Z * list Z) :=
  concat (map (fun a => map (fun n => (fst a mod 64, sc true ++ n)) (snd a)) arrs).
Definition typed (t : Z) (l : list (Z * list Z)) : list (list Z) := map snd (filter (fun u => fst u =? t) l).

(** The capacity of a list that [n] appends built from nil, and whether one more append stays in the array. *)
Fixpoint cap_after (grow : nat -> nat) (n : nat) : nat :=
  match n with O => 0%nat | S k => if (k <? cap_after grow k)%nat then cap_after grow k else (S k + grow (S k))%nat end.
Definition spare (grow : nat -> nat) (n : nat) : bool := (n <? cap_after grow n)%nat.

(** SPSList when [x] is the last SPS, [l] are the units before it and [r] those after it: the PPSs of [l] and one more unit,
    which is [x] or, when [x] went into spare room of PPSList, the first PPS of [r]. *)
Definition sps_list grow (l : list (Z * list Z)) (x : list Z) (r : list (Z * list Z)) : list (list Z) :=
  typed 34 l ++ [match typed 34 r with y :: _ => if spare grow (length (typed 34 l)) then y else x | [] => x end].

(** * What the file handler has to leave on the disk when its panics are recovered. *)
From Coq Require Import String.
From Verif Require Import Base UtilModel PacketModel HandlerSpec HandlerFaultModel.
From Coq Require Import List.
Import ListNotations.
Local Open Scope list_scope.

(** The tracks whose file could be opened; the opening of the first of [ts] is the [k]-th system call. *)
Fixpoint surviving {A} (flt : faults) (k : nat) (ts : list A) : list A :=
  match ts with
  | [] => []
  | s :: r => match flt k with None => s :: surviving flt (S k) r | Some _ => surviving flt (S k) r end
  end.

(** Writing [w] from the [k]-th call on: the bytes that are stored, the number of the next call, and whether all succeeded. *)
Fixpoint store (flt : faults) (k : nat) (w : list (list Z)) : list Z * nat * bool :=
  match w with
  | [] => ([], k, true)
  | d :: r => match flt k with
              | None => let '(c, k1, b) := store flt (S k) r in (d ++ c, k1, b)
              | Some n => (firstn (Z.to_nat n) d, S k, false)
              end
  end.

(** A packet that can be written: a known media type, a unit that can be converted, and an open file. *)
Definition writable (tracks : list stream) (files : Z) (p : packet) (w : list (list Z)) : Prop :=
  (exists m, media_string (pk_media p) = Ok m) /\ writes_of tracks p w /\ 0 <= pk_index p < files.

(** Packets [ps], the bytes [cs] stored for each, and the result of each call. *)
Inductive stored (flt : faults) (tracks : list stream) (files : Z) : nat -> list packet -> list (list Z) -> list (res unit) -> nat -> Prop :=
| stored_nil k : stored flt tracks files k [] [] [] k
| stored_hit k p w c k1 b ps cs rs k2 : writable tracks files p w -> store flt k w = (c, k1, b) -> stored flt tracks files k1 ps cs rs k2 ->
    stored flt tracks files k (p :: ps) (c :: cs) ((if b then Ok tt else Panic) :: rs) k2
| stored_miss k p r ps cs rs k2 : (forall w, ~ writable tracks files p w) -> r <> Ok tt -> stored flt tracks files k ps cs rs k2 ->
    stored flt tracks files k (p :: ps) ([] :: cs) (r :: rs) k2.

(** The bytes for file [j]. *)
Definition landed (ps : list packet) (cs : list (list Z)) (j : nat) : list Z :=
  concat (map snd (filter (fun x => Z.of_nat j =? pk_index (fst x)) (combine ps cs))).

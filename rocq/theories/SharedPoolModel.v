(** * SharedPoolModel: several demuxers in one process.

    PacketPool (av_packet.go:30-34) is a global variable: a packet freed by one demuxer is used again by another. Here any number of the
    demuxers of DemuxPtrModel work on one memory and one pool, with their calls interleaved. *)
From Verif Require Import Base CollectionsModel PacketModel DemuxModel DemuxPtrModel.
From Coq Require Import String.
Local Open Scope list_scope.

(** A demuxer: demuxer.go:29-41 with its lists of packet pointers. *)
Record part := mkPart { pt_d : demuxer; pt_lists : list (linked_list nat) }.
(** [w_kept] as [pd_kept] in DemuxPtrModel. *)
Record world := mkWorld { w_parts : list part; w_mem : list packet; w_pool : list nat; w_kept : list (nat * packet) }.
Definition world_new (names : list string) : world := mkWorld (map (fun n => mkPart (dm_new n) []) names) [] [] [].

(** One of the demuxers, with the shared memory. *)
Definition view (w : world) (p : part) : pdm := mkPd (pt_d p) (pt_lists p) (w_mem w) (w_pool w) (w_kept w).
(** A call of demuxer number [i]; its events carry this number. *)
Definition step_world (w : world) (i : nat) (o : poracle) (a : op) : res (world * list (nat * event)) :=
  match nth_error (w_parts w) i with
  | None => Ok (w, [])
  | Some p => '(s, e) <- step_ptr o (view w p) a;; Ok (mkWorld (set_nth i (mkPart (pd_d s) (pd_lists s)) (w_parts w)) (pd_mem s) (pd_pool s) (pd_kept s), map (pair i) e)
  end.
Fixpoint run_world (w : world) (l : list (nat * poracle * op)) : res (world * list (nat * event)) :=
  match l with
  | [] => Ok (w, [])
  | (i, o, a) :: t => '(w1, e) <- step_world w i o a;; '(w2, e') <- run_world w1 t;; Ok (w2, e ++ e')
  end.

(** What belongs to demuxer [i]. *)
Definition events_of {A} (i : nat) (l : list (nat * A)) : list A := map snd (filter (fun x => (fst x =? i)%nat) l).
Definition calls_of (i : nat) (l : list (nat * poracle * op)) : list (poracle * op) := map (fun x => (snd (fst x), snd x)) (filter (fun x => (fst (fst x) =? i)%nat) l).

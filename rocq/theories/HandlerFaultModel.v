(** * HandlerFaultModel: OnUnpackStream2FileHandler (handler.go) on a file system that may refuse to open or to write. *)
From Coq Require Import String.
From Verif Require Import Base UtilModel PacketModel DemuxModel HandlerModel.
Open Scope Z_scope.
Local Open Scope list_scope.

(** What happens at the k-th call of OpenFile or Write: [None], it succeeds; [Some n], it returns an error, a Write after having
    stored the first [n] bytes (all of them if there are fewer). *)
Definition faults := nat -> option Z.

(** The handler, the number of system calls made so far, and the result; after a panic the handler and the disk are those at that moment. *)
Definition fx (A : Type) := file_handler -> nat -> file_handler * nat * res A.
Definition fx_of {A} (r : res A) : fx A := fun h k => (h, k, r).
Definition fx_bind {A B} (m : fx A) (f : A -> fx B) : fx B := fun h k =>
  match m h k with
  | (h1, k1, Ok a) => f a h1 k1
  | (h1, k1, Err) => (h1, k1, Err) | (h1, k1, Panic) => (h1, k1, Panic) | (h1, k1, NoFuel) => (h1, k1, NoFuel)
  end.

(** handler.go:55-64 OnNewTrack: the logger adds the track first; an error of OpenFile is a panic. *)
Definition fx_new_track (path : string) (flt : faults) (s : stream) : fx unit := fun h k =>
  let h1 := {| fh_tracks := tm_add (fh_tracks h) s; fh_files := fh_files h; fh_disk := fh_disk h |} in
  match file_name path s with
  | Ok n =>
    match flt k with
    | None => ({| fh_tracks := fh_tracks h1; fh_files := fh_files h1 ++ [(n, 0)]; fh_disk := fh_disk h1 |}, S k, Ok tt)
    | Some _ => (h1, S k, Panic)
    end
  | Err => (h1, k, Err) | Panic => (h1, k, Panic) | NoFuel => (h1, k, NoFuel)
  end.

(** handler.go:79-81 and 85-87: an error of Write is a panic. *)
Definition fx_write (flt : faults) (i : Z) (d : list Z) : fx unit := fun h k =>
  match flt k with
  | None =>
    match fh_write h i d with
    | Ok h1 => (h1, S k, Ok tt) | Err => (h, k, Err) | Panic => (h, k, Panic) | NoFuel => (h, k, NoFuel)
    end
  | Some n =>
    match fh_write h i (firstn (Z.to_nat n) d) with
    | Ok h1 => (h1, S k, Panic) | Err => (h, k, Err) | Panic => (h, k, Panic) | NoFuel => (h, k, NoFuel)
    end
  end.

(** handler.go:70-88 OnPacket. *)
Definition fx_on_packet (flt : faults) (p : packet) : fx unit :=
  fx_bind (fx_of (media_string (pk_media p))) (fun _ =>
  if AVMediaTypeVideo =? pk_media p then
    fx_bind (fun h k => (h, k, tm_get (fh_tracks h) (pk_index p))) (fun s =>
    fx_bind (fx_of (avcc_packet_to_annexb s p)) (fun '(p1, data) =>
    fx_bind (match pk_key p1 && (PacketTypeAVCC =? pk_type p1), st_params s with
             | true, Some c => fx_write flt (pk_index p1) (cd_annexb c)
             | _, _ => fx_of (Ok tt)
             end) (fun _ =>
    fx_write flt (pk_index p1) data)))
  else fx_write flt (pk_index p) (pk_data p)).

Definition fx_event (path : string) (flt : faults) (e : event) : fx unit :=
  match e with
  | EvNewTrack s => fx_new_track path flt s
  | EvPacket p => fx_on_packet flt p
  | _ => fx_of (Ok tt)
  end.
Fixpoint fx_session (path : string) (flt : faults) (l : list event) : fx unit :=
  match l with [] => fx_of (Ok tt) | e :: t => fx_bind (fx_event path flt e) (fun _ => fx_session path flt t) end.

(** handler.go:58: the mode of a new file is 132, decimal; the system clears the bits of the umask. *)
Definition file_mode (umask : Z) : Z := Z.ldiff 132 umask.

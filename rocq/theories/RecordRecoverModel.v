(** * RecordRecoverModel: a demuxer with an OnUnpackStream2FileHandler, on a file system that may fail, for a caller that recovers from panics. *)
From Coq Require Import List String.
From Verif Require Import Base PacketModel DemuxModel DemuxProofs RecoverModel HandlerModel HandlerFaultModel HandlerRecoverModel.
Import ListNotations.
Local Open Scope list_scope.

(** The first of the callbacks [l] that panics, in a handler [h] after [k] system calls (handler.go:55-88). *)
Fixpoint first_fail (path : string) (flt : faults) (l : list event) (h : file_handler) (k : nat) : mood :=
  match l with
  | [] => None
  | e :: t => let '(h1, k1, r) := fx_event path flt e h k in match r with Ok _ => option_map S (first_fail path flt t h1 k1) | _ => Some O end
  end.

(** The demuxer, the handler and the number of system calls. *)
Definition recorder : Type := demuxer * file_handler * nat.
(** A call: the handler answers the callbacks that the demuxer would make; at the first that panics the call ends (demuxer.go:254-301, demuxer.go:434-476, handler.go:55-88). *)
Definition rec_step_r (path : string) (flt : faults) (x : recorder) (o : oracle) (a : op) : recorder * list event * res unit :=
  let '(d, h, k) := x in
  let q := first_fail path flt (handler_events (snd (fst (step_r o None d a)))) h k in
  let '(d1, e, r) := step_r o q d a in
  let '(h1, k1, _) := rx_session path flt (handler_events e) h k in
  (d1, h1, k1, e, r).
Fixpoint rec_run_r (path : string) (flt : faults) (x : recorder) (l : list (oracle * op)) : recorder * list (op * list event * res unit) :=
  match l with
  | [] => (x, [])
  | (o, a) :: t =>
    let '(x1, e, r) := rec_step_r path flt x o a in
    let '(x2, es) := rec_run_r path flt x1 t in
    (x2, (a, e, r) :: es)
  end.
Definition events_of (log : list (op * list event * res unit)) : list event := List.concat (map (fun x => snd (fst x)) log).

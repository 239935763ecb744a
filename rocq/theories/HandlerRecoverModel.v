(** * HandlerRecoverModel: OnUnpackStream2FileHandler (handler.go) behind a handler that recovers from the panics of each callback. *)
From Coq Require Import String.
From Verif Require Import Base DemuxModel HandlerModel HandlerFaultModel.
Local Open Scope list_scope.

(** The callbacks of handler.go:55-88 one after the other; each leaves what it had changed before it panicked. The results of all calls are kept. *)
Fixpoint rx_session (path : string) (flt : faults) (l : list event) (h : file_handler) (k : nat) : file_handler * nat * list (res unit) :=
  match l with
  | [] => (h, k, [])
  | e :: t =>
    let '(h1, k1, r) := fx_event path flt e h k in
    let '(h2, k2, rs) := rx_session path flt t h1 k1 in
    (h2, k2, r :: rs)
  end.

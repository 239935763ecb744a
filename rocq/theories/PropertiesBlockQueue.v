(** * PropertiesBlockQueue: C119, the block buffers on the real ring queue. *)
From Verif Require Import Base CollectionsModel CollectionsSpec BlockModel BlockSpec HeapProofs SafeSpec StreamsSpec BlockQueueModel BlockQueueProofs.
From Coq Require Import List.
Import ListNotations.
Open Scope Z_scope.
Local Open Scope list_scope.

(* ---------------------------------------------------------------------------------------- *)
(** ** C119: the queue of block pointers behaves as a list of blocks. *)
(** Every history of calls on an RBBlockBuffer that keeps its blocks behind pointers in the real ring queue shows the same results, failures and memory as with a plain list of blocks. *)
Theorem C119_rb : forall h c h1 q, qr_new h c = Ok (h1, q) -> exists r, rb_new h c = Ok (h1, r) /\ forall ops, trace qr_call h1 q ops = trace rb_call h1 r ops.
Proof.
  intros h c h1 q E. pose proof (sim_r_new h c) as S. rewrite E in S. destruct (rb_new h c) as [[h2 r]| | |]; cbn in S; try contradiction. destruct S as [E1 R]. cbn [fst snd] in *. subst.
  exists r. split; [reflexivity|]. intros ops. exact (trace_same _ _ _ sim_r_call ops h2 q r R).
Qed.
(** The same for a DirectBlockBuffer and all buffers split off it. *)
Theorem C119_direct : forall h c h1 b, qd_new h c = Ok (h1, b) -> exists d, d_new h c = Ok (h1, d) /\ forall ops, trace (on_family qd_call) h1 [b] ops = trace (on_family d_call) h1 [d] ops.
Proof.
  intros h c h1 b E. pose proof (sim_d_new h c) as S. rewrite E in S. destruct (d_new h c) as [[h2 d]| | |]; cbn in S; try contradiction. destruct S as [E1 R]. cbn [fst snd] in *. subst.
  exists d. split; [reflexivity|]. intros ops. apply (trace_same _ _ _ sim_family). auto.
Qed.
(** The same for a StreamsBuffer. *)
Theorem C119_streams : forall h ops, trace qs_call h [] ops = trace (fun h s c => sb_impl h s (fst c) (snd c)) h [] ops.
Proof. intros h ops. apply (trace_same (Forall2 same_r)); [|constructor]. intros h0 b c o. apply sim_s_call. Qed.
(** A capacity is accepted by one exactly if by the other. *)
Theorem C119_new : forall h c, ((exists x, qr_new h c = Ok x) <-> (exists x, rb_new h c = Ok x)) /\ ((exists x, qd_new h c = Ok x) <-> (exists x, d_new h c = Ok x)).
Proof.
  intros h c. pose proof (sim_r_new h c) as S. pose proof (sim_d_new h c) as T. split.
  - destruct (qr_new h c), (rb_new h c); cbn in S; try contradiction; split; intros [x X]; try discriminate X; eauto.
  - destruct (qd_new h c), (d_new h c); cbn in T; try contradiction; split; intros [x X]; try discriminate X; eauto.
Qed.

(** A ring of 8 bytes: two blocks, one released, a third that wraps, one taken back, and a Pop after SplitOff. *)
Definition c119_ops : list rb_op := [XWrite [1; 2; 3]; XFetch; XWrite [4; 5; 6]; XFetch; XPop; XWrite [7; 8; 9]; XPending; XFetch; XPopBack; XPop; XSize; XSplitOff; XPop].
Definition c119_run {B} (call : heap -> B -> rb_op -> res (heap * B * raw)) (new : res (heap * B)) : list (res raw) :=
  match new with Ok (h, b) => map (fun x => '(_, o) <- x;; Ok o) (trace call h b c119_ops) | _ => [] end.
Example C119_example :
  c119_run qr_call (qr_new [] 8) =
    [Ok RUnit; Ok (RSlice (Some (mkSlice 0%nat 0 3))); Ok RUnit; Ok (RSlice (Some (mkSlice 0%nat 3 3))); Ok RUnit; Ok RUnit; Ok (RNum 3);
     Ok (RSlice (Some (mkSlice 0%nat 0 3))); Ok RUnit; Ok RUnit; Ok (RNum 0); Ok RUnit; Panic] /\
  c119_run qr_call (qr_new [] 8) = c119_run rb_call (rb_new [] 8).
Proof. split; vm_compute; reflexivity. Qed.

Print Assumptions C119_rb.
Print Assumptions C119_direct.
Print Assumptions C119_streams.
Print Assumptions C119_new.

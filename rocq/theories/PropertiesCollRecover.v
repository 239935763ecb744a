(** * PropertiesCollRecover: cursors and containers whose caller recovers from panics (C161). *)
From Verif Require Import Base BufioModel BytesSpec BytesProofs CollectionsModel CollectionsSpec RingProofs LinkedListProofs ChainSpec ChainProofs CollRecoverModel CollRecoverProofs.
Open Scope Z_scope.

(* ---------------------------------------------------------------------------------------- *)
(** ** C161 Recovered panics of cursors and containers *)

(** BytesReader and BytesWriter: a history with any sizes leaves and answers what the history with Seek(n) in place of every ReadBytes(n), n < 0, does, but a seek that succeeds there is a panic here. *)
Theorem C161_bytes : forall data ops, zlen data < 2 ^ 63 -> bytes_ok data -> Forall bop_any ops ->
  exists b rs, bb_run (bb_new data) ops = (b, tame_answers ops rs) /\ spec_run data 0 (map tame ops) = ((bb_data b, bb_offset b), rs) /\ 0 <= bb_offset b <= zlen (bb_data b).
Proof.
  intros data ops L B H. destruct (bytes_runs ops (bb_new data)) as (b & rs & E & I & F); auto; [now apply bb_new_inv|]. exists b, rs. destruct I as (I1 & I2 & I3 & I4). auto.
Qed.
Print Assumptions C161_bytes.

(** BitsReader and BitsWriter: the history with every panicking ReadBytes(n) replaced by Seek(8n) and every other panicking call left out has no panic, leaves the same data and offset and answers the same. *)
Theorem C161_bits : forall b ops b' rs, run bits_step_x b ops = (b', rs) -> bits_runs b (mended ops rs) = Ok (mended_answers ops rs, b').
Proof. intros. now apply bits_mended. Qed.
Print Assumptions C161_bits.

(** A call panics exactly where the plain model says so. *)
Theorem C161_bits_step : forall b o, snd (bits_step_x b o) = match bits_plain b o with Ok (v, _) => Ok v | _ => Panic end.
Proof. intros b o. rewrite bits_step_exact. destruct (bits_plain b o) as [[v b1]| | |]; reflexivity. Qed.
Print Assumptions C161_bits_step.

(** Where the offset is, counted from the calls. *)
Theorem C161_bits_offset : forall b ops b' rs, run bits_step_x b ops = (b', rs) -> bc_off b' = bc_off b + bits_distance ops rs.
Proof. intros. now apply bits_offset. Qed.
Print Assumptions C161_bits_offset.

(** RingBuffer, Queue and LinkedList: a call that panics has written nothing, at any point of any history. *)
Theorem C161_ring : forall (A : Type) (zero : A) c r ops, ring_new zero c = Ok r -> run (ring_step_x zero) r ops = run (ring_step zero) r ops.
Proof.
  intros A zero c r ops E. assert (0 < c) as C. { revert E. unfold ring_new, assert. destruct (c >? 0) eqn:G; [lia|discriminate]. } destruct (ring_new_rep zero c C) as (r' & E' & R & K). assert (r' = r) as -> by congruence.
  apply (run_same _ _ (ring_spec zero c) (ring_rel c)) with (t := []); [intros; eapply ring_step_same; eauto| |split; auto]. intros s t o H. now apply ring_step_sim.
Qed.
Print Assumptions C161_ring.
Theorem C161_queue : forall (A : Type) (zero : A) c r ops, queue_new zero c = Ok r -> run (queue_step_x zero) r ops = run (queue_step zero) r ops.
Proof.
  intros A zero c r ops E. assert (0 < c) as C. { revert E. unfold queue_new, assert. destruct (c >? 0) eqn:G; [lia|discriminate]. } destruct (queue_new_rep zero c C) as (r' & E' & R). assert (r' = r) as -> by congruence.
  apply (run_same _ _ (queue_spec zero) ring_rep) with (t := []); [intros; eapply queue_step_same; eauto| |auto]. intros s t o H. now apply queue_step_sim.
Qed.
Print Assumptions C161_queue.
Theorem C161_list : forall (A : Type) (ops : list (ll_op A)), run ll_step_x ll_new ops = run ll_step ll_new ops.
Proof.
  intros A ops. apply (run_same _ _ chain_spec chain_rel) with (t := chain_new); [intros; eapply ll_step_same; eauto| |apply chain_rel_new]. intros s t o H. now apply chain_step_sim.
Qed.
Print Assumptions C161_list.

(** A negative ReadBytes moves the cursor back; a panicking ReadBytes of bits moves it outside, where the next Read panics and changes nothing; the list answers a panicking Remove without losing anything. *)
Example C161_example :
  bb_run (bb_new [1; 2; 3; 4]) [ORead 2; OBytes (-1); ORead 1; OBytes (-3); OBytes 2] = (bb_set_offset (bb_new [1; 2; 3; 4]) 4, [Ok (VNum 258); Panic; Ok (VNum 2); Err; Ok (VList [3; 4])]) /\
  run bits_step_x {| bc_data := [160; 5]; bc_off := 0 |} [BtRead 3; BtReadBytes (-3); BtRead 1; BtWrite 4 9; BtSeek 21; BtWrite 4 9; BtReadBytes 2; BtReadBytes 1; BtRead 2] =
    ({| bc_data := [144; 5]; bc_off := 30 |}, [Ok (BvNum 5); Panic; Panic; Panic; Ok BvUnit; Ok BvUnit; Ok (BvList [144; 5]); Panic; Ok (BvNum 0)]) /\
  snd (run ll_step_x ll_new [LAdd 1; LRemove 1; LRemove (-1); LRemove 0; LSize]) = [Ok OUnit; Panic; Panic; Ok (OElem 1); Ok (ONum 0)].
Proof. vm_compute. repeat split; reflexivity. Qed.

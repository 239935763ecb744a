(** * Properties C11-C14: ring buffer, queue, linked list, reference counter. *)
From Verif Require Import Base CollectionsModel CollectionsSpec RingProofs RetainProofs LinkedListProofs StaleProofs RefCountProofs.

(** ** C11 *)
Theorem C11_ring_buffer_refines_list : forall (A : Type) (zero : A) (c : Z) (ops : list (ring_op A)),
  0 < c -> exists r, ring_new zero c = Ok r /\
  snd (run (ring_step zero) r ops) = snd (run (ring_spec zero c) [] ops).
Proof.
  intros A zero c ops Hc. destruct (ring_new_rep zero c Hc) as (r & E & R & Cp & L). exists r. split; [exact E|].
  apply (run_sim (fun _ => True) (ring_step zero) (ring_spec zero c) (ring_rel c)).
  - intros. now apply ring_step_sim.
  - split; auto.
  - apply Forall_forall. auto.
Qed.

(** NewRingBuffer itself panics exactly when the capacity is not positive. *)
Theorem C11_ring_buffer_new : forall (A : Type) (zero : A) (c : Z), c <= 0 <-> ring_new zero c = Panic.
Proof.
  intros. unfold ring_new, assert. destruct (c >? 0) eqn:E; cbn [bind]; split; intros H; try lia; try discriminate; reflexivity.
Qed.

(** A full ring of capacity 3 whose contents wrap around the end of the array. *)
Example C11_example :
  let ops := [RPush 5; RPush 6; RPush 7; RPush 8; RPush 9; RData; RHead; RTail; RIsFull; RPop; RPush 4; RTail; RPop; RPop; RSize; RPop; RPop; RHead; RPush 1; RClear; RIsEmpty; RCapacity] in
  match ring_new 0 3 with Ok r => snd (run (ring_step 0) r ops) | _ => [] end
  = [Ok OUnit; Ok OUnit; Ok OUnit; Ok OUnit; Ok OUnit; Ok (OList [7; 8; 9]); Ok (OElem 7); Ok (OElem 9); Ok (OBool true); Ok (OElem 7); Ok OUnit; Ok (OElem 4);
     Ok (OElem 8); Ok (OElem 9); Ok (ONum 1); Ok (OElem 4); Ok (OElem 0); Panic; Ok OUnit; Ok OUnit; Ok (OBool true); Ok (ONum 3)] /\
  snd (run (ring_spec 0 2) [] [RPush 5; RPush 6; RPush 7; RData; RHead; RTail; RPop; RPop; RPop; RHead; RCapacity])
  = [Ok OUnit; Ok OUnit; Ok OUnit; Ok (OList [6; 7]); Ok (OElem 6); Ok (OElem 7); Ok (OElem 6); Ok (OElem 7); Ok (OElem 0); Panic; Ok (ONum 2)].
Proof. split; reflexivity. Qed.
Print Assumptions C11_ring_buffer_refines_list.
Print Assumptions C11_ring_buffer_new.

(** ** C12 *)
Theorem C12_queue_refines_list : forall (A : Type) (zero : A) (c : Z) (ops : list (queue_op A)),
  0 < c -> exists q, queue_new zero c = Ok q /\
  snd (run (queue_step zero) q ops) = snd (run (queue_spec zero) [] ops).
Proof.
  intros A zero c ops Hc. destruct (queue_new_rep zero c Hc) as (q & E & R). exists q. split; [exact E|].
  apply (run_sim (fun _ => True) (queue_step zero) (queue_spec zero) ring_rep).
  - intros. now apply queue_step_sim.
  - exact R.
  - apply Forall_forall. auto.
Qed.

(** Growth of a wrapped queue, then removals from both ends. *)
Example C12_example :
  let ops := [QPush 1; QPush 2; QPush 3; QPop; QPush 4; QPush 5; QData; QPeek 0; QPeek 2; QPeek 3; QPeek 4; QPeek (-1); QTail; QPopBack; QHead; QPopBack; QPop; QPop; QPopBack; QPop; QSize] in
  match queue_new 0 3 with Ok q => snd (run (queue_step 0) q ops) | _ => [] end
  = [Ok OUnit; Ok OUnit; Ok OUnit; Ok (OElem 1); Ok OUnit; Ok OUnit; Ok (OList [2; 3; 4; 5]); Ok (OElem 2); Ok (OElem 4); Ok (OElem 5); Panic; Panic; Ok (OElem 5); Ok (OElem 5);
     Ok (OElem 2); Ok (OElem 4); Ok (OElem 2); Ok (OElem 3); Panic; Ok (OElem 0); Ok (ONum 0)] /\
  snd (run (queue_spec 0) [] [QPush 1; QPush 2; QPush 3; QPop; QPopBack; QPush 4; QPeek 1; QPeek 2; QPeek (-1); QData; QPopBack; QPopBack; QPopBack])
  = [Ok OUnit; Ok OUnit; Ok OUnit; Ok (OElem 1); Ok (OElem 3); Ok OUnit; Ok (OElem 4); Panic; Panic; Ok (OList [2; 4]); Ok (OElem 4); Ok (OElem 2); Panic].
Proof. split; reflexivity. Qed.
Print Assumptions C12_queue_refines_list.

(** ** C13 *)
Theorem C13_linked_list_refines_list : forall (A : Type) (ops : list (ll_op A)),
  Forall ll_op_ok ops ->
  snd (run ll_step ll_new ops) = snd (run ll_spec [] ops).
Proof.
  intros A ops F. apply (run_sim ll_op_ok ll_step ll_spec ll_rel); auto.
  - intros. now apply ll_step_sim.
  - exists []. apply ll_new_rep.
Qed.

Example C13_example :
  let ops := [LAdd 1; LAdd 2; LAdd 3; LRemove 2; LRemove 0; LAdd 9; LGet 1; LRemove 5; LSize; LRemove 0; LRemove 0; LGet 0; LAdd 4; LAdd 5; LAdd 6; LRemove 1; LGet 1; LAdd 7; LGet 2] in
  let outs := [Ok OUnit; Ok OUnit; Ok OUnit; Ok (OElem 3); Ok (OElem 1); Ok OUnit; Ok (OElem 9); Panic; Ok (ONum 2); Ok (OElem 2); Ok (OElem 9); Panic;
    Ok OUnit; Ok OUnit; Ok OUnit; Ok (OElem 5); Ok (OElem 6); Ok OUnit; Ok (OElem 7)] in
  Forall ll_op_ok ops /\ snd (run ll_step ll_new ops) = outs /\ snd (run ll_spec [] ops) = outs.
Proof. split; [repeat constructor; cbn; lia|split; reflexivity]. Qed.
Print Assumptions C13_linked_list_refines_list.

(** ** C14 *)
Theorem C14_reference_counter : forall n t0 es s,
  (t0 < n)%nat -> rc_exec (rc_init n t0) es s ->
  (* UseCount is the number of outstanding references *)
  rc_use_count (rc_counter s) = Z.of_nat (total (rc_held s)) /\
  (* while references are outstanding no release has returned true *)
  (total (rc_held s) <> 0%nat -> Forall (fun e => is_last e = false) es) /\
  (* once none is left, exactly the final release returned true *)
  (total (rc_held s) = 0%nat -> exists es', es = es' ++ [ERelease true] /\ Forall (fun e => is_last e = false) es').
Proof.
  intros n t0 es s H E. destruct (rc_init_inv n t0 H) as [I P].
  destruct (rc_exec_inv _ es s I ltac:(lia) E) as ((C & _) & A & B). auto.
Qed.

Example C14_example : exists s, rc_exec (rc_init 2 0) [ERefer; EHandover; ERelease false; ERelease true] s /\ total (rc_held s) = 0%nat.
Proof.
  eexists. split.
  - change [ERefer; EHandover; ERelease false; ERelease true] with (((([] ++ [ERefer]) ++ [EHandover]) ++ [ERelease false]) ++ [ERelease true]).
    eapply exec_snoc; [eapply exec_snoc; [eapply exec_snoc; [eapply exec_snoc; [apply exec_nil|]|]|]|].
    + apply (step_refer _ 0%nat); vm_compute; auto.
    + apply (step_handover _ 0%nat 1%nat); vm_compute; auto.
    + refine (step_release _ 1%nat _ _); vm_compute; auto.
    + refine (step_release _ 0%nat _ _); vm_compute; auto.
  - reflexivity.
Qed.
Print Assumptions C14_reference_counter.

(** ** C85: false as stated: PopBack of a Queue (and Clear of either) leaves the element in the backing array. *)
Theorem C85_no_retention_refuted : exists q q' outs,
  queue_new 0 2 = Ok q /\ run (queue_step 0) q [QPush 7; QPush 8; QPopBack] = (q', outs) /\
  last outs Panic = Ok (OElem 8) /\ In 8 (r_data q') /\ fst (run (queue_spec 0) [] [QPush 7; QPush 8; QPopBack]) = [7].
Proof. do 3 eexists. repeat (split; [reflexivity|]). split; [right; left; reflexivity|reflexivity]. Qed.
Print Assumptions C85_no_retention_refuted.

(** Without Clear (and, for a Queue, without PopBack) every slot holds an element of the contents or the zero value. *)
Theorem C85_ring_no_retention_partial : forall (A : Type) (zero : A) (c : Z) (ops : list (ring_op A)) r,
  ring_new zero c = Ok r -> Forall (fun o => o <> RClear) ops ->
  forall x, In x (r_data (fst (run (ring_step zero) r ops))) -> x = zero \/ In x (fst (run (ring_spec zero c) [] ops)).
Proof. exact ring_no_retention. Qed.

Theorem C85_queue_no_retention_partial : forall (A : Type) (zero : A) (c : Z) (ops : list (queue_op A)) q,
  queue_new zero c = Ok q -> Forall (fun o => o <> QPopBack /\ o <> QClear) ops ->
  forall x, In x (r_data (fst (run (queue_step zero) q ops))) -> x = zero \/ In x (fst (run (queue_spec zero) [] ops)).
Proof. exact queue_no_retention. Qed.

(** With them, a slot holds the zero value, an element of the contents, or an element that a PopBack or Clear took out. *)
Theorem C85_ring_retention : forall (A : Type) (zero : A) (c : Z) (ops : list (ring_op A)) r, ring_new zero c = Ok r ->
  forall x, In x (r_data (fst (run (ring_step zero) r ops))) ->
  x = zero \/ In x (fst (run (ring_spec zero c) [] ops)) \/ In x (left_behind (ring_spec zero c) ring_left [] ops).
Proof. exact ring_retention. Qed.
Theorem C85_queue_retention : forall (A : Type) (zero : A) (c : Z) (ops : list (queue_op A)) q, queue_new zero c = Ok q ->
  forall x, In x (r_data (fst (run (queue_step zero) q ops))) ->
  x = zero \/ In x (fst (run (queue_spec zero) [] ops)) \/ In x (left_behind (queue_spec zero) queue_left [] ops).
Proof. exact queue_retention. Qed.
(** Right after the call they are all still there. *)
Theorem C85_left_behind : forall (A : Type) (zero : A) (c : Z),
  (forall (ops : list (queue_op A)) q o x, queue_new zero c = Ok q -> In x (queue_left (fst (run (queue_spec zero) [] ops)) o) ->
     In x (r_data (fst (queue_step zero (fst (run (queue_step zero) q ops)) o)))) /\
  (forall (ops : list (ring_op A)) r o x, ring_new zero c = Ok r -> In x (ring_left (fst (run (ring_spec zero c) [] ops)) o) ->
     In x (r_data (fst (ring_step zero (fst (run (ring_step zero) r ops)) o)))).
Proof.
  intros A zero c. split.
  - intros ops q o x E I. assert (Hc : 0 < c). { unfold queue_new, assert in E. destruct (c >? 0) eqn:G; [lia|discriminate]. }
    destruct (queue_new_rep zero c Hc) as (q0 & E0 & R). rewrite E in E0. injection E0 as <-.
    exact (queue_left_there zero _ _ o x (queue_run_rep zero ops q [] R) I).
  - intros ops r o x E I. assert (Hc : 0 < c). { unfold ring_new, assert in E. destruct (c >? 0) eqn:G; [lia|discriminate]. }
    destruct (ring_new_rep zero c Hc) as (r0 & E0 & R & Cp & L). rewrite E in E0. injection E0 as <-.
    exact (ring_left_there zero c _ _ o x (ring_run_rep zero c ops r [] ltac:(split; auto)) I).
Qed.

Example C85_example :
  (match ring_new 0 3 with Ok r => r_data (fst (run (ring_step 0) r [RPush 5; RPush 6; RPush 7; RPush 8; RPop])) | _ => [] end) = [8; 0; 7] /\
  (match queue_new 0 2 with Ok r => r_data (fst (run (queue_step 0) r [QPush 5; QPush 6; QPop; QPush 7; QPush 8; QPop])) | _ => [] end) = [0; 7; 8; 0].
Proof. split; reflexivity. Qed.
Print Assumptions C85_ring_no_retention_partial.
Print Assumptions C85_queue_no_retention_partial.
Example C85_retention_example :
  left_behind (queue_spec 0) queue_left [] [QPush 5; QPush 6; QPush 7; QPopBack; QPop; QPush 8; QClear] = [7; 6; 8] /\
  (match queue_new 0 3 with Ok r => r_data (fst (run (queue_step 0) r [QPush 5; QPush 6; QPush 7; QPopBack; QPop; QPush 8; QClear])) | _ => [] end) = [0; 6; 8].
Proof. split; reflexivity. Qed.
Print Assumptions C85_ring_retention.
Print Assumptions C85_queue_retention.
Print Assumptions C85_left_behind.

(* ---------------------------------------------------------------------------------------- *)
(** ** C98 Indices outside a LinkedList *)

(** The full claim, Get and Remove panic for every index outside 0..Size-1, is false: a negative index follows the next pointer of the last
    node, which still leads to an element removed earlier.  Remove hands that element out again and the list forgets an element instead. *)
Theorem C98_outside_panics_refuted :
  snd (run ll_step ll_new [LAdd 1; LAdd 2; LRemove 1; LGet (-1)]) = [Ok OUnit; Ok OUnit; Ok (OElem 2); Ok (OElem 2)] /\
  snd (run ll_step ll_new [LAdd 1; LAdd 2; LRemove 1; LRemove (-1); LSize; LGet 0]) = [Ok OUnit; Ok OUnit; Ok (OElem 2); Ok (OElem 2); Ok (ONum 0); Panic].
Proof. split; vm_compute; reflexivity. Qed.
Print Assumptions C98_outside_panics_refuted.

(** Exactly what happens: for Get in every history without a negative Remove, and for one negative Remove after such a history. *)
Theorem C98_outside_panics_partial : forall (A : Type) (ops : list (ll_op A)),
  Forall (fun o => match o with LRemove i => 0 <= i | _ => True end) ops ->
  snd (run ll_step ll_new ops) = snd (run stale_spec ([], None) ops) /\
  forall i, i < 0 ->
    let s := fst (run ll_step ll_new ops) in
    match snd (fst (run stale_spec ([], None) ops)) with
    | None => ll_step s (LRemove i) = (s, Panic)
    | Some a => exists s', ll_step s (LRemove i) = (s', Ok (OElem a)) /\ ll_size s' = ll_size s - 1
    end.
Proof.
  intros A ops F. destruct (run_sim (fun o : ll_op A => match o with LRemove i => 0 <= i | _ => True end) ll_step stale_spec stale_rel) with (ops := ops) (s := @ll_new A) (t := (@nil A, @None A)) as [(ps & R & T) E]; auto.
  - intros. now apply stale_step_sim.
  - exists []. split; [apply ll_new_rep|reflexivity].
  - split; [exact E|]. intros i Hi s. fold s in R, T. pose proof (remove_neg s ps _ _ i R T Hi) as X. destruct (snd (fst (run stale_spec ([], None) ops))) as [a|]; cbn [ll_step].
    + destruct X as (s' & -> & Sz). cbn [keep fst snd]. exists s'. split; [reflexivity|]. rewrite Sz. now rewrite (lr_size _ _ _ R).
    + rewrite X. reflexivity.
Qed.
Print Assumptions C98_outside_panics_partial.
Example C98_example : snd (run stale_spec ([], None) [LAdd 1; LAdd 2; LAdd 3; LGet (-1); LRemove 2; LRemove 0; LGet (-7); LAdd 4; LGet (-1); LRemove 1; LRemove 0; LGet (-1)]) =
  [Ok OUnit; Ok OUnit; Ok OUnit; Panic; Ok (OElem 3); Ok (OElem 1); Ok (OElem 3); Ok OUnit; Panic; Ok (OElem 4); Ok (OElem 2); Panic].
Proof. vm_compute. reflexivity. Qed.

(** * PropertiesChain: C98 for every history, negative indices of Remove included. *)
From Verif Require Import Base CollectionsModel CollectionsSpec LinkedListProofs ChainSpec ChainProofs.
Open Scope Z_scope.

(* ---------------------------------------------------------------------------------------- *)
(** ** C98 Indices outside a LinkedList, whatever was removed before *)

(** Every answer, to every history with every index. *)
Theorem C98_exact : forall (A : Type) (ops : list (ll_op A)), snd (run ll_step ll_new ops) = snd (run chain_spec chain_new ops).
Proof.
  intros A ops. enough (forall s x, chain_rel s x -> snd (run ll_step s ops) = snd (run chain_spec x ops)) as H by apply H, chain_rel_new.
  induction ops as [|o ops IH]; intros s x R; cbn [run]; [reflexivity|]. destruct (chain_step_sim s x o R) as [R1 E]. destruct (ll_step s o) as [s1 r1], (chain_spec x o) as [x1 r2]. cbn [fst snd] in R1, E. specialize (IH s1 x1 R1).
  destruct (run ll_step s1 ops), (run chain_spec x1 ops). cbn [snd] in *. congruence.
Qed.
Print Assumptions C98_exact.

(** Remove(2) leaves the third node linked behind the last one; Remove(-1) then takes it again, and hides the second element; Add makes it visible again instead of the new one, which a second Add shows. *)
Example C98_exact_example : snd (run chain_spec chain_new [LAdd 1; LAdd 2; LAdd 3; LRemove 2; LRemove (-1); LSize; LGet (-4); LAdd 4; LGet 1; LGet 2; LGet (-1); LAdd 5; LGet 2; LRemove (-9); LSize]) =
  [Ok OUnit; Ok OUnit; Ok OUnit; Ok (OElem 3); Ok (OElem 3); Ok (ONum 1); Ok (OElem 2); Ok OUnit; Ok (OElem 2); Panic; Ok (OElem 4); Ok OUnit; Ok (OElem 4); Ok (OElem 5); Ok (ONum 2)].
Proof. vm_compute. reflexivity. Qed.

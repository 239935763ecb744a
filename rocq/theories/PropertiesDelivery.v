(** * PropertiesDelivery: C86, the blocks behind the delivered packets. *)
From Verif Require Import Base PacketModel DemuxModel DemuxProofs DeliverySpec DeliveryProofs PropertiesDemux.
From Coq Require Import String Sorted List.
Import ListNotations.
Local Open Scope list_scope.

(* ---------------------------------------------------------------------------------------- *)
(** ** C86 Releasing blocks *)
(** [pipe_run b [] (dm_new name) h = Some q] says that in the history [h] every block released from buffer [b] after OnPacket is the
    block of that packet, and that the blocks [q] are left. As stated it is false: at the end of the probe the packets are sorted by
    dts, so a packet with a smaller dts than its predecessor is delivered first and releases the block of its predecessor. *)
Definition hist_reorder : list op :=
  [OpSetAutoFree true; OpSetHandler; OpAudio 0 G711A [1] 9000; OpAudio 0 G711A [2] 0; OpAudio 0 G711A [3] 18000; OpProbeComplete].
Theorem C86_release_refuted : exists name h d evs b, Forall well_behaved h /\ Forall delivery_op h /\ Forall packet_driven h /\ run (dm_new name) h = Ok (d, evs) /\
  pipe_run b [] (dm_new name) h = None.
Proof.
  exists "ps"%string, (calls hist_reorder). do 2 eexists. exists 0. split; [|split; [|split; [|split; [vm_compute; reflexivity|vm_compute; reflexivity]]]];
  apply Forall_map, Forall_forall; intros a I; repeat (destruct I as [<-|I]; [try (split; [exact o0_ok|]); try exact Logic.I; reflexivity|]); destruct I.
Qed.
Print Assumptions C86_release_refuted.

(** With ascending timestamps, one buffer per track and lists aligned with tracks (both hold when tracks are created from packets),
    every packet releases its own block, and the blocks left in a buffer are those of the packets waiting for it, in order. *)
Theorem C86_release_partial : forall b name o0 h d evs, Forall well_behaved ((o0, OpSetAutoFree true) :: h) -> Forall delivery_op h ->
  run (dm_new name) ((o0, OpSetAutoFree true) :: h) = Ok (d, evs) -> aligned evs -> NoDup (map snd (dm_map d)) ->
  (forall i : nat, ascending (of_index (Z.of_nat i) (accepted evs))) ->
  pipe_run b [] (dm_new name) ((o0, OpSetAutoFree true) :: h) = Some (map pk_data (waiting b d)).
Proof. exact reach_pipe. Qed.
Theorem C86_release_driven : forall b name o0 h d evs, Forall well_behaved ((o0, OpSetAutoFree true) :: h) -> Forall delivery_op h -> Forall packet_driven h ->
  run (dm_new name) ((o0, OpSetAutoFree true) :: h) = Ok (d, evs) -> (forall i : nat, ascending (of_index (Z.of_nat i) (accepted evs))) ->
  pipe_run b [] (dm_new name) ((o0, OpSetAutoFree true) :: h) = Some (map pk_data (waiting b d)).
Proof.
  intros b name o0 h d evs W D P R A. destruct (reach_driven name ((o0, OpSetAutoFree true) :: h) d evs) as ((Al & _ & N) & _); auto.
  - apply Forall_cons; [split; [exact Logic.I|reflexivity]|]. inversion W as [|x l _ W2]; subst. clear -W2 P. induction W2 as [|x l [_ H] _ IH]; constructor.
    + now apply Forall_inv in P.
    + apply IH. now apply Forall_inv_tail in P.
  - eapply C86_release_partial; eauto.
Qed.
(** What is left is at most the last packet of each track once the probe is over. *)
Theorem C86_release_left : forall b name h d evs, Forall sorting h -> run (dm_new name) h = Ok (d, evs) -> dm_completed d = true ->
  (length (waiting b d) <= length (dm_packets d))%nat.
Proof.
  intros b name h d evs F R C. destruct (reach_balanced _ _ _ _ F R) as (_ & _ & [_ B] & _). specialize (B C). unfold waiting.
  induction (dm_packets d) as [|l t IH]; [reflexivity|]. cbn [List.concat]. rewrite filter_app, app_length. apply Forall_cons_iff in B as [B1 B2]. specialize (IH B2).
  assert (length (filter (fun p => (pk_buffer p =? b)%Z) l) <= length l)%nat by (clear; induction l as [|a l IH]; cbn; [lia|]; destruct (_ =? _)%Z; cbn; lia).
  cbn [length] in *. lia.
Qed.
Print Assumptions C86_release_partial.
Print Assumptions C86_release_driven.
Print Assumptions C86_release_left.
Example C86_example : pipe_run 0 [] (dm_new "ts") (calls (OpSetAutoFree true :: hist1)) = Some [[5]] /\ pipe_run 1 [] (dm_new "ts") (calls (OpSetAutoFree true :: hist1)) = Some [[6]] /\
  pipe_run 0 [] (dm_new "ts") (calls (OpSetAutoFree true :: firstn 4 hist1)) = Some [[1]; [3]].
Proof. vm_compute. repeat split; reflexivity. Qed.

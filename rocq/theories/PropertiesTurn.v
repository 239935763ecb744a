(** * PropertiesTurn: C146, what each call delivers. *)
From Verif Require Import Base RingProofs NaluModel RecordModel AacModel FloatModel PacketModel DemuxModel DemuxProofs PropertiesDemux LaneProofs PropertiesLanes ReentModel ReentProofs.
From Coq Require Import String Permutation Sorted List Lia.
Import ListNotations.
Local Open Scope list_scope.

(* ---------------------------------------------------------------------------------------- *)
(** ** C146: what each call delivers. *)
(** [lane j evs]: what was put into list j so far (LaneProofs). *)
Lemma run_snoc name h d evs o a d' e : run (dm_new name) h = Ok (d, evs) -> step o d a = Ok (d', e) -> run (dm_new name) (h ++ [(o, a)]) = Ok (d', evs ++ e).
Proof. intros R S. rewrite run_app, R. cbn [bind run]. rewrite S. cbn [bind]. now rewrite app_nil_r. Qed.
(** A call that leaves the probe open delivers nothing. *)
Theorem C146_before : forall name h d evs o a d' e, Forall sorting h -> run (dm_new name) h = Ok (d, evs) -> oracle_ok o -> step o d a = Ok (d', e) -> dm_completed d' = false -> delivered e = [].
Proof.
  intros name h d evs o a d' e F R O S C. assert (F' : Forall sorting (h ++ [(o, a)])) by (apply Forall_app; split; [exact F|constructor; [exact O|constructor]]).
  destruct (C66_lanes _ _ _ _ F' (run_snoc _ _ _ _ _ _ _ _ R S)) as (D & _). specialize (D C). rewrite delivered_app in D. now apply app_eq_nil in D as [_ D].
Qed.
(** The call that completes the probe delivers, in the order of their times, all packets so far (its own counted) except the last of each list. *)
Theorem C146_batch : forall name h d evs o a d' e, Forall sorting h -> run (dm_new name) h = Ok (d, evs) -> oracle_ok o -> step o d a = Ok (d', e) -> dm_completed d = false -> dm_completed d' = true ->
  Permutation (delivered e) (List.concat (map (fun j => removelast (durs (lane j (evs ++ e)))) (seq 0 (length (dm_packets d'))))) /\ Sorted dts_le (delivered e).
Proof.
  intros name h d evs o a d' e F R O S C C'. assert (F' : Forall sorting (h ++ [(o, a)])) by (apply Forall_app; split; [exact F|constructor; [exact O|constructor]]).
  destruct (C66_lanes _ _ _ _ F' (run_snoc _ _ _ _ _ _ _ _ R S)) as (_ & P & _). specialize (P C'). destruct (C66_lanes _ _ _ _ F R) as (D & _). rewrite delivered_app, (D C) in P. split; [exact P|]. exact (C67_batch_sorted _ _ _ _ _ _ _ _ R O C S).
Qed.
(** After the probe a call delivers at most one packet: when it puts a packet into a list, the packet put there before, with the distance as its duration. Its own packet has to wait. *)
Theorem C146_live : forall name h d evs o a d' e, Forall sorting h -> run (dm_new name) h = Ok (d, evs) -> step o d a = Ok (d', e) -> dm_completed d = true -> dm_completed d' = true /\
  ((accepted e = [] /\ delivered e = [] /\ dm_packets d' = dm_packets d) \/
   exists p j, accepted e = [p] /\ Z.of_nat j = Z.min (pk_index p) (zlen (dm_packets d)) /\
     delivered e = match rev (lane j evs) with [] => [] | q :: _ => [set_duration q (i64 (pk_dts p - pk_dts q))] end /\
     nth j (dm_packets d') [] = [p] /\ forall k, k <> j -> nth k (dm_packets d') [] = nth k (dm_packets d) []).
Proof.
  intros name h d evs o a d' e F R S C. rewrite step_eq in S. destruct (op_front o d a) as [fr| | |] eqn:Fr; cbn [bind] in S; try discriminate S. apply front_cases in Fr. destruct fr as [d1 e1|d1 p|d1].
  - injection S as <- <-. destruct Fr as ((P & C1 & _) & A & D & _). split; [congruence|]. left. auto.
  - destruct Fr as ((P & C1 & _) & _). rewrite process_eq in S. destruct (decide o d1 p) as [pl| | |] eqn:Dc; cbn [bind] in S; try discriminate S. apply decide_cases in Dc as (j & l & N & J & Dc). cbv zeta in Dc.
    assert (Hj : (j < length (base_lists d1 p))%nat) by (apply nth_error_Some; congruence).
    assert (Nj : nth j (dm_packets d) [] = l) by (rewrite <- P, <- (DemuxProofs.nth_base d1 p); now apply nth_error_nth).
    assert (Nth : forall l' k, nth k (dm_packets (with_packets d1 (set_nth j l' (base_lists d1 p)))) [] = if (k =? j)%nat then l' else nth k (dm_packets d) []).
    { intros l' k. cbn [dm_packets with_packets]. rewrite nth_set_nth by exact Hj. rewrite DemuxProofs.nth_base, P. reflexivity. }
    assert (L : nth j (dm_packets d) [] = match rev (lane j evs) with [] => [] | q :: _ => [q] end).
    { destruct (reach_lanes _ _ _ _ F R) as (L & _). rewrite L, C. destruct (lane j evs) as [|x m _] using rev_ind; [reflexivity|]. destruct (durs_last m x) as (y & ->). now rewrite only_last_snoc, rev_app_distr. }
    destruct Dc as [(-> & [->|X])|[(_ & l' & q & -> & ->)|(X & _)]]; try congruence.
    + injection S as <- <-. split; [cbn; congruence|]. right. exists p, j. split; [reflexivity|]. split; [rewrite J, P; reflexivity|]. split; [|split].
      * rewrite Nj in L. destruct (rev (lane j evs)); [reflexivity|discriminate L].
      * rewrite Nth, Nat.eqb_refl. reflexivity.
      * intros k K. rewrite Nth. now replace (k =? j)%nat with false by lia.
    + destruct (forward_packet _ _) as [e1| | |] eqn:Fw; cbn [bind] in S; try discriminate S. injection S as <- <-. split; [cbn; congruence|]. right. exists p, j.
      assert (Ev : accepted e1 = [] /\ delivered e1 = [set_duration q (i64 (pk_dts p - pk_dts q))]).
      { apply forward_packet_events in Fw as (_ & Fd & Fa & _). auto. }
      destruct Ev as [Ea Ed]. change (accepted (EvAdd p (zlen (dm_packets d1)) :: e1)) with (p :: accepted e1). rewrite Ea. split; [reflexivity|]. split; [rewrite J, P; reflexivity|].
      assert (Lq : exists m, rev (lane j evs) = q :: m /\ l' = []).
      { rewrite Nj in L. destruct (rev (lane j evs)) as [|x m]; [now apply app_eq_nil in L as [_ L]|]. exists m. apply (app_inj_tail l' [] q x) in L as [-> ->]. auto. }
      destruct Lq as (m & Lq & ->). rewrite Lq. split; [exact Ed|]. split.
      * rewrite Nth, Nat.eqb_refl. reflexivity.
      * intros k K. rewrite Nth. now replace (k =? j)%nat with false by lia.
  - subst d1. unfold on_probe_complete in S. rewrite C in S. injection S as <- <-. split; [exact C|]. left. auto.
Qed.

(** Two G.711 streams: nothing while the probe is open, then all but the last of each stream in one call, then one packet per call. *)
Definition c146_ops : list op := [OpSetHandler; OpAudio 0 G711A [1] 0; OpAudio 1 G711A [2] 10; OpAudio 0 G711A [3] 100; OpAudio 1 G711A [4] 150; OpAudio 0 G711A [5] 250; OpAudio 1 G711A [6] 260; OpFindIndex 7; OpAudio 0 G711A [7] 290].
Fixpoint c146_turns (d : demuxer) (l : list op) : list (list (list Z * Z)) :=
  match l with [] => [] | a :: t => match step o0 d a with Ok (d1, e) => map (fun p => (pk_data p, pk_duration p)) (delivered e) :: c146_turns d1 t | _ => [] end end.
Example C146_example : c146_turns (dm_new "flv") c146_ops = [[]; []; []; []; []; [([1], 100); ([2], 140); ([3], 150)]; [([4], 110)]; []; [([5], 40)]].
Proof. vm_compute. reflexivity. Qed.

Print Assumptions C146_before.
Print Assumptions C146_batch.
Print Assumptions C146_live.

(** * Durations and order for all histories: C65, C66 and C67 without the condition that list i belongs to track i. *)
From Verif Require Import Base RingProofs BufioModel NaluModel NaluSpec NaluProofs AvccProofs RecordModel AacModel FloatModel PacketModel PacketProofs DemuxModel DemuxProofs PropertiesDemux TrackSpec TrackProofs LaneProofs.
From Coq Require Import String Permutation Sorted List.
Import ListNotations.
Local Open Scope list_scope.

(** [lane j evs] is what was put into list j: the packets with index j, and if there were only j lists also those with a larger index. What the
    demuxer still holds: everything until completion, then the last packet of each list. *)
Theorem C65_lanes : forall name h d evs, Forall sorting h -> run (dm_new name) h = Ok (d, evs) -> forall j,
  map nodur (nth j (dm_packets d) []) = map nodur (if dm_completed d then match rev (lane j evs) with [] => [] | q :: _ => [q] end else lane j evs).
Proof.
  intros name h d evs F R j. destruct (reach_lanes _ _ _ _ F R) as (L & _). rewrite L. destruct (dm_completed d); [|now apply durs_map].
  destruct (lane j evs) as [|x l _] using rev_ind; [reflexivity|]. destruct (durs_last l x) as (y & ->). now rewrite only_last_snoc, rev_app_distr.
Qed.
Print Assumptions C65_lanes.

(** Nothing is delivered before completion. Then the delivered packets are those of every list but its last one, each with the distance to the
    next packet put into the same list as its duration. *)
Theorem C66_lanes : forall name h d evs, Forall sorting h -> run (dm_new name) h = Ok (d, evs) ->
  (dm_completed d = false -> delivered evs = []) /\
  (dm_completed d = true -> Permutation (delivered evs) (List.concat (map (fun j => removelast (durs (lane j evs))) (seq 0 (length (dm_packets d)))))) /\
  (forall p, In p (delivered evs) -> exists j l p0 q t, lane j evs = l ++ p0 :: q :: t /\ p = set_duration p0 (i64 (pk_dts q - pk_dts p0))).
Proof.
  intros name h d evs F R. destruct (reach_lanes _ _ _ _ F R) as (_ & D & S3). split; [exact D|]. split; [intros C; now apply S3|].
  intros p I. destruct (dm_completed d); [|rewrite D in I by reflexivity; destruct I]. destruct (S3 eq_refl) as [P _].
  apply (Permutation_in _ P) in I. apply in_concat in I as (x & Ix & Ip). apply in_map_iff in Ix as (j & <- & _). exists j. clear - Ip.
  induction (lane j evs) as [|a [|b t] IH]; [destruct Ip..|]. cbn [durs] in Ip.
  change (In p (match durs (b :: t) with [] => [] | _ => set_duration a (i64 (pk_dts b - pk_dts a)) :: removelast (durs (b :: t)) end)) in Ip.
  destruct (durs (b :: t)) eqn:E; [destruct t; discriminate|]. rewrite <- E in *. destruct Ip as [<-|Ip].
  - exists [], a, b, t. split; reflexivity.
  - destruct (IH Ip) as (l1 & p1 & q & t' & E' & N). exists (a :: l1), p1, q, t'. rewrite E'. split; [reflexivity|exact N].
Qed.
Print Assumptions C66_lanes.

(** The packets put into one list with increasing timestamps leave in the same order. *)
Theorem C67_lanes : forall name h d evs, Forall sorting h -> run (dm_new name) h = Ok (d, evs) -> dm_completed d = true ->
  forall j, ascending (lane j evs) -> subseq (removelast (durs (lane j evs))) (delivered evs).
Proof. intros name h d evs F R C. destruct (reach_lanes _ _ _ _ F R) as (_ & _ & S3). now destruct (S3 C). Qed.
Print Assumptions C67_lanes.

(** Both tracks of the history that refutes C66 and C67 share list 0. *)
Example C66_lanes_example : exists d evs, run (dm_new "flv") (calls hist_mixed) = Ok (d, evs) /\ dm_completed d = true /\ ~ aligned evs /\
  map (fun p => (pk_index p, pk_dts p)) (lane 0 evs) = [(1, 100); (0, 190)] /\ map (fun p => (pk_index p, pk_dts p)) (lane 1 evs) = [(1, 140); (1, 180)] /\
  map (fun p => (pk_index p, pk_dts p, pk_duration p)) (delivered evs) = [(1, 140, 40); (1, 100, 90)].
Proof.
  do 2 eexists. split; [vm_compute; reflexivity|]. split; [reflexivity|]. split; [|repeat split].
  intros A. unfold aligned in A. repeat (apply Forall_cons_iff in A as [A0 A]; cbn in A0; try lia; clear A0).
Qed.

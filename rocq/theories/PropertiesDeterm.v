(** * PropertiesDeterm: C131, a session is fixed by its calls. *)
From Coq Require Import String List Permutation Sorted Lia.
From Verif Require Import Base CollectionsSpec NaluModel AacModel PacketModel DemuxModel DemuxProofs BlockQueueProofs PropertiesDemux UtilModel PropertiesSps PropertiesUnitsOut DetermSpec DetermProofs.
Import ListNotations.
Local Open Scope list_scope.

(* ---------------------------------------------------------------------------------------- *)
(** ** C131 The choices of the runtime do not show *)
(** The same calls end in the same way, failures and panics included: the same events, with packets of equal time in another order and with another packet type for sound at most. *)
Theorem C131_session : forall name h h', Forall sorting h -> Forall sorting h' -> Forall2 same_call h h' -> apart name h -> rel_res same_out (run (dm_new name) h) (run (dm_new name) h').
Proof. intros name h h' S S' C A. apply run_rel; auto using same_demuxer_refl. Qed.
(** Packets are delivered at the same times. *)
Theorem C131_times : forall name h h' d evs d' evs', Forall sorting h -> Forall sorting h' -> Forall2 same_call h h' -> apart name h -> run (dm_new name) h = Ok (d, evs) -> run (dm_new name) h' = Ok (d', evs') ->
  map pk_dts (delivered evs) = map pk_dts (delivered evs').
Proof. intros name h h' d evs d' evs' S S' C A R R'. exact (run_times h h' _ _ _ _ _ _ (wf_new name) (wf_new name) S S' C (same_demuxer_refl _) A R R'). Qed.
(** A stream whose times increase is delivered packet by packet in the same way. *)
Theorem C131_stream : forall name h h' d evs, Forall sorting h -> Forall sorting h' -> Forall2 same_call h h' -> apart name h -> run (dm_new name) h = Ok (d, evs) ->
  exists d' evs', run (dm_new name) h' = Ok (d', evs') /\ same_demuxer d d' /\ same_events evs evs' /\ map untyped (accepted evs) = map untyped (accepted evs') /\
    (aligned evs -> forall i, ascending (of_index (Z.of_nat i) (accepted evs)) -> map untyped (of_index (Z.of_nat i) (delivered evs)) = map untyped (of_index (Z.of_nat i) (delivered evs'))).
Proof.
  intros name h h' d evs S S' C A R. pose proof (C131_session name h h' S S' C A) as Re. rewrite R in Re. destruct (run (dm_new name) h') as [[d' evs']| | |] eqn:R'; cbn in Re; try contradiction. destruct Re as [D E]. cbn [fst snd] in *.
  pose proof (same_accepted _ _ E) as Ac. exists d', evs'. split; [reflexivity|]. split; [exact D|]. split; [exact E|]. split; [exact Ac|]. intros Al i As.
  assert (Ai : map untyped (of_index (Z.of_nat i) (accepted evs)) = map untyped (of_index (Z.of_nat i) (accepted evs'))) by now rewrite !index_untyped, Ac.
  pose proof (C67_order_partial _ _ _ _ S R Al i As) as P. pose proof (C67_order_partial _ _ _ _ S' R' (aligned_same _ _ E Al) i (ascending_untyped _ _ Ai As)) as P'.
  assert (Dc : dm_completed d' = dm_completed d) by (destruct D as [-> _]; reflexivity). rewrite Dc in P'. destruct (dm_completed d).
  - rewrite P, P'. assert (X : forall l, map untyped (removelast l) = removelast (map untyped l)) by (induction l as [|x [|y t] IH]; [reflexivity|reflexivity|]; cbn [map removelast] in *; now rewrite IH). now rewrite !X, !durs_untyped, Ai.
  - now rewrite P, P'.
Qed.
(** No two tracks share a buffer when tracks are opened by packets only, *)
Theorem C131_driven : forall name h, Forall (fun x => op_hook_ok x /\ packet_driven x) h -> apart name h.
Proof. intros name h F h1 h2 d e -> R. apply Forall_app in F as [F _]. destruct (reach_driven _ _ _ _ F R) as ((_ & _ & N) & _). exact N. Qed.
(** and when they do not at the end of a session. *)
Theorem C131_at_end : forall name h d evs, run (dm_new name) h = Ok (d, evs) -> NoDup (map snd (dm_map d)) -> apart name h.
Proof.
  intros name h d evs R N h1 h2 d1 e1 -> R1. rewrite run_app, R1 in R. cbn [bind] in R. destruct (run d1 h2) as [[d2 e2]| | |] eqn:R2; cbn [bind] in R; try discriminate. injection R as -> _.
  pose proof (run_wf _ _ _ _ (wf_new name) R1) as W1.
  assert (I : incl (dm_map d1) (dm_map d)) by (intros x; exact (run_map _ x _ _ _ W1 R2)).
  assert (K : NoDup (dm_map d1)) by (apply (NoDup_map_inv fst); destruct W1 as [_ ->]; apply FinFun.Injective_map_NoDup; [intros a b; lia|apply seq_NoDup]).
  clear - I K N. assert (J : forall x y, In x (dm_map d) -> In y (dm_map d) -> snd x = snd y -> x = y).
  { clear - N. induction (dm_map d) as [|z t IH]; intros x y Hx Hy E; [destruct Hx|]. cbn [map] in N. inversion N as [|? ? N1 N2]; subst. destruct Hx as [<-|Hx], Hy as [<-|Hy]; auto; exfalso; apply N1; [rewrite E|rewrite <- E]; now apply in_map. }
  induction (dm_map d1) as [|x t IH]; [constructor|]. inversion K as [|? ? K1 K2]; subst. cbn [map]. constructor; [|apply IH; [intros y Hy; apply I; now right|exact K2]].
  intros Hx. apply in_map_iff in Hx as (y & E & Hy). apply K1. replace x with y; [exact Hy|]. apply J; [apply I; now right|apply I; now left|exact E].
Qed.

(** Other choices: maps in another order, equal elements the other way round, packets from the pool. *)
Definition o_other : oracle := {| or_pick := 1; or_sort := fun l => isort (rev l); or_ms := or_ms o0; or_grow := or_grow o0; or_recycled := true |}.
Lemma other_ok : oracle_ok o_other.
Proof. intros l. destruct (o0_ok (rev l)) as [P S]. split; [|exact S]. eapply perm_trans; [apply Permutation_rev|exact P]. Qed.
(** Two tracks that share a buffer: which of them a packet goes to is left to the order of a map. *)
Definition C131_shared_calls (o : oracle) : list (oracle * op) :=
  map (pair o) [OpSetHandler; OpNewAudio 0 G711A 90000 None audio_config_zero; OpNewAudio 0 G711A 90000 None audio_config_zero; OpAudio 0 G711A [1] 10; OpAudio 0 G711A [2] 20; OpProbeComplete].
Theorem C131_shared : exists h h' d evs d' evs', Forall sorting h /\ Forall sorting h' /\ Forall2 same_call h h' /\ run (dm_new "ts") h = Ok (d, evs) /\ run (dm_new "ts") h' = Ok (d', evs') /\
  map pk_index (accepted evs) = [0; 0] /\ map pk_index (delivered evs) = [0] /\ map pk_index (accepted evs') = [1; 1] /\ map pk_index (delivered evs') = [].
Proof.
  exists (C131_shared_calls o0), (C131_shared_calls o_other). do 4 eexists. split; [repeat constructor; apply o0_ok|]. split; [repeat constructor; apply other_ok|]. split; [repeat constructor|].
  split; [vm_compute; reflexivity|]. split; [vm_compute; reflexivity|]. repeat split; reflexivity.
Qed.
(** Pictures and sound at the same times. *)
Definition C131_calls (o : oracle) : list (oracle * op) :=
  map (pair o) [OpSetHandler; OpNewVideo 0 AVCodecIdH264 1000 avcc_720; OpNewAudio 1 G711A 1000 None audio_config_zero; OpVideo 0 AVCodecIdH264 [0; 0; 0; 1; 101] true 0 0; OpAudio 1 G711A [7] 0;
                OpVideo 0 AVCodecIdH264 [0; 0; 0; 1; 97] false 40 40; OpAudio 1 G711A [8] 40; OpProbeComplete].
Example C131_example : Forall sorting (C131_calls o0) /\ Forall sorting (C131_calls o_other) /\ Forall2 same_call (C131_calls o0) (C131_calls o_other) /\ apart "flv" (C131_calls o0) /\
  ('(d, e) <- run (dm_new "flv") (C131_calls o0);; Ok (map snd (dm_map d), map (fun p => (pk_index p, pk_dts p, pk_type p)) (delivered e))) = Ok ([0; 1], [(0, 0, 2); (1, 0, 0)]) /\
  ('(d, e) <- run (dm_new "flv") (C131_calls o_other);; Ok (map snd (dm_map d), map (fun p => (pk_index p, pk_dts p, pk_type p)) (delivered e))) = Ok ([0; 1], [(1, 0, 3); (0, 0, 2)]).
Proof.
  split; [repeat constructor; apply o0_ok|]. split; [repeat constructor; apply other_ok|]. split; [repeat constructor|]. split; [|split; vm_compute; reflexivity].
  destruct (run (dm_new "flv") (C131_calls o0)) as [[d e]| | |] eqn:R; [|vm_compute in R; discriminate..]. apply (C131_at_end _ _ _ _ R).
  assert (M : ('(d, _) <- run (dm_new "flv") (C131_calls o0);; Ok (map snd (dm_map d))) = Ok [0; 1]) by (vm_compute; reflexivity). rewrite R in M. cbn [bind] in M. injection M as ->. repeat constructor; cbn; lia.
Qed.
Print Assumptions C131_session.
Print Assumptions C131_times.
Print Assumptions C131_stream.
Print Assumptions C131_driven.
Print Assumptions C131_at_end.
Print Assumptions C131_shared.

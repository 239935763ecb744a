(** * PropertiesSharedPool: C145, demuxers that share the packet pool. *)
From Verif Require Import Base CollectionsModel CollectionsSpec NaluModel RecordModel AacModel FloatModel PacketModel RingProofs LinkedListProofs BlockQueueProofs DemuxModel DemuxProofs PropertiesDemux DemuxPtrModel DemuxPtrProofs
  PropertiesDemuxPtr DetermSpec DetermProofs PropertiesDeterm SharedPoolModel SharedPoolProofs.
From Coq Require Import String Permutation List Lia.
Import ListNotations.
Local Open Scope list_scope.

(* ---------------------------------------------------------------------------------------- *)
(** ** C145: one pool, many demuxers. *)
(** However the calls of any number of demuxers are interleaved: every demuxer has a history of the list model, without any pool, with its own calls and the same choices of the runtime
    ([history_of]: only whether a packet comes from the pool is left open), and it does in the common session what it does in this history: the events are the same and its lists hold the same packets.
    The common session fails only in the way one of these histories fails. *)
Theorem C145_same : forall names l, Forall (fun x => poracle_ok (snd (fst x))) l -> exists hs : nat -> list (oracle * op), (forall i, history_of (calls_of i l) (hs i)) /\
  match run_world (world_new names) l with
  | Ok (w, e) => forall i name, nth_error names i = Some name -> exists p d, nth_error (w_parts w) i = Some p /\ run (dm_new name) (hs i) = Ok (d, events_of i e) /\
      pt_d p = with_packets d [] /\ zlen (pt_lists p) = zlen (dm_packets d) /\
      forall k ll q, idx (pt_lists p) k = Some ll -> idx (dm_packets d) k = Some q -> ll_size ll = zlen q /\ forall j v, idx q j = Some v -> exists m, ll_get ll j = Ok m /\ load (w_mem w) m = Ok v
  | r => exists i name, nth_error names i = Some name /\ failed r (run (dm_new name) (hs i))
  end.
Proof.
  intros names l O. destruct (run_world_sim l _ _ O (wsim_new names)) as (hs & Hh & R). exists hs. split; [exact Hh|].
  destruct (run_world (world_new names) l) as [[w e]| | |].
  2-4: destruct R as (i & x & N & Fx); rewrite nth_error_map in N; destruct (nth_error names i) as [n|] eqn:E; [|discriminate N]; injection N as <-; exists i, n; split; [exact E|exact Fx].
  destruct R as (xs & (F & H & Kp) & L & R). intros i name N. destruct (R i (dm_new name, [])) as ([d pss] & Nx & Rn); [rewrite nth_error_map, N; reflexivity|]. cbn [fst] in Rn.
  pose proof (forall2_nth _ _ _ F i) as X. rewrite Nx in X. destruct (nth_error (w_parts w) i) as [p|]; [|contradiction]. destruct X as (Fl & Ed & Ep). cbn [fst snd] in *. exists p, d. split; [reflexivity|]. split; [exact Rn|]. split; [exact Ep|].
  split; [rewrite Ed; unfold zlen; rewrite map_length; f_equal; clear -Fl; induction Fl; cbn; auto|]. intros k ll q Il Iq. rewrite Ed in Iq. unfold idx in Il, Iq. destruct (k <? 0); [discriminate|]. rewrite nth_error_map in Iq. pose proof (forall2_nth _ _ _ Fl (Z.to_nat k)) as X. rewrite Il in X.
  destruct (nth_error pss (Z.to_nat k)) as [ps|] eqn:Ip; [|contradiction]. injection Iq as <-. split; [rewrite (lrep_size _ _ X); unfold zlen; now rewrite map_length|]. intros j v Iv. pose proof (idx_inv _ _ _ Iv) as B. unfold idx in Iv. destruct (j <? 0) eqn:I0; [discriminate|].
  rewrite nth_error_map in Iv. destruct (nth_error ps (Z.to_nat j)) as [m|] eqn:Im; [|discriminate]. injection Iv as <-. exists m. rewrite (lrep_get _ _ _ X) by lia. unfold idx. rewrite I0, Im. split; [reflexivity|]. apply load_look. eapply ho_lt; [exact H|]. apply in_or_app. left.
  destruct (In_nth_error _ _ (in_concat_nth _ _ _ _ _ Ip Im)) as [b Q]. unfold owned. apply (in_concat_nth _ i (List.concat pss) b); [rewrite nth_error_map, Nx; reflexivity|exact Q].
Qed.

(** So a demuxer does in the common session what it does alone, with a pool of its own and with other choices of the runtime too: the same events, with packets of equal time in another order and another packet type for
    sound at most (C131), at the same times. *)
Theorem C145_alone : forall names l w e i name p h, Forall (fun x => poracle_ok (snd (fst x))) l -> run_world (world_new names) l = Ok (w, e) -> nth_error names i = Some name -> nth_error (w_parts w) i = Some p ->
  NoDup (map snd (dm_map (pt_d p))) -> Forall (fun x => poracle_ok (fst x)) h -> Forall2 (fun x y => snd x = snd y /\ po_ms (fst x) = po_ms (fst y) /\ po_grow (fst x) = po_grow (fst y)) (calls_of i l) h ->
  exists s e', run_ptr (pd_new name) h = Ok (s, e') /\ same_events (events_of i e) e' /\ map pk_dts (delivered (events_of i e)) = map pk_dts (delivered e') /\ pd_d s = pt_d p.
Proof.
  intros names l w e i name p h O Rw Nn Np Nd Oh C. destruct (C145_same names l O) as (hs & Hh & R). rewrite Rw in R. destruct (R i name Nn) as (p' & d & Np' & Rn & Ep & _). rewrite Np in Np'. injection Np' as <-.
  destruct (C120_same name h Oh) as (h' & M & Oh' & Nh & R'). assert (Oc : Forall (fun x => poracle_ok (fst x)) (calls_of i l)) by (unfold calls_of; apply Forall_map; cbn [fst]; eapply incl_Forall; [apply incl_filter|exact O]). pose proof (history_sorting _ _ Oc (Hh i)) as Oi.
  assert (Cs : Forall2 same_call (hs i) h').
  { assert (Hn : history_of h h').
    { clear - M Nh. revert h' M Nh. induction h as [|[po a] h IH]; intros [|y h'] M Nh; try discriminate M; constructor.
      - destruct (Nh 0%nat po a eq_refl) as [r X]. injection X as ->. exists r. reflexivity.
      - apply IH; [now injection M|]. intros k po' a' X. exact (Nh (S k) po' a' X). }
    clear - Hh C Hn. specialize (Hh i). revert h h' C Hn. induction Hh as [|x y lx ly [r ->] Hh IH]; intros h h' C Hn.
    - inversion C; subst. inversion Hn. constructor.
    - inversion C as [|? z ? h0 (C1 & C2 & C3) C4]; subst. inversion Hn as [|? z' ? h0' [r' ->] Hn']; subst. constructor; [repeat split; assumption|]. eapply IH; eassumption. }
  assert (A : apart name (hs i)) by (apply (C131_at_end _ _ _ _ Rn); rewrite Ep in Nd; exact Nd).
  destruct (C131_stream name (hs i) h' d (events_of i e) Oi Oh' Cs A Rn) as (d' & e' & Rn' & D & E & _). pose proof (C131_times _ _ _ _ _ _ _ Oi Oh' Cs A Rn Rn') as T. rewrite Rn' in R'.
  destruct (run_ptr (pd_new name) h) as [[s e1]| | |]; try contradiction. destruct R' as (-> & Es & _). exists s, e'. split; [reflexivity|]. split; [exact E|]. split; [exact T|]. rewrite Es, Ep. destruct D as [-> _]. reflexivity.
Qed.

(** A packet that waits in a list of one demuxer is at no other place, of this or any other demuxer, and not in the pool; and no packet is in the pool twice. *)
Theorem C145_one_place : forall names l w e, Forall (fun x => poracle_ok (snd (fst x))) l -> run_world (world_new names) l = Ok (w, e) ->
  NoDup (w_pool w) /\
  forall i k j p ll m, nth_error (w_parts w) i = Some p -> idx (pt_lists p) k = Some ll -> 0 <= j -> ll_get ll j = Ok m -> ~ In m (w_pool w) /\
    forall i' k' j' p' ll', nth_error (w_parts w) i' = Some p' -> idx (pt_lists p') k' = Some ll' -> 0 <= j' -> ll_get ll' j' = Ok m -> i' = i /\ k' = k /\ j' = j.
Proof.
  intros names l w e O Rw. destruct (run_world_sim l _ _ O (wsim_new names)) as (hs & _ & R). rewrite Rw in R. destruct R as (xs & (F & [_ N _] & _) & _).
  assert (G : forall i k j p ll m, nth_error (w_parts w) i = Some p -> idx (pt_lists p) k = Some ll -> 0 <= j -> ll_get ll j = Ok m ->
    0 <= k /\ exists x ps, nth_error xs i = Some x /\ nth_error (snd x) (Z.to_nat k) = Some ps /\ nth_error ps (Z.to_nat j) = Some m).
  { intros i k j p ll m Np Il J Gm. pose proof (idx_inv _ _ _ Il) as B. split; [lia|]. unfold idx in Il. destruct (k <? 0); [discriminate|]. pose proof (forall2_nth _ _ _ F i) as X. rewrite Np in X. destruct (nth_error xs i) as [x|]; [|contradiction]. destruct X as (Fl & _).
    pose proof (forall2_nth _ _ _ Fl (Z.to_nat k)) as X. rewrite Il in X. destruct (nth_error (snd x) (Z.to_nat k)) as [ps|] eqn:Ip; [|contradiction]. exists x, ps. split; [reflexivity|]. split; [exact Ip|]. rewrite (lrep_get _ _ _ X J) in Gm. unfold idx in Gm. destruct (j <? 0) eqn:J0; [lia|].
    destruct (nth_error ps (Z.to_nat j)); [|discriminate]. cbn in Gm. now injection Gm as <-. }
  assert (No : NoDup (owned xs)) by (rewrite <- app_assoc in N; now apply NoDup_app_remove_r in N).
  split; [now apply NoDup_app_remove_l in N|]. intros i k j p ll m Np Il J Gm. destruct (G _ _ _ _ _ _ Np Il J Gm) as (K & x & ps & Nx & Ip & Im). destruct (In_nth_error _ _ (in_concat_nth _ _ _ _ _ Ip Im)) as [b Q].
  assert (Nx' : nth_error (map (fun x => List.concat (snd x)) xs) i = Some (List.concat (snd x))) by (rewrite nth_error_map, Nx; reflexivity). split.
  - intros Ipool. eapply nodup_apart; [exact N| |exact Ipool]. apply in_or_app. left. exact (in_concat_nth _ _ _ _ _ Nx' Q).
  - intros i' k' j' p' ll' Np' Il' J' Gm'. destruct (G _ _ _ _ _ _ Np' Il' J' Gm') as (K' & x' & ps' & Nx1 & Ip' & Im'). destruct (In_nth_error _ _ (in_concat_nth _ _ _ _ _ Ip' Im')) as [b' Q'].
    assert (Nx1' : nth_error (map (fun x => List.concat (snd x)) xs) i' = Some (List.concat (snd x'))) by (rewrite nth_error_map, Nx1; reflexivity).
    destruct (concat_place _ No _ _ _ _ _ _ _ Nx' Q Nx1' Q') as [-> _]. rewrite Nx in Nx1. injection Nx1 as <-.
    destruct (concat_place _ (nodup_concat_in _ _ _ No Nx') _ _ _ _ _ _ _ Ip Im Ip' Im') as [E1 E2]. repeat split; lia.
Qed.

(** What a demuxer without AutoFree has delivered stays as it was, whatever the other demuxers do: no demuxer gets this packet from the pool. *)
Theorem C145_kept : forall names l w e m v, Forall (fun x => poracle_ok (snd (fst x))) l -> run_world (world_new names) l = Ok (w, e) -> In (m, v) (w_kept w) ->
  load (w_mem w) m = Ok v /\ ~ In m (w_pool w).
Proof.
  intros names l w e m v O Rw I. destruct (run_world_sim l _ _ O (wsim_new names)) as (hs & _ & R). rewrite Rw in R. destruct R as (xs & (_ & H & Kp) & _).
  assert (Im : In m (owned xs ++ map fst (w_kept w))) by (apply in_or_app; right; now apply (in_map fst) in I). split.
  - rewrite load_look by (eapply ho_lt; eauto). unfold kept_ok in Kp. rewrite Forall_forall in Kp. specialize (Kp _ I). cbn in Kp. now rewrite Kp.
  - destruct H as [_ N _]. intros Q. exact (nodup_apart _ _ _ N Im Q).
Qed.

(** Two demuxers with one G.711 track each. The second takes from the pool what the first has freed: five packets use the memory of three. *)
Definition c145_calls : list (nat * poracle * op) :=
  [(0%nat, po0 GNew, OpSetHandler); (1%nat, po0 GNew, OpSetHandler); (0%nat, po0 GNew, OpSetAutoFree true); (0%nat, po0 (GOwn 0), OpAudio 0 G711A [1] 300); (0%nat, po0 (GOwn 0), OpAudio 0 G711A [2] 600); (0%nat, po0 (GOwn 0), OpAudio 0 G711A [3] 900);
   (1%nat, po0 (GOwn 0), OpAudio 0 G711A [11] 20); (1%nat, po0 (GOwn 0), OpAudio 0 G711A [12] 40)].
Example C145_example : Forall (fun x => poracle_ok (snd (fst x))) c145_calls /\
  match run_world (world_new ["flv"; "ts"]%string) c145_calls with
  | Ok (w, e) => List.length (w_mem w) = 3%nat /\ w_pool w = [] /\ map pk_dts (delivered (events_of 0 e)) = [300; 600] /\ delivered (events_of 1 e) = [] /\
      map (fun p => map (fun ll => ll_get ll 0) (pt_lists p)) (w_parts w) = [[Ok 0%nat]; [Ok 1%nat]]
  | _ => False end.
Proof. split; [repeat (constructor; [apply po0_ok|]); constructor|vm_compute; auto 10]. Qed.

Print Assumptions C145_same.
Print Assumptions C145_alone.
Print Assumptions C145_one_place.
Print Assumptions C145_kept.

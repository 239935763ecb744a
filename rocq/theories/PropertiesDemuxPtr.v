(** * PropertiesDemuxPtr: C120, C121, the demuxer over linked lists of packet pointers and the packet pool. *)
From Verif Require Import Base CollectionsModel CollectionsSpec NaluModel RecordModel AacModel FloatModel PacketModel RingProofs LinkedListProofs BlockQueueProofs DemuxModel DemuxProofs PropertiesDemux DemuxPtrModel DemuxPtrProofs.
From Coq Require Import String Permutation Sorted List.
Import ListNotations.
Local Open Scope list_scope.

(** ** Data for the examples and witnesses: a sort that moves positions. *)
Fixpoint pinsert (l : list packet) (j : nat) (js : list nat) : list nat :=
  match js with [] => [j] | i :: t => if pk_dts (nth j l pkt_zero) <=? pk_dts (nth i l pkt_zero) then j :: js else i :: pinsert l j t end.
Definition psort (l : list packet) : list nat := fold_right (pinsert l) [] (seq 0 (List.length l)).
Definition po0 (c : pool_choice) : poracle := {| po_pick := 0; po_perm := psort; po_ms := fun _ _ => 0; po_grow := fun n => n; po_get := c |}.
Lemma pinsert_perm l j js : Permutation (j :: js) (pinsert l j js).
Proof. induction js as [|i t IH]; cbn [pinsert]; [auto|]. destruct (_ <=? _); [auto|]. rewrite perm_swap. now constructor. Qed.
Lemma pinsert_order l j js : order l (pinsert l j js) = insert (nth j l pkt_zero) (order l js).
Proof. induction js as [|i t IH]; [reflexivity|]. cbn [pinsert order map insert]. destruct (_ <=? _); [reflexivity|]. cbn [map]. f_equal. exact IH. Qed.
Lemma po0_ok c : poracle_ok (po0 c).
Proof.
  intros l. cbn [po0 po_perm]. unfold psort. generalize (seq 0 (List.length l)) as js. induction js as [|j js [IH1 IH2]]; cbn [fold_right]; [split; constructor|]. split; [now rewrite <- pinsert_perm, IH1|]. rewrite pinsert_order. now apply insert_sorted.
Qed.

(* ---------------------------------------------------------------------------------------- *)
(** ** C120: packets behind pointers. *)
(** For every history of the demuxer over linked lists, packet pointers and the pool there is a history of the list model with the same calls and the same choices of the runtime ([choices po r], where [r]
    says whether the packet taken from the pool was a used one). The handler and the pipeline see the same, or both panic; and afterwards the lists hold the same packets. *)
Theorem C120_same : forall name h, Forall (fun x => poracle_ok (fst x)) h -> exists h', map snd h' = map snd h /\ Forall (fun x => oracle_ok (fst x)) h' /\
  (forall i po a, nth_error h i = Some (po, a) -> exists r, nth_error h' i = Some (choices po r, a)) /\
  match run_ptr (pd_new name) h, run (dm_new name) h' with
  | Ok (s, e), Ok (d, e') =>
    e = e' /\ pd_d s = with_packets d [] /\ zlen (pd_lists s) = zlen (dm_packets d) /\
    forall k l q, idx (pd_lists s) k = Some l -> idx (dm_packets d) k = Some q ->
      ll_size l = zlen q /\ forall i v, idx q i = Some v -> exists p, ll_get l i = Ok p /\ load (pd_mem s) p = Ok v
  | Err, Err => True | Panic, Panic => True | NoFuel, NoFuel => True
  | _, _ => False
  end.
Proof.
  intros name h O. destruct (run_sim h _ _ O (psim_new name)) as (h' & M & Oh & Nh & R). exists h'. split; [exact M|]. split; [exact Oh|]. split; [exact Nh|].
  destruct (run_ptr (pd_new name) h) as [[s e]| | |], (run (dm_new name) h') as [[d e']| | |]; cbn in R; try contradiction; auto. destruct R as ((pss & F & E & H & Kp & Ed) & Ee). cbn [fst snd] in *. subst e'. split; [reflexivity|]. split; [exact Ed|].
  split; [rewrite E; unfold zlen; rewrite map_length; f_equal; clear -F; induction F; cbn; auto|]. intros k l q Il Iq. rewrite E in Iq. unfold idx in Il, Iq. destruct (k <? 0); [discriminate|]. rewrite nth_error_map in Iq. pose proof (forall2_nth _ _ _ F (Z.to_nat k)) as X. rewrite Il in X.
  destruct (nth_error pss (Z.to_nat k)) as [ps|] eqn:Ip; [|contradiction]. injection Iq as <-. split; [rewrite (lrep_size _ _ X); unfold zlen; now rewrite map_length|]. intros i v Iv. pose proof (idx_inv _ _ _ Iv) as B. unfold idx in Iv. destruct (i <? 0) eqn:I0; [discriminate|].
  rewrite nth_error_map in Iv. destruct (nth_error ps (Z.to_nat i)) as [p|] eqn:In; [|discriminate]. injection Iv as <-. exists p. rewrite (lrep_get _ _ _ X) by lia. unfold idx. rewrite I0, In. split; [reflexivity|]. apply load_look. eapply ho_lt; [exact H|]. apply in_or_app. left. apply in_concat. exists ps. split; eapply nth_error_In; eauto.
Qed.
(** Each packet is in one place: a packet waiting in a list is at no other place of the lists and not in the pool, and no packet is in the pool twice. *)
Theorem C120_one_place : forall name h s e, Forall (fun x => poracle_ok (fst x)) h -> run_ptr (pd_new name) h = Ok (s, e) ->
  NoDup (pd_pool s) /\
  forall k i l p, idx (pd_lists s) k = Some l -> 0 <= i -> ll_get l i = Ok p -> ~ In p (pd_pool s) /\
    forall k' i' l', idx (pd_lists s) k' = Some l' -> 0 <= i' -> ll_get l' i' = Ok p -> k' = k /\ i' = i.
Proof.
  intros name h s e O Rn. destruct (run_sim h _ _ O (psim_new name)) as (h' & _ & _ & _ & R). rewrite Rn in R. destruct (run (dm_new name) h') as [[d e']| | |]; cbn in R; try contradiction. destruct R as ((pss & F & _ & [_ N _] & _ & _) & _). cbn [fst] in *. clear -F N.
  assert (G : forall k i l p, idx (pd_lists s) k = Some l -> 0 <= i -> ll_get l i = Ok p -> exists ps, idx pss k = Some ps /\ idx ps i = Some p).
  { intros k i l p Il I G. unfold idx in Il |- * at 1. destruct (k <? 0); [discriminate|]. pose proof (forall2_nth _ _ _ F (Z.to_nat k)) as X. rewrite Il in X. destruct (nth_error pss _) as [ps|]; [|contradiction]. exists ps. split; [reflexivity|]. rewrite (lrep_get _ _ _ X I) in G. destruct (idx ps i); [|discriminate]. cbn in G. now injection G as <-. }
  assert (U : forall k i k' i' ps ps' p, idx pss k = Some ps -> idx ps i = Some p -> idx pss k' = Some ps' -> idx ps' i' = Some p -> k' = k /\ i' = i).
  { rewrite <- app_assoc in N. apply NoDup_app_remove_r in N. clear -N. induction pss as [|x pss IH]; intros k i k' i' ps ps' p A B C D; [apply idx_inv in A; change (zlen (@nil (list nat))) with 0 in A; lia|].
    assert (Hin : forall k ps i, idx pss k = Some ps -> idx ps i = Some p -> In p (List.concat pss)) by (intros k0 ps0 i0 A0 B0; unfold idx in A0, B0; destruct (k0 <? 0); [discriminate|]; destruct (i0 <? 0); [discriminate|]; apply in_concat; exists ps0; split; eapply nth_error_In; eauto).
    assert (Hx : forall i, idx x i = Some p -> In p x) by (intros i0 B0; unfold idx in B0; destruct (i0 <? 0); [discriminate|]; eapply nth_error_In; eauto).
    assert (Sh : forall k ps, k <> 0 -> idx (x :: pss) k = Some ps -> idx pss (k - 1) = Some ps) by (intros k0 ps0 K0 I0; pose proof (idx_inv _ _ _ I0); unfold idx in *; destruct (k0 <? 0) eqn:?; [discriminate|]; replace (k0 - 1 <? 0) with false by lia; replace (Z.to_nat k0) with (S (Z.to_nat (k0 - 1))) in I0 by lia; exact I0).
    cbn [List.concat] in N. assert (Nx : NoDup x) by now apply NoDup_app_remove_r in N. assert (Np : NoDup (List.concat pss)) by now apply NoDup_app_remove_l in N.
    assert (Dis : In p x -> In p (List.concat pss) -> False). { clear -N. induction x as [|y x IH]; intros X Y; [exact X|]. cbn [app] in N. apply NoDup_cons_iff in N as [N1 N2]. destruct X as [->|X]; [apply N1; apply in_or_app; auto|auto]. }
    destruct (Z.eq_dec k 0) as [->|K], (Z.eq_dec k' 0) as [->|K'].
    - injection A as <-. injection C as <-. split; [reflexivity|]. unfold idx in B, D. destruct (i <? 0) eqn:?; [discriminate|]. destruct (i' <? 0) eqn:?; [discriminate|]. rewrite NoDup_nth_error in Nx. assert (Z.to_nat i' = Z.to_nat i); [|lia]. apply Nx; [apply nth_error_Some; congruence|congruence].
    - injection A as <-. exfalso. eauto.
    - injection C as <-. exfalso. eauto.
    - destruct (IH Np (k - 1) i (k' - 1) i' ps ps' p) as [E1 E2]; auto. split; lia. }
  split; [now apply NoDup_app_remove_l in N|]. intros k i l p Il I Gp. destruct (G _ _ _ _ Il I Gp) as (ps & A & B). split.
  - intros Ip. assert (Ic : In p (List.concat pss ++ map fst (pd_kept s))).
    { apply in_or_app. left. unfold idx in A, B. destruct (k <? 0); [discriminate|]. destruct (i <? 0); [discriminate|]. apply in_concat. exists ps. split; eapply nth_error_In; eauto. }
    revert N Ic. generalize (List.concat pss ++ map fst (pd_kept s)) as x. clear -Ip. induction x as [|y x IH]; intros N X; [exact X|]. cbn [app] in N. apply NoDup_cons_iff in N as [N1 N2]. destruct X as [->|X]; [apply N1; apply in_or_app; auto|auto].
  - intros k' i' l' Il' I' Gp'. destruct (G _ _ _ _ Il' I' Gp') as (ps' & C & D). eapply U; eauto.
Qed.

(* ---------------------------------------------------------------------------------------- *)
(** ** C121: the packet given to the handler stays as it is. *)
(** A G.711 track and four packets, on a demuxer that frees what it has delivered or not. *)
Definition c121_ops (free : bool) : list (poracle * op) :=
  (po0 GNew, OpSetHandler) :: (po0 GNew, OpSetAutoFree free) :: map (fun t => (po0 (GOwn 0), OpAudio 0 G711A [t] (300 * t))) [1; 2; 3; 4].
Lemma c121_sorting free : Forall (fun x => poracle_ok (fst x)) (c121_ops free).
Proof. repeat (constructor; [apply po0_ok|]). constructor. Qed.
Definition c121_seen (r : res (pdm * list event)) : option (list (Z * list Z) * list (Z * list Z) * list nat * list nat) :=
  match r with
  | Ok (s, e) => Some (map (fun p => (pk_dts p, pk_data p)) (delivered e), map (fun p => (pk_dts p, pk_data p)) (pd_mem s), pd_pool s, map fst (pd_kept s))
  | _ => None
  end.
(** Without AutoFree every packet delivered is still there. With AutoFree the three packets delivered are gone; the four used the memory of two. *)
Example C121_example :
  c121_seen (run_ptr (pd_new "flv") (c121_ops false)) = Some ([(300, [1]); (600, [2]); (900, [3])], [(300, [1]); (600, [2]); (900, [3]); (1200, [4])], [], [2; 1; 0]%nat) /\
  c121_seen (run_ptr (pd_new "flv") (c121_ops true)) = Some ([(300, [1]); (600, [2]); (900, [3])], [(0, []); (1200, [4])], [0]%nat, []).
Proof. split; vm_compute; reflexivity. Qed.
Theorem C121_keep_refuted : ~ (forall name h s e v, Forall (fun x => poracle_ok (fst x)) h -> run_ptr (pd_new name) h = Ok (s, e) -> In v (delivered e) -> exists p, load (pd_mem s) p = Ok v).
Proof.
  intros H. destruct (run_ptr (pd_new "flv") (c121_ops true)) as [[s e]| | |] eqn:R; [|vm_compute in R; discriminate R..].
  pose proof (H "flv"%string _ s e (hd pkt_zero (delivered e)) (c121_sorting true) R) as X. vm_compute in R. injection R as <- <-. destruct X as [p L]; [left; reflexivity|]. destruct p as [|[|[|p]]]; vm_compute in L; discriminate L.
Qed.
(** Without AutoFree it does: the packets delivered ([pd_kept], in order) stay as they were when they were delivered, whatever is called afterwards, they are different objects, and none of them is in the pool. *)
Theorem C121_keep_partial : forall name h s e, Forall (fun x => poracle_ok (fst x)) h -> run_ptr (pd_new name) h = Ok (s, e) ->
  (forall p v, In (p, v) (pd_kept s) -> load (pd_mem s) p = Ok v /\ ~ In p (pd_pool s)) /\ NoDup (map fst (pd_kept s)) /\
  (Forall (fun x => frees (snd x) = false) h -> map snd (rev (pd_kept s)) = delivered e) /\
  (forall h' s' e', run_ptr s h' = Ok (s', e') -> exists new, pd_kept s' = new ++ pd_kept s).
Proof.
  intros name h s e O Rn. destruct (run_sim h _ _ O (psim_new name)) as (h' & _ & _ & _ & R). rewrite Rn in R. destruct (run (dm_new name) h') as [[d e']| | |]; cbn in R; try contradiction. destruct R as ((pss & F & _ & H & Kp & _) & _). cbn [fst] in *. split; [|split; [|split]].
  - intros p v I. assert (Ip : In p (List.concat pss ++ map fst (pd_kept s))) by (apply in_or_app; right; now apply (in_map fst) in I). split.
    + rewrite load_look by (eapply ho_lt; eauto). unfold kept_ok in Kp. rewrite Forall_forall in Kp. specialize (Kp _ I). cbn in Kp. now rewrite Kp.
    + intros Q. destruct H as [_ N _]. revert N Ip. generalize (List.concat pss ++ map fst (pd_kept s)) as x. clear -Q. induction x as [|y x IH]; intros N X; [exact X|]. cbn [app] in N. apply NoDup_cons_iff in N as [N1 N2]. destruct X as [->|X]; [apply N1; apply in_or_app; auto|auto].
  - destruct H as [_ N _]. apply NoDup_app_remove_r in N. now apply NoDup_app_remove_l in N.
  - intros A. destruct (run_kept _ _ _ _ Rn) as (new & K & D). rewrite K. cbn [pd_new pd_kept]. rewrite app_nil_r. now apply D.
  - intros h2 s2 e2 R2. destruct (run_kept _ _ _ _ R2) as (new & K & _). eauto.
Qed.
(** With AutoFree nothing is kept: every packet delivered is blank after the call. *)
Theorem C121_blank : forall d mem pool kept p mem' pool' kept' e, dm_autofree d = true -> forward_ptr d mem pool kept p = Ok (mem', pool', kept', e) ->
  load mem' p = Ok (freed pkt_zero) /\ pool' = p :: pool /\ exists v b, load mem p = Ok v /\ e = [EvPacket v; EvDiscardHead b].
Proof.
  intros d mem pool kept p mem' pool' kept' e A. unfold forward_ptr. destruct (load mem p) as [v| | |] eqn:L; cbn [bind]; try discriminate. destruct (negb _); [discriminate|]. rewrite A. destruct (map_find _ _) as [b|]; [|discriminate].
  unfold load, store in *. destruct (nth_error mem p) eqn:N; [|discriminate]. cbn [bind]. intros E. injection E as <- <- <- <-. split; [rewrite set_nth_same by (apply nth_error_Some; congruence); reflexivity|]. split; [reflexivity|]. eauto.
Qed.

(** The history of [c121_ops true] in the list model: the last two packets are used ones. *)
Example C120_example :
  match run_ptr (pd_new "flv") (c121_ops true), run (dm_new "flv") (map (fun x => (choices (po0 GNew) (fst x), snd x)) (combine [false; false; false; false; true; true] (map snd (c121_ops true)))) with
  | Ok (s, e), Ok (d, e') => e = e' /\ zlen (delivered e) = 3 /\ map (map pk_dts) (dm_packets d) = [[1200]] /\ map ll_size (pd_lists s) = [1] | _, _ => False end.
Proof. vm_compute. repeat split. Qed.

Print Assumptions C120_same.
Print Assumptions C120_one_place.
Print Assumptions C121_keep_refuted.
Print Assumptions C121_keep_partial.
Print Assumptions C121_blank.

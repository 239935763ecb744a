(** * PropertiesDeliveryOrder: C86 without a condition on the timestamps. *)
From Verif Require Import Base BlockModel PacketModel DemuxModel DemuxProofs DeliverySpec DeliveryProofs PropertiesDemux PropertiesDelivery SystemSpec SystemProofs.
From Coq Require Import String Sorted Permutation List.
Import ListNotations.
Local Open Scope list_scope.

Lemma fifo_run_snoc b h : forall q d o a, fifo_run b q d (h ++ [(o, a)]) =
  match fifo_run b q d h, run d h with
  | Some (l, q1), Ok (d1, _) =>
    match step o d1 a with
    | Ok (d2, e) => match fifo_events b (push_block b a q1) e with Some (out, q2) => Some (l ++ [(e, out)], q2) | None => None end
    | _ => None
    end
  | _, _ => None
  end.
Proof.
  induction h as [|[o1 a1] t IH]; intros q d o a.
  - cbn. destruct (step o d a) as [[d1 e]| | |]; reflexivity.
  - cbn [app fifo_run run]. destruct (step o1 d a1) as [[d1 e]| | |]; try reflexivity. cbn [bind].
    destruct (fifo_events b (push_block b a1 q) e) as [[out q1]|]; [|reflexivity]. rewrite IH.
    destruct (fifo_run b q1 d1 t) as [[l q2]|]; [|reflexivity]. destruct (run d1 t) as [[d2 e2]| | |]; try reflexivity. cbn [bind].
    destruct (step o d2 a) as [[d3 e3]| | |]; try reflexivity. now destruct (fifo_events b (push_block b a q2) e3) as [[out3 q3]|].
Qed.

(** With paired releases a list of events releases as many blocks as it delivers packets of the buffer. *)
Lemma fifo_paired b W n : forall e D, (length e <= n)%nat -> paired true e = true -> discards e = [] -> length D = length (on_buffer b (delivered e)) ->
  fifo_events b (D ++ W) e = Some (D, W).
Proof.
  induction n as [|n IH]; intros e D L P Di E.
  - destruct e; [|cbn in L; lia]. destruct D; [reflexivity|discriminate].
  - destruct e as [|[] e]; cbn [paired] in P; cbn [fifo_events]; try discriminate;
      try (apply IH; [cbn in L; lia|exact P|exact Di|exact E]).
    + destruct D; [reflexivity|discriminate].
    + destruct e as [|[] e]; try discriminate. apply andb_true_iff in P as [P1 P]. apply Z.eqb_eq in P1. rewrite P1 in *.
      cbn [delivered flat_map app on_buffer filter] in E. fold (delivered e) in E. cbn [fifo_events]. destruct (pk_buffer p =? b) eqn:Eb.
      * destruct D as [|x D]; [discriminate|]. cbn [app]. rewrite (IH e D); [reflexivity|cbn in L; lia|exact P|exact Di|]. cbn in E. injection E as E. exact E.
      * apply IH; [cbn in L; lia|exact P|exact Di|exact E].
Qed.

Lemma step_fifo b d d' o a e : oracle_ok o -> live d -> calm d -> delivery_op (o, a) -> step o d a = Ok (d', e) -> paired true e = true ->
  (exists D, map tag (waiting b d) ++ map tag (on_buffer b (accepted e)) = D ++ map tag (waiting b d') /\ Permutation (map tag (on_buffer b (delivered e))) D) ->
  exists out, fifo_events b (push_block b a (map pk_data (waiting b d))) e = Some (out, map pk_data (waiting b d')) /\ Permutation (map pk_data (on_buffer b (delivered e))) out.
Proof.
  intros O Lv C Da S P (D & E & Pm). pose proof (step_shape _ _ _ _ _ Lv C Da S) as Sh.
  assert (E' : map pk_data (waiting b d) ++ map pk_data (on_buffer b (accepted e)) = map snd D ++ map pk_data (waiting b d')).
  { apply (f_equal (map snd)) in E. rewrite !map_app, !map_map in E. exact E. }
  assert (Pm' : Permutation (map pk_data (on_buffer b (delivered e))) (map snd D)).
  { apply (Permutation_map snd) in Pm. rewrite map_map in Pm. exact Pm. }
  assert (Ln : length (map snd D) = length (on_buffer b (delivered e))) by (apply Permutation_length in Pm'; rewrite map_length in Pm'; auto).
  unfold push_block. destruct (call_block a) as [[buf data]|].
  - destruct Sh as [(-> & Ek)|(p & m & r & -> & Eb & Ed & _ & Ar & Dr)].
    + exists []. cbn [delivered flat_map on_buffer filter map]. split; [|constructor]. unfold waiting. rewrite Ek. cbn [fifo_events]. destruct (buf =? b) eqn:X; [|reflexivity].
      set (q := map pk_data _). destruct (q ++ [data]) eqn:Y; [destruct q; discriminate|]. rewrite <- Y, removelast_snoc. reflexivity.
    + exists (map snd D). split; [|exact Pm']. cbn [fifo_events].
      replace (if buf =? b then map pk_data (waiting b d) ++ [data] else map pk_data (waiting b d)) with (map snd D ++ map pk_data (waiting b d')).
      * eapply fifo_paired; [reflexivity|exact P|exact Dr|exact Ln].
      * rewrite <- E'. change (accepted (EvAdd p m :: r)) with (p :: accepted r). rewrite Ar. cbn [on_buffer filter]. rewrite Eb. destruct (buf =? b); cbn [map]; [now rewrite Ed|apply app_nil_r].
  - destruct Sh as [Ae De]. exists (map snd D). split; [|exact Pm']. rewrite Ae in E'. cbn [on_buffer filter map] in E'. rewrite app_nil_r in E'. rewrite E'. eapply fifo_paired; [reflexivity|exact P|exact De|exact Ln].
Qed.

(** Whatever the timestamps: no release ever meets an empty pipeline, in every call the blocks released are those of the packets
    delivered in it, perhaps in another order, and the blocks left are those of the packets still waiting, in order. *)
Theorem C86_release_any_order : forall b name o0 h d evs, Forall well_behaved ((o0, OpSetAutoFree true) :: h) -> Forall delivery_op h ->
  run (dm_new name) ((o0, OpSetAutoFree true) :: h) = Ok (d, evs) -> aligned evs -> NoDup (map snd (dm_map d)) ->
  exists l, fifo_run b [] (dm_new name) ((o0, OpSetAutoFree true) :: h) = Some (l, map pk_data (waiting b d)) /\ List.concat (map fst l) = evs /\
    Forall (fun x => Permutation (map pk_data (on_buffer b (delivered (fst x)))) (snd x)) l.
Proof.
  intros b name o0 h. induction h as [|[o a] t IH] using rev_ind; intros d evs F D R Al N.
  - cbn in R. injection R as <- <-. eexists. split; [reflexivity|]. split; [reflexivity|]. constructor; [constructor|constructor].
  - rewrite app_comm_cons in *. apply Forall_app in F as [F Fa]. apply Forall_inv in Fa. apply Forall_app in D as [D Da]. apply Forall_inv in Da.
    pose proof R as R0. rewrite run_app in R. destruct (run (dm_new name) ((o0, OpSetAutoFree true) :: t)) as [[d1 e1]| | |] eqn:R1; cbn [bind] in R; try discriminate.
    cbn [run bind] in R. destruct (step o d1 a) as [[d2 e2]| | |] eqn:S; cbn [bind] in R; try discriminate. injection R as <- <-. rewrite app_nil_r in *.
    pose proof (reach_live _ _ _ _ F R1) as Lv. destruct (reach_balanced name _ d1 e1 (Forall_impl sorting (fun x => @proj1 _ _) F) R1) as (W & _ & B & St).
    assert (F' : Forall well_behaved ((o0, OpSetAutoFree true) :: t ++ [(o, a)])) by (rewrite app_comm_cons; apply Forall_app; split; auto).
    rewrite <- app_comm_cons in R0. pose proof (reach_live _ _ _ _ F' R0) as (W2 & _ & Or2).
    destruct (reach_balanced name _ d2 (e1 ++ e2) (Forall_impl sorting (fun x => @proj1 _ _) F') R0) as (_ & _ & B2 & St2).
    assert (Oa : Forall (origin (dm_map d2)) (accepted (e1 ++ e2))) by (eapply reach_accepted; [exact F'| |exact R0]; apply Forall_app; auto).
    pose proof Al as Al'. unfold aligned in Al'. apply Forall_app in Al' as [Al1 _].
    pose proof (reach_calm _ _ _ _ _ D R1) as C. destruct (step_calm _ _ _ _ _ W C Da S) as [_ (m & Em)].
    assert (N1 : NoDup (map snd (dm_map d1))) by (rewrite Em, map_app in N; now apply NoDup_app_l in N).
    destruct (IH d1 e1 F D eq_refl Al1 N1) as (l & E & El & Fl). rewrite fifo_run_snoc, E, R1, S.
    assert (Or1 : Forall (origin (dm_map d2)) (List.concat (dm_packets d1))).
    { eapply origin_incl; [apply Lv|]. rewrite Em. intros j c. apply map_find_ext. }
    destruct Fa as [O Fa].
    assert (Pr : paired true e2 = true).
    { destruct Lv as (L1 & L2 & L3). destruct (step_origin _ _ _ _ _ O L1 L2 L3 S) as [_ P]. rewrite (proj1 C) in P. apply P. clear -Da. destruct a; cbn in *; auto. }
    destruct (step_fifo b d1 d2 o a e2 O Lv C Da S Pr) as (out & Eo & Po).
    + eapply buffer_leave; eauto. intros Cd. now apply (step_ext _ _ _ _ _ W S).
    + rewrite Eo. eexists. split; [reflexivity|]. split.
      * rewrite map_app, concat_app, El. cbn [map fst List.concat]. now rewrite app_nil_r.
      * apply Forall_app. split; [exact Fl|]. constructor; [exact Po|constructor].
Qed.
Print Assumptions C86_release_any_order.
(** The history of [C86_release_refuted]: the packet [2] is delivered first and releases the block of [1]; only [3] is left. *)
Example C86_any_order_example : match fifo_run 0 [] (dm_new "ps") (calls hist_reorder) with
  | Some (l, q) => (map (fun x => (map pk_data (delivered (fst x)), snd x)) (skipn 5 l), q) | None => ([], []) end = ([([[2]; [1]], [[1]; [2]])], [[3]]).
Proof. vm_compute. reflexivity. Qed.

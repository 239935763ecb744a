(** * LoadProofs: what waits in the demuxer, from the calls; light sessions fit. *)
From Coq Require Import String List Permutation Lia.
From Verif Require Import Base CollectionsSpec BlockModel BlockSpec PacketModel DemuxModel DemuxProofs DeliverySpec DeliveryProofs TrackSpec TrackProofs
  SystemSpec SystemProofs SystemGrowSpec SystemGrowProofs RecordingProofs IntakeSpec IntakeProofs LoadSpec.
Import ListNotations.
Local Open Scope list_scope.

Lemma map_only {A B} (f : A -> B) l : map f (last_only l) = last_only (map f l).
Proof. unfold last_only. rewrite <- map_rev. now destruct (rev l). Qed.
Lemma only_last_data l : map pk_data (only_last (durs l)) = last_only (map pk_data l).
Proof.
  destruct l as [|q t _] using rev_ind; [reflexivity|]. destruct (durs_last t q) as (x & ->). rewrite only_last_snoc, map_app. unfold last_only. now rewrite rev_app_distr.
Qed.
Lemma buffer_payloads b l : for_buffer b (map payload_of l) = map payload_of (filter (fun p => pk_buffer p =? b) l).
Proof. unfold for_buffer. induction l as [|p t IH]; [reflexivity|]. cbn [map filter]. change (payload_buffer (payload_of p)) with (pk_buffer p). destruct (pk_buffer p =? b); cbn [map]; now rewrite IH. Qed.
Lemma payload_datas l : map payload_data (map payload_of l) = map pk_data l.
Proof. rewrite map_map. reflexivity. Qed.

Lemma hooked h : Forall sorting h -> Forall no_hook h -> Forall well_behaved h.
Proof.
  intros So Nh. apply Forall_forall. intros [o a] I. rewrite Forall_forall in So, Nh. split; [now apply So|]. specialize (Nh _ I). unfold op_hook_ok, no_hook in *. cbn [snd] in *. destruct a; auto. destruct f; [contradiction|exact Logic.I].
Qed.

Lemma waits name h d evs : Forall sorting h -> Forall no_hook h -> run (dm_new name) h = Ok (d, evs) -> aligned evs -> NoDup (map snd (dm_map d)) ->
  forall b, exists refused kept, for_buffer b (payloads h) = refused ++ kept /\ kept = for_buffer b (map payload_of (accepted evs)) /\
    map pk_data (waiting b d) = map payload_data (if dm_completed d then last_only kept else kept).
Proof.
  intros So Nh R Al N b. destruct (reach_balanced _ _ _ _ So R) as (W & _ & _ & St). pose proof (indexed_streams _ _ St Al) as X. destruct (reach_live _ _ _ _ (hooked _ So Nh) R) as (_ & _ & Or).
  destruct (reach_packets _ _ _ _ Nh R) as [_ P]. destruct (reach_intake _ _ _ _ Nh R b) as [(refused & E) _].
  exists refused, (for_buffer b (map payload_of (accepted evs))). split; [exact E|]. split; [reflexivity|]. rewrite buffer_payloads.
  assert (Oa : Forall (origin (dm_map d)) (accepted evs)).
  { eapply Forall_impl; [|exact P]. intros p (_ & s & _ & _ & I). unfold origin. apply map_find_in; [now apply wf_nodup|exact I]. }
  destruct (buffer_dec (dm_map d) b) as [(i & I)|Nb].
  - rewrite (waiting_nth d i b W N X Or I), (waiting_index _ i b _ (wf_nodup d W) N I Oa).
    assert (B : 0 <= i < zlen (dm_tracks d)) by (apply wf_key; auto; change i with (fst (i, b)); now apply in_map).
    destruct (St Al (Z.to_nat i)) as [S1 S2]. rewrite Z2Nat.id in S1, S2 by lia. destruct (dm_completed d).
    + destruct (S2 eq_refl) as (-> & _). now rewrite map_only, payload_datas, only_last_data.
    + destruct (S1 eq_refl) as (_ & ->). now rewrite payload_datas, (proj1 (durs_data _)).
  - unfold waiting. rewrite (waiting_none _ _ _ Nb Or), (waiting_none _ _ _ Nb Oa). now destruct (dm_completed d).
Qed.

Lemma bytes_total l : bytes_of l = total (map (fun x => zlen x) (map pk_data l)).
Proof. induction l as [|p t IH]; [reflexivity|]. cbn [map]. unfold bytes_of, total in *. cbn [fold_right]. rewrite <- IH. lia. Qed.
Lemma total_app a b : total (a ++ b) = total a + total b.
Proof. induction a as [|x t IH]; [reflexivity|]. cbn [app]. unfold total in *. cbn [fold_right]. rewrite IH. lia. Qed.
Lemma total_sizes l : 0 <= total (map (fun x : payload => zlen (payload_data x)) l).
Proof. induction l as [|x t IH]; cbn [map]; unfold total in *; cbn [fold_right]; [lia|]. pose proof (zlen_nonneg (payload_data x)). lia. Qed.

Lemma waiting_total name h d evs : Forall sorting h -> Forall no_hook h -> run (dm_new name) h = Ok (d, evs) -> aligned evs -> NoDup (map snd (dm_map d)) ->
  forall b, bytes_of (waiting b d) <= total (sizes b h) /\ (dm_completed d = true -> bytes_of (waiting b d) <= last (sizes b h) 0).
Proof.
  intros So Nh R Al N b. destruct (waits _ _ _ _ So Nh R Al N b) as (refused & kept & E & _ & Wt). rewrite bytes_total, Wt. unfold sizes. rewrite E.
  assert (Nn : forall l : list payload, 0 <= last (map (fun x => zlen (payload_data x)) l) 0).
  { intros l. destruct l as [|x t _] using rev_ind; [cbn; lia|]. rewrite map_app. cbn [map]. rewrite last_last. apply zlen_nonneg. }
  assert (L : total (map (fun x => zlen x) (map payload_data (last_only kept))) <= last (map (fun x => zlen (payload_data x)) (refused ++ kept)) 0).
  { destruct kept as [|x t _] using rev_ind; [cbn; apply Nn|]. unfold last_only. rewrite rev_app_distr, app_assoc, map_app. cbn [rev app map total fold_right]. rewrite last_last. lia. }
  split; [|intros ->; exact L]. rewrite map_app, total_app. pose proof (total_sizes refused) as T1. destruct (dm_completed d).
  - destruct kept as [|x t _] using rev_ind; [cbn; lia|]. unfold last_only. rewrite rev_app_distr, map_app, total_app. cbn [rev app map total fold_right]. pose proof (total_sizes t). lia.
  - rewrite map_map. lia.
Qed.

(** The load bound holds if it does call by call. *)
Lemma supplied_each l : forall d caps, (forall before c after d1 e1, l = before ++ c :: after -> run d (map fst before) = Ok (d1, e1) -> supply_ok d1 (opened caps before) (snd (fst c)) (snd c)) -> supplied d caps l.
Proof.
  induction l as [|[[o a] ch] t IH]; intros d caps H; [exact Logic.I|]. cbn [supplied]. split.
  - exact (H [] _ _ d [] eq_refl eq_refl).
  - destruct (step o d a) as [[d1 e]| | |] eqn:S; auto. apply IH. intros before c after d2 e2 E R. subst t.
    refine (H (((o, a), ch) :: before) c after d2 (e ++ e2) eq_refl _). cbn [map fst run]. rewrite S. cbn [bind]. now rewrite R.
Qed.
Lemma takes_ok w before c d1 : (forall b, bytes_of (waiting b d1) <= w b) -> takes w before c -> supply_ok d1 (opened [] before) (snd (fst c)) (snd c).
Proof.
  intros H T. unfold takes, supply_ok in *. destruct (call_block (snd (fst c))) as [[b data]|]; auto. destruct T as (T1 & T2 & T3 & T4). change (streams_of before) with (opened [] before) in *.
  unfold streams_of in T4. rewrite fold_left_app in T4. cbn [fold_left] in T4. change (fold_left _ before []) with (opened [] before) in T4.
  specialize (H b). repeat split; auto; lia.
Qed.

Lemma calm_map h : forall d d' evs, wf d -> calm d -> Forall delivery_op h -> run d h = Ok (d', evs) -> exists m, dm_map d' = dm_map d ++ m.
Proof.
  induction h as [|[o a] t IH]; intros d d' evs W C D R; cbn [run] in R; [injection R as <- _; exists []; now rewrite app_nil_r|].
  destruct (step o d a) as [[d1 e1]| | |] eqn:S; cbn [bind] in R; try discriminate. destruct (run d1 t) as [[d2 e2]| | |] eqn:R2; cbn [bind] in R; try discriminate. injection R as <- _.
  apply Forall_cons_iff in D as [Da D]. destruct (step_calm _ _ _ _ _ W C Da S) as [C1 (m1 & E1)]. destruct (IH _ _ _ (step_wf _ _ _ _ _ W S) C1 D R2) as (m2 & ->). rewrite E1, <- app_assoc. eauto.
Qed.
Lemma cut_session o1 h1 h2 name d evs : Forall delivery_op (h1 ++ h2) -> run (dm_new name) ((o1, OpSetAutoFree true) :: h1 ++ h2) = Ok (d, evs) -> aligned evs -> NoDup (map snd (dm_map d)) ->
  exists d1 e1, run (dm_new name) ((o1, OpSetAutoFree true) :: h1) = Ok (d1, e1) /\ aligned e1 /\ NoDup (map snd (dm_map d1)).
Proof.
  intros D R Al N. rewrite app_comm_cons, run_app in R. destruct (run (dm_new name) ((o1, OpSetAutoFree true) :: h1)) as [[d1 e1]| | |] eqn:R1; cbn [bind] in R; try discriminate.
  destruct (run d1 h2) as [[d2 e2]| | |] eqn:R2; cbn [bind] in R; try discriminate. injection R as <- <-. apply Forall_app in D as [D1 D2]. exists d1, e1. split; [reflexivity|]. apply Forall_app in Al as [Al _]. split; [exact Al|].
  destruct (calm_map _ _ _ _ (run_wf _ _ _ _ (wf_new name) R1) (reach_calm _ _ _ _ _ D1 R1) D2 R2) as (m & E). rewrite E, map_app in N. now apply NoDup_app_l in N.
Qed.

Lemma light_fits name o1 c1 la lb d evs : let first := ((o1, OpSetAutoFree true), c1) in let h := map fst (first :: la ++ lb) in
  Forall sorting h -> Forall no_hook h -> Forall delivery_op h -> run (dm_new name) h = Ok (d, evs) -> aligned evs -> NoDup (map snd (dm_map d)) ->
  (forall d1 e1, run (dm_new name) (map fst (first :: la)) = Ok (d1, e1) -> lb = [] \/ dm_completed d1 = true) -> light (first :: la) lb -> sys_fits (sys_new name) (first :: la ++ lb).
Proof.
  intros first h So Nh D R Al N Cp [La Lb]. pose proof (hooked _ So Nh) as W. assert (D' : Forall delivery_op (map fst (la ++ lb))) by now inversion D.
  apply (supplied_fits name o1 c1 (la ++ lb) d evs W D' R Al N). apply supplied_each. intros before c after d1 e1 E R1.
  assert (Pr : Forall sorting (map fst before) /\ Forall no_hook (map fst before) /\ aligned e1 /\ NoDup (map snd (dm_map d1))).
  { subst h. fold first in E. rewrite E, map_app in So, Nh. apply Forall_app in So as [So _], Nh as [Nh _]. split; [exact So|]. split; [exact Nh|].
    destruct before as [|x before]; [cbn in R1; injection R1 as <- <-; split; constructor|]. injection E as <- E. subst first. cbn [map fst] in R, R1. rewrite E, map_app in R, D'. 
    destruct (cut_session _ _ _ _ _ _ D' R Al N) as (d2 & e2 & R2 & Al2 & N2). rewrite R1 in R2. injection R2 as <- <-. auto. }
  destruct Pr as (So1 & Nh1 & Al1 & N1). pose proof (waiting_total _ _ _ _ So1 Nh1 R1 Al1 N1) as Wt.
  fold first in E. change (first :: la ++ lb) with ((first :: la) ++ lb) in E. apply app_eq_app in E as (m & [(E1 & E2)|(E1 & E2)]).
  - destruct m as [|x m].
    + rewrite app_nil_r in E1. cbn [app] in E2. subst before. refine (takes_ok _ _ _ _ _ _); [|pose proof (Lb [] c after (eq_sym E2)) as T; rewrite app_nil_r in T; exact T]. intros b. destruct (Cp _ _ R1) as [->|C]; [discriminate E2|]. exact (proj2 (Wt b) C).
    + injection E2 as <- E2. refine (takes_ok _ _ _ _ _ (La before c m E1)). intros b. exact (proj1 (Wt b)).
  - subst before. refine (takes_ok _ _ _ _ _ (Lb m c after E2)). intros b. apply (proj2 (Wt b)). rewrite map_app, run_app in R1. destruct (run (dm_new name) (map fst (first :: la))) as [[d2 e2]| | |] eqn:R2; cbn [bind] in R1; try discriminate.
    destruct (run d2 (map fst m)) as [[d3 e3]| | |] eqn:R3; cbn [bind] in R1; try discriminate. injection R1 as <- _. destruct (Cp _ _ eq_refl) as [->|C]; [destruct m; discriminate E2|].
    exact (proj2 (proj2 (run_ext _ _ _ _ (run_wf _ _ _ _ (wf_new name) R2) R3) C)).
Qed.

(** ** A quarter of the memory per block *)
Lemma open_ext caps a : exists m, open_stream caps a = caps ++ m.
Proof. unfold open_stream. destruct (call_block a) as [[b data]|]; [|exists []; now rewrite app_nil_r]. destruct (b =? zlen caps); [eauto|exists []; now rewrite app_nil_r]. Qed.
Lemma streams_app l1 l2 : exists m, streams_of (l1 ++ l2) = streams_of l1 ++ m.
Proof.
  unfold streams_of. rewrite fold_left_app.
  assert (G : forall (l : list call) caps, exists m, fold_left (fun caps c => open_stream caps (snd (fst c))) l caps = caps ++ m); [|apply G].
  clear. induction l as [|c t IH]; intros caps; cbn [fold_left]; [exists []; symmetry; apply app_nil_r|].
  destruct (IH (open_stream caps (snd (fst c)))) as (m & ->). destruct (open_ext caps (snd (fst c))) as (m' & ->). rewrite <- app_assoc. eauto.
Qed.
Lemma streams_snoc before (c : call) : streams_of (before ++ [c]) = open_stream (streams_of before) (snd (fst c)).
Proof. unfold streams_of. rewrite fold_left_app. reflexivity. Qed.
Lemma streams_new before c b data : call_block (snd (fst c)) = Some (b, data) -> 0 <= b <= zlen (streams_of before) -> (Z.to_nat b < length (streams_of (before ++ [c])))%nat.
Proof.
  intros E B. rewrite streams_snoc. unfold open_stream. rewrite E. unfold zlen in *. destruct (Z.eqb_spec b (Z.of_nat (length (streams_of before)))); [rewrite app_length; cbn [length]|]; lia.
Qed.
Lemma sizes_from b (l : list call) n : In n (sizes b (map fst l)) -> exists before c after data, l = before ++ c :: after /\ call_block (snd (fst c)) = Some (b, data) /\ n = zlen data.
Proof.
  unfold sizes. intros I. apply in_map_iff in I as (x & <- & I). unfold for_buffer in I. apply filter_In in I as [I B]. apply Z.eqb_eq in B. unfold payloads in I. apply in_flat_map in I as (y & Iy & I). apply in_map_iff in Iy as (c & <- & Ic).
  destruct (call_payload (snd (fst c))) as [q|] eqn:E; [|destruct I]. destruct I as [->|[]]. apply in_split in Ic as (before & after & ->). exists before, c, after, (payload_data x). split; [reflexivity|]. split; [|reflexivity].
  destruct (snd (fst c)); cbn in *; try discriminate; injection E as <-; cbn in *; now subst.
Qed.
Lemma quarter_light la lb : light la [] ->
  (forall before c after b data, la ++ lb = before ++ c :: after -> call_block (snd (fst c)) = Some (b, data) ->
     concat (snd c) = data /\ snd c <> [] /\ 0 <= b <= zlen (streams_of before) /\ 2 * zlen data <= stream_half (nth (Z.to_nat b) (streams_of (before ++ [c])) false)) ->
  light la lb.
Proof.
  intros [La _] H. split; [exact La|]. intros before c after E. unfold takes. destruct (call_block (snd (fst c))) as [[b data]|] eqn:Ec; [|exact I].
  destruct (H (la ++ before) c after b data) as (H1 & H2 & H3 & H4); [now rewrite E, app_assoc|exact Ec|]. repeat (split; [assumption|]).
  assert (L : 2 * last (sizes b (map fst (la ++ before))) 0 <= stream_half (nth (Z.to_nat b) (streams_of ((la ++ before) ++ [c])) false)); [|lia].
  destruct (sizes b (map fst (la ++ before))) as [|n t] eqn:S; [cbn [last]; unfold stream_half; destruct (nth _ _ _); lia|].
  assert (In (last (n :: t) 0) (sizes b (map fst (la ++ before)))) as Il.
  { rewrite S. destruct (exists_last (l := n :: t)) as (x & z & ->); [discriminate|]. rewrite last_last. apply in_or_app. right. now left. }
  apply sizes_from in Il as (bf & c' & af & data' & E' & Ec' & ->). destruct (H bf c' (af ++ c :: after) b data') as (_ & _ & B' & Q); [rewrite E, app_assoc, E', <- app_assoc; reflexivity|exact Ec'|].
  pose proof (streams_new bf c' b data' Ec' B') as Lt. rewrite E'. replace ((bf ++ c' :: af) ++ [c]) with ((bf ++ [c']) ++ af ++ [c]) by (rewrite <- !app_assoc; reflexivity).
  destruct (streams_app (bf ++ [c']) (af ++ [c])) as (m & ->). rewrite app_nth1 by exact Lt. exact Q.
Qed.

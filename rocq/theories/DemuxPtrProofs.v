(** * DemuxPtrProofs: the demuxer over linked lists of packet pointers behaves as over lists of packets. *)
From Verif Require Import Base CollectionsModel CollectionsSpec RingProofs LinkedListProofs NaluModel RecordModel AacModel FloatModel PacketModel HeapProofs BlockQueueProofs DemuxModel DemuxProofs DemuxPtrModel.
From Coq Require Import String Permutation Sorted.
Local Open Scope list_scope.

(** ** Memory *)
Definition look (mem : list packet) (p : nat) : packet := nth p mem pkt_zero.
Definition lrep (l : linked_list nat) (ps : list nat) : Prop := exists ns, ll_rep l ns ps.
Record heap_ok (mem : list packet) (pool owned : list nat) : Prop := {
  ho_in : Forall (fun p => (p < List.length mem)%nat) (owned ++ pool); ho_nodup : NoDup (owned ++ pool); ho_pool : Forall (fun p => look mem p = freed pkt_zero) pool }.

Lemma look_same mem p v : (p < List.length mem)%nat -> look (set_nth p v mem) p = v.
Proof. intros H. unfold look. apply nth_error_nth. now apply set_nth_same. Qed.
Lemma look_other mem p q v : p <> q -> look (set_nth p v mem) q = look mem q.
Proof.
  intros H. unfold look. pose proof (set_nth_other p q v mem H) as E. destruct (nth_error mem q) eqn:N.
  - rewrite (nth_error_nth _ _ _ E). symmetry. now apply nth_error_nth.
  - rewrite !nth_overflow; [reflexivity| |]; [apply nth_error_None; exact N|]. rewrite set_nth_length. apply nth_error_None; exact N.
Qed.
Lemma map_look_other mem p v ps : ~ In p ps -> map (look (set_nth p v mem)) ps = map (look mem) ps.
Proof. intros H. apply map_ext_in. intros q Q. apply look_other. intros ->. auto. Qed.
Lemma load_look mem p : (p < List.length mem)%nat -> load mem p = Ok (look mem p).
Proof. intros H. unfold load, look. destruct (nth_error mem p) eqn:E; [|apply nth_error_None in E; lia]. cbn. now rewrite (nth_error_nth _ _ _ E). Qed.
Lemma store_set mem p v : (p < List.length mem)%nat -> store mem p v = Ok (set_nth p v mem).
Proof. intros H. unfold store. destruct (nth_error mem p) eqn:E; [reflexivity|]. apply nth_error_None in E; lia. Qed.

Lemma ho_perm mem pool a b : Permutation a b -> heap_ok mem pool a -> heap_ok mem pool b.
Proof. intros P [H1 H2 H3]. pose proof (Permutation_app_tail pool P) as Q. constructor; [eapply Permutation_Forall|eapply Permutation_NoDup|]; eassumption. Qed.
Lemma ho_lt mem pool owned p : heap_ok mem pool owned -> In p owned -> (p < List.length mem)%nat.
Proof. intros [H _ _] I. rewrite Forall_forall in H. apply H. apply in_or_app. auto. Qed.
Lemma ho_not mem pool p owned : heap_ok mem pool (p :: owned) -> ~ In p owned /\ ~ In p pool.
Proof. intros [_ H _]. inversion H; subst. split; intros I; apply H2; apply in_or_app; auto. Qed.
Lemma ho_tl mem pool p owned : heap_ok mem pool (p :: owned) -> heap_ok mem pool owned.
Proof. intros [H1 H2 H3]. constructor; [|now inversion H2|exact H3]. cbn [app] in H1. now apply Forall_cons_iff in H1. Qed.
Lemma ho_set mem pool p owned v : heap_ok mem pool (p :: owned) -> heap_ok (set_nth p v mem) pool (p :: owned).
Proof.
  intros H. pose proof (ho_not _ _ _ _ H) as [_ N]. destruct H as [H1 H2 H3]. constructor; [|exact H2|].
  - eapply Forall_impl; [|exact H1]. intros q. now rewrite set_nth_length.
  - rewrite Forall_forall in *. intros q Q. rewrite look_other by (intros ->; auto). auto.
Qed.
Lemma ho_free mem pool p owned : heap_ok mem pool (p :: owned) -> heap_ok (set_nth p (freed pkt_zero) mem) (p :: pool) owned.
Proof.
  intros H. pose proof (ho_lt _ _ _ p H (or_introl eq_refl)) as L. pose proof (ho_set _ _ _ _ (freed pkt_zero) H) as [H1 H2 H3]. constructor.
  - eapply Permutation_Forall; [|exact H1]. apply (Permutation_middle owned pool p).
  - eapply Permutation_NoDup; [|exact H2]. apply (Permutation_middle owned pool p).
  - constructor; [now apply look_same|exact H3].
Qed.

Definition recycled (o : poracle) (pool : list nat) : bool :=
  match po_get o with GNew => false | GForeign => true | GOwn k => match nth_error pool k with Some _ => true | None => false end end.
Lemma ho_new mem pool owned v : heap_ok mem pool owned -> heap_ok (mem ++ [v]) pool (List.length mem :: owned).
Proof.
  intros [H1 H2 H3]. assert (X : forall q, In q (owned ++ pool) -> (q < List.length mem)%nat) by now rewrite Forall_forall in H1.
  constructor.
  - cbn [app]. constructor; [rewrite app_length; cbn; lia|]. eapply Forall_impl; [|exact H1]. intros q. rewrite app_length. lia.
  - cbn [app]. constructor; [|exact H2]. intros I. apply X in I. lia.
  - rewrite Forall_forall in *. intros q Q. rewrite <- (H3 q Q). unfold look. apply app_nth1. apply X. apply in_or_app. auto.
Qed.
Lemma take_sim o mem pool owned : heap_ok mem pool owned -> exists p mem' pool', pool_take o mem pool = (p, mem', pool') /\ heap_ok mem' pool' (p :: owned) /\
  (forall q, In q owned -> look mem' q = look mem q) /\ look mem' p = pool_packet (choices o (recycled o pool)).
Proof.
  intros H. assert (N : forall v, exists p mem' pool', (List.length mem, mem ++ [v], pool) = (p, mem', pool') /\ heap_ok mem' pool' (p :: owned) /\ (forall q, In q owned -> look mem' q = look mem q) /\ look mem' p = v).
  { intros v. do 3 eexists. split; [reflexivity|]. split; [now apply ho_new|]. split.
    - intros q Q. unfold look. apply app_nth1. eapply ho_lt; eauto.
    - unfold look. rewrite app_nth2, Nat.sub_diag by lia. reflexivity. }
  unfold pool_take, recycled. destruct (po_get o) as [| |k]; [apply N|apply N|]. destruct (nth_error pool k) as [p|] eqn:E; [|apply N].
  do 3 eexists. split; [reflexivity|]. destruct H as [H1 H2 H3]. pose proof (nth_error_split _ _ E) as (a & b & Ep & La). assert (Er : remove_nth k pool = a ++ b).
  { unfold remove_nth. rewrite Ep, <- La. rewrite firstn_app, firstn_all, Nat.sub_diag. cbn [firstn]. rewrite app_nil_r. f_equal. rewrite skipn_app, skipn_all2 by lia. replace (S (List.length a) - List.length a)%nat with 1%nat by lia. reflexivity. }
  rewrite Er. assert (P : Permutation (owned ++ pool) ((p :: owned) ++ a ++ b)).
  { rewrite Ep. rewrite <- (Permutation_middle a b p). rewrite <- (Permutation_middle owned (a ++ b) p). reflexivity. }
  split; [constructor; [eapply Permutation_Forall; eassumption|eapply Permutation_NoDup; eassumption|]|].
  - rewrite Ep in H3. apply Forall_app in H3 as [F1 F2]. apply Forall_cons_iff in F2 as [_ F2]. apply Forall_app. auto.
  - split; [reflexivity|]. rewrite Forall_forall in H3. apply H3. eapply nth_error_In. exact E.
Qed.

(** ** Forwarding *)
Definition kept_ok (mem : list packet) (kept : list (nat * packet)) : Prop := Forall (fun x => look mem (fst x) = snd x) kept.
Lemma kept_same mem mem' kept : (forall q, In q (map fst kept) -> look mem' q = look mem q) -> kept_ok mem kept -> kept_ok mem' kept.
Proof. unfold kept_ok. rewrite !Forall_forall. intros K H x X. rewrite K by (now apply in_map). auto. Qed.
Lemma forward_sim d d' mem pool kept p owned : dm_handler d = dm_handler d' -> dm_autofree d = dm_autofree d' -> dm_map d = dm_map d' -> heap_ok mem pool (p :: owned ++ map fst kept) -> kept_ok mem kept ->
  match forward_packet d' (look mem p) with
  | Ok e => exists mem' pool' kept', forward_ptr d mem pool kept p = Ok (mem', pool', kept', e) /\ heap_ok mem' pool' (owned ++ map fst kept') /\ kept_ok mem' kept' /\ forall q, In q owned -> look mem' q = look mem q
  | Panic => forward_ptr d mem pool kept p = Panic | _ => False end.
Proof.
  intros E1 E2 E3 H Kp. pose proof (ho_lt _ _ _ p H (or_introl eq_refl)) as L. unfold forward_packet, forward_ptr. rewrite (load_look _ _ L), E1, E2, E3. cbn [bind]. destruct (negb (dm_handler d')); [reflexivity|].
  destruct (dm_autofree d').
  - destruct (map_find (dm_map d') (pk_index (look mem p))) as [b|]; [|reflexivity]. rewrite (store_set _ _ _ L). cbn [bind]. assert (K : forall q, In q (owned ++ map fst kept) -> look (set_nth p (freed (look mem p)) mem) q = look mem q).
    { intros q Q. apply look_other. intros ->. exact (proj1 (ho_not _ _ _ _ H) Q). }
    do 3 eexists. split; [reflexivity|]. split; [exact (ho_free _ _ _ _ H)|]. split; [eapply kept_same; [|exact Kp]; intros q Q; apply K; apply in_or_app; auto|]. intros q Q. apply K. apply in_or_app. auto.
  - do 3 eexists. split; [reflexivity|]. split; [eapply ho_perm; [|exact H]; apply (Permutation_middle owned (map fst kept) p)|]. split; [|reflexivity]. constructor; [reflexivity|exact Kp].
Qed.
Lemma forwards_sim d d' : dm_handler d = dm_handler d' -> dm_autofree d = dm_autofree d' -> dm_map d = dm_map d' -> forall ps mem pool kept owned, heap_ok mem pool (ps ++ owned ++ map fst kept) -> kept_ok mem kept ->
  match forward_all d' (map (look mem) ps) with
  | Ok e => exists mem' pool' kept', forward_ptrs d mem pool kept ps = Ok (mem', pool', kept', e) /\ heap_ok mem' pool' (owned ++ map fst kept') /\ kept_ok mem' kept' /\ forall q, In q owned -> look mem' q = look mem q
  | Panic => forward_ptrs d mem pool kept ps = Panic | _ => False end.
Proof.
  intros E1 E2 E3. induction ps as [|p ps IH]; intros mem pool kept owned H Kp; cbn [map forward_all forward_ptrs app] in *; [do 3 eexists; split; [reflexivity|]; split; [exact H|split; [exact Kp|reflexivity]]|].
  rewrite app_assoc in H. pose proof (forward_sim _ _ _ _ _ _ _ E1 E2 E3 H Kp) as F. destruct (forward_packet d' (look mem p)) as [e| | |]; try contradiction; cbn [bind]; [|rewrite F; reflexivity].
  destruct F as (mem1 & pool1 & kept1 & -> & H1 & Kp1 & K). cbn [bind]. rewrite <- app_assoc in H1. specialize (IH mem1 pool1 kept1 owned H1 Kp1). replace (map (look mem1) ps) with (map (look mem) ps) in IH by (apply map_ext_in; intros q Q; symmetry; apply K; apply in_or_app; auto).
  destruct (forward_all d' (map (look mem) ps)) as [e'| | |]; try contradiction; cbn [bind]; [|rewrite IH; reflexivity]. destruct IH as (mem2 & pool2 & kept2 & -> & H2 & Kp2 & K2). cbn [bind]. do 3 eexists. split; [reflexivity|]. split; [exact H2|]. split; [exact Kp2|].
  intros q Q. rewrite K2 by exact Q. apply K. apply in_or_app. auto.
Qed.

(** ** Reading the lists *)
Definition inside (mem : list packet) (ps : list nat) : Prop := Forall (fun p => (p < List.length mem)%nat) ps.
Lemma ho_inside mem pool owned : heap_ok mem pool owned -> inside mem owned.
Proof. intros [H _ _]. now apply Forall_app in H. Qed.
Lemma lrep_size l ps : lrep l ps -> ll_size l = zlen ps.
Proof. intros [ns H]. exact (lr_size _ _ _ H). Qed.
Lemma lrep_get l ps i : lrep l ps -> 0 <= i -> ll_get l i = of_opt (idx ps i).
Proof. intros [ns H] I. rewrite (ll_get_rep _ _ _ _ H I). now destruct (idx ps i). Qed.
Lemma lrep_add l ps p : lrep l ps -> exists l', ll_add l p = Ok l' /\ lrep l' (ps ++ [p]).
Proof. intros [ns H]. destruct (ll_add_rep _ _ _ p H) as (s' & ns' & E & R). exists s'. split; [exact E|]. now exists ns'. Qed.
Lemma lrep_remove l a p b : lrep l (a ++ p :: b) -> exists l', ll_remove l (zlen a) = Ok (p, l') /\ lrep l' (a ++ b).
Proof.
  intros [ns H]. destruct (ll_remove_rep _ _ _ (zlen a) p H) as (s' & E & R); [apply zlen_nonneg| |].
  - rewrite idx_app_r by lia. now rewrite Z.sub_diag.
  - exists s'. split; [exact E|]. exists (remove_nth (Z.to_nat (zlen a)) ns). replace (remove_nth (Z.to_nat (zlen a)) (a ++ p :: b)) with (a ++ b) in R; [exact R|].
    unfold remove_nth, zlen. rewrite Nat2Z.id, firstn_app, firstn_all, Nat.sub_diag. cbn [firstn]. rewrite app_nil_r. f_equal. rewrite skipn_app, skipn_all2 by lia. replace (S (List.length a) - List.length a)%nat with 1%nat by lia. reflexivity.
Qed.
Lemma first_sim codec mem : forall lists pss, Forall2 lrep lists pss -> inside mem (List.concat pss) -> first_ptr_of codec mem lists = Ok (first_packet_of codec (map (map (look mem)) pss)).
Proof.
  induction 1 as [|l ps lists pss H F IH]; intros B; [reflexivity|]. cbn [List.concat] in B. apply Forall_app in B as [B1 B2]. cbn [first_ptr_of map first_packet_of]. rewrite (lrep_size _ _ H).
  destruct ps as [|p ps]; [exact (IH B2)|]. rewrite zlen_cons. pose proof (zlen_nonneg ps). replace (1 + zlen ps <? 1) with false by lia. rewrite (lrep_get _ _ _ H) by lia. cbn [idx of_opt bind nth_error Z.ltb Z.compare Z.to_nat].
  apply Forall_cons_iff in B1 as [Bp _]. rewrite (load_look _ _ Bp). cbn [bind map]. destruct (_ =? codec); [reflexivity|exact (IH B2)].
Qed.
Lemma first_again codec L : first_packet_of codec (of_packet (first_packet_of codec L)) = first_packet_of codec L.
Proof. induction L as [|[|p l] L IH]; cbn [first_packet_of of_packet]; auto. destruct (pk_codec p =? codec) eqn:E; [cbn; now rewrite E|exact IH]. Qed.
Lemma prepare_sim o r mem lists pss ts : Forall2 lrep lists pss -> inside mem (List.concat pss) -> prepare_ptr o mem lists ts = Ok (prepare_tracks (choices o r) (map (map (look mem)) pss) ts).
Proof.
  intros F B. unfold prepare_ptr. rewrite !(first_sim _ _ _ _ F B). cbn [bind]. unfold prepare_tracks, calculate_g726_bit_rate, calculate_pcm_frequency. rewrite !first_again. reflexivity.
Qed.
Lemma sum_sim o r mem l ps : lrep l ps -> inside mem ps -> forall n i a, (i + n <= List.length ps)%nat ->
  sum_ms o mem l (Z.of_nat i) n a = Ok (fold_left (fun a p => i64 (a + pk_ms (choices o r) p)) (map (look mem) (firstn n (skipn i ps))) a).
Proof.
  intros H B. induction n as [|n IH]; intros i a L; [reflexivity|]. cbn [sum_ms]. rewrite (lrep_get _ _ _ H) by lia. rewrite idx_nat. destruct (nth_error ps i) as [p|] eqn:E; [|apply nth_error_None in E; lia]. cbn [of_opt bind].
  assert (Bp : (p < List.length mem)%nat) by (unfold inside in B; rewrite Forall_forall in B; apply B; eapply nth_error_In; eauto). rewrite (load_look _ _ Bp). cbn [bind].
  replace (Z.of_nat i + 1) with (Z.of_nat (S i)) by lia. rewrite IH by lia. destruct (nth_error_split _ _ E) as (a0 & b0 & -> & <-).
  rewrite !skipn_app, (skipn_all2 a0 (n := S (List.length a0))), skipn_all, Nat.sub_diag by lia. replace (S (List.length a0) - List.length a0)%nat with 1%nat by lia. reflexivity.
Qed.

(** ** Collecting and sorting *)
Definition olast (ps : list nat) : list nat := match ps with [] => [] | p :: t => [last t p] end.
Lemma front_sim : forall n l ps, lrep l ps -> (n <= List.length ps)%nat -> exists l', remove_front n l = Ok (firstn n ps, l') /\ lrep l' (skipn n ps).
Proof.
  induction n as [|n IH]; intros l ps H L; [exists l; split; [reflexivity|exact H]|]. destruct ps as [|p ps]; [cbn in L; lia|]. cbn [remove_front]. destruct (lrep_remove l [] p ps H) as (l1 & E & R). change (zlen (@nil nat)) with 0 in E. rewrite E. cbn [bind].
  destruct (IH l1 ps R) as (l2 & -> & R2); [cbn in L; lia|]. exists l2. split; [reflexivity|exact R2].
Qed.
Lemma removelast_olast ps : ps = removelast ps ++ olast ps.
Proof. destruct ps as [|p ps]; [reflexivity|]. rewrite (app_removelast_last p) at 1 by discriminate. f_equal. cbn [olast]. now destruct ps. Qed.
Lemma collect_sim : forall lists pss, Forall2 lrep lists pss -> exists lists', collect lists = Ok (List.concat (map (@removelast nat) pss), lists') /\ Forall2 lrep lists' (map olast pss).
Proof.
  induction 1 as [|l ps lists pss H F (t' & E & R)]; [exists []; split; [reflexivity|constructor]|]. cbn [collect map List.concat]. rewrite (lrep_size _ _ H), E.
  assert (C : exists l', (if zlen ps - 2 <? 0 then Ok ([], l) else remove_front (Z.to_nat (zlen ps - 2 + 1)) l) = Ok (removelast ps, l') /\ lrep l' (olast ps)).
  { destruct (snoc_cases ps) as [->|(f & t & ->)]; [exists l; split; [reflexivity|exact H]|]. rewrite removelast_snoc. assert (O : olast (f ++ [t]) = [t]).
    { pose proof (removelast_olast (f ++ [t])) as X. rewrite removelast_snoc in X. now apply app_inv_head in X. }
    rewrite O. rewrite zlen_app, zlen_cons, zlen_nil. destruct f as [|x f]; [exists l; split; [reflexivity|exact H]|]. pose proof (zlen_nonneg f). replace (zlen (x :: f) + (1 + 0) - 2 <? 0) with false by (rewrite zlen_cons; lia).
    replace (Z.to_nat (zlen (x :: f) + (1 + 0) - 2 + 1)) with (List.length (x :: f)) by (unfold zlen; lia). destruct (front_sim (List.length (x :: f)) l _ H) as (l' & -> & R'); [rewrite app_length; lia|]. exists l'.
    rewrite firstn_app, firstn_all, Nat.sub_diag, app_nil_r. rewrite skipn_app, skipn_all, Nat.sub_diag in R'. split; [reflexivity|exact R']. }
  destruct C as (l' & -> & R'). cbn [bind]. eexists. split; [reflexivity|]. constructor; assumption.
Qed.
Lemma map_olast {B} (f : nat -> B) ps : map f (olast ps) = match map f ps with [] => [] | p :: t => [last t p] end.
Proof. destruct ps as [|p ps]; [reflexivity|]. cbn [olast map]. f_equal. revert p. induction ps as [|q ps IH]; intros p; [reflexivity|]. cbn [map]. destruct ps; [reflexivity|]. apply IH. Qed.
Lemma map_removelast {A B} (f : A -> B) ps : map f (removelast ps) = removelast (map f ps).
Proof. induction ps as [|p [|q ps] IH]; [reflexivity|reflexivity|]. change (removelast (p :: q :: ps)) with (p :: removelast (q :: ps)). cbn [map] in *. rewrite IH. reflexivity. Qed.
Lemma split_perm pss : Permutation (List.concat pss) (List.concat (map (@removelast nat) pss) ++ List.concat (map olast pss)).
Proof.
  induction pss as [|ps pss IH]; [constructor|]. cbn [List.concat map]. rewrite IH, (removelast_olast ps) at 1. rewrite <- !app_assoc. apply Permutation_app_head. rewrite !app_assoc. apply Permutation_app_tail. apply Permutation_app_comm.
Qed.
Lemma load_all_sim mem ps : inside mem ps -> load_all mem ps = Ok (map (look mem) ps).
Proof. induction 1 as [|p ps H _ IH]; [reflexivity|]. cbn [load_all map]. rewrite (load_look _ _ H). cbn [bind]. rewrite IH. reflexivity. Qed.
Lemma map_nth_seq {A} (l : list A) d : map (fun j => nth j l d) (seq 0 (List.length l)) = l.
Proof. induction l as [|x l IH]; [reflexivity|]. cbn [List.length seq map nth]. f_equal. rewrite <- seq_shift, map_map. exact IH. Qed.
Lemma sort_sim o r mem ps : poracle_ok o -> inside mem ps -> exists qs, sort_ptrs o mem ps = Ok qs /\ map (look mem) qs = or_sort (choices o r) (map (look mem) ps) /\ Permutation ps qs.
Proof.
  intros O B. unfold sort_ptrs. rewrite (load_all_sim _ _ B). cbn [bind]. eexists. split; [reflexivity|]. destruct (O (map (look mem) ps)) as [P _]. rewrite map_length in P. split.
  - cbn [choices or_sort]. unfold order. rewrite map_map. apply map_ext_in. intros j J. apply (Permutation_in _ P) in J. apply in_seq in J. rewrite (nth_indep _ pkt_zero (look mem 0%nat)) by (rewrite map_length; lia). now rewrite map_nth.
  - apply (Permutation_map (fun j => nth j ps 0%nat)) in P. rewrite map_nth_seq in P. now symmetry.
Qed.

(** ** The simulation *)
Definition psim (s : pdm) (d : demuxer) : Prop := exists pss, Forall2 lrep (pd_lists s) pss /\ dm_packets d = map (map (look (pd_mem s))) pss /\ heap_ok (pd_mem s) (pd_pool s) (List.concat pss ++ map fst (pd_kept s)) /\ kept_ok (pd_mem s) (pd_kept s) /\ pd_d s = with_packets d [].
Definition sim_out (x : pdm * list event) (y : demuxer * list event) : Prop := psim (fst x) (fst y) /\ snd x = snd y.

Lemma complete_sim o r s d : poracle_ok o -> psim s d -> rel_res sim_out (on_probe_complete_ptr o s) (on_probe_complete (choices o r) d).
Proof.
  intros O S. pose proof S as (pss & F & E & H & Kp & Ed). unfold on_probe_complete_ptr, on_probe_complete. rewrite Ed. clear Ed. destruct d as [tracks handler name ordered probe completed packets autofree mp pre]. cbv zeta.
  cbv [with_packets with_tracks with_completed dm_tracks dm_handler dm_name dm_ordered dm_probe dm_completed dm_packets dm_autofree dm_map dm_pre] in *.
  destruct completed; [split; [exact S|reflexivity]|]. destruct tracks as [|t ts].
  - destruct handler; [|exact I]. split; [|reflexivity]. exists pss. split; [exact F|]. split; [exact E|]. split; [exact H|]. split; [exact Kp|]. reflexivity.
  - rewrite (prepare_sim o r _ _ _ _ F) by (apply ho_inside in H; now apply Forall_app in H). rewrite <- E. cbn [bind]. destruct (negb handler) eqn:Eh; [exact I|].
    destruct (collect_sim _ _ F) as (lists' & -> & F'). cbn [bind]. set (ps := List.concat (map (@removelast nat) pss)) in *.
    pose proof (ho_perm _ _ _ _ (Permutation_app_tail _ (split_perm pss)) H) as H1. fold ps in H1. rewrite <- app_assoc in H1. assert (Bp : inside (pd_mem s) ps) by (apply ho_inside in H1; now apply Forall_app in H1).
    destruct (sort_sim o r (pd_mem s) ps O Bp) as (qs & -> & Q & P). cbn [bind].
    assert (Ec : List.concat (map all_but_last packets) = map (look (pd_mem s)) ps).
    { rewrite E. unfold ps. rewrite concat_map, !map_map. f_equal. apply map_ext. intros a. unfold all_but_last. symmetry. apply map_removelast. }
    rewrite Ec, <- Q. pose proof (ho_perm _ _ _ _ (Permutation_app_tail _ P) H1) as H2. set (ts' := prepare_tracks _ _ _).
    set (d3 := mkDm ts' handler name ordered probe true (map only_last packets) autofree mp pre). set (d2 := mkDm ts' handler name ordered probe true [] autofree mp pre).
    pose proof (forwards_sim d2 d3 eq_refl eq_refl eq_refl _ _ _ _ _ H2 Kp) as W.
    destruct (forward_all d3 (map (look (pd_mem s)) qs)) as [e| | |]; try contradiction; [|rewrite W; exact I]. destruct W as (mem' & pool' & kept' & -> & H3 & Kp' & K). cbn [bind]. split; [|reflexivity].
    exists (map olast pss). cbn [fst pd_lists pd_mem pd_pool pd_kept pd_d]. split; [exact F'|]. split; [|split; [exact H3|split; [exact Kp'|reflexivity]]]. cbn [d3 dm_packets]. rewrite E, !map_map. apply map_ext_in. intros a A. unfold only_last. rewrite <- map_olast.
    apply map_ext_in. intros q X. symmetry. apply K. apply in_concat. exists (olast a). split; [now apply in_map|exact X].
Qed.

Lemma idx_cut {A} (l : list A) k x : idx l k = Some x -> exists a b, l = a ++ x :: b /\ zlen a = k /\ forall y, upd l k y = Some (a ++ y :: b).
Proof.
  intros I. pose proof (idx_inv _ _ _ I) as B. unfold idx in I. destruct (k <? 0) eqn:K; [discriminate|]. destruct (nth_error_split _ _ I) as (a & b & -> & La). exists a, b. split; [reflexivity|]. split; [unfold zlen; lia|].
  intros y. rewrite upd_some by exact B. rewrite <- La. rewrite set_nth_app_r by lia. now rewrite Nat.sub_diag.
Qed.
Lemma cut_at {A} (a a' : list A) x x' b b' : a ++ x :: b = a' ++ x' :: b' -> zlen a = zlen a' -> a = a' /\ x = x' /\ b = b'.
Proof.
  intros E L. unfold zlen in L. apply Nat2Z.inj in L. revert a' L E. induction a as [|y a IH]; intros [|y' a'] L E; try discriminate L; cbn [app] in E; injection E as E1 E2; subst; auto.
  injection L as L. destruct (IH _ L E2) as (-> & -> & ->). auto.
Qed.

Lemma concat_cut {A} (a : list (list A)) x y z b : Permutation (y ++ x) z -> Permutation (y ++ List.concat (a ++ x :: b)) (List.concat (a ++ z :: b)).
Proof.
  intros P. rewrite !concat_app. cbn [List.concat]. rewrite <- P. rewrite !app_assoc. apply Permutation_app_tail. rewrite <- app_assoc. rewrite <- (app_assoc (List.concat a)). rewrite (app_assoc y). rewrite (Permutation_app_comm y (List.concat a)). now rewrite <- app_assoc.
Qed.

Lemma process_sim o r s d p pss : poracle_ok o -> Forall2 lrep (pd_lists s) pss -> dm_packets d = map (map (look (pd_mem s))) pss -> heap_ok (pd_mem s) (pd_pool s) (p :: List.concat pss ++ map fst (pd_kept s)) -> kept_ok (pd_mem s) (pd_kept s) -> pd_d s = with_packets d [] ->
  rel_res sim_out (process_ptr o s p) (process_buffered_packet (choices o r) d (look (pd_mem s) p)).
Proof.
  intros O F E H Kp Ed. set (ks := map fst (pd_kept s)) in *. unfold process_ptr, process_buffered_packet. rewrite (load_look _ _ (ho_lt _ _ _ p H (or_introl eq_refl))). cbn [bind]. set (pkt := look (pd_mem s) p) in *.
  assert (En : zlen (pd_lists s) = zlen (dm_packets d)) by (rewrite E; unfold zlen; rewrite map_length; f_equal; clear -F; induction F; cbn; auto). rewrite En. set (n := zlen (dm_packets d)). set (k := if pk_index pkt <? n then pk_index pkt else n).
  set (lists := if pk_index pkt <? n then pd_lists s else pd_lists s ++ [ll_new]). set (L := if pk_index pkt <? n then dm_packets d else dm_packets d ++ [[]]). set (pss0 := if pk_index pkt <? n then pss else pss ++ [[]]).
  assert (F0 : Forall2 lrep lists pss0).
  { unfold lists, pss0. destruct (pk_index pkt <? n); [exact F|]. apply Forall2_app; [exact F|]. constructor; [|constructor]. exists []. apply ll_new_rep. }
  assert (E0 : L = map (map (look (pd_mem s))) pss0) by (unfold L, pss0; rewrite E; destruct (pk_index pkt <? n); [reflexivity|now rewrite map_app]).
  assert (H0 : heap_ok (pd_mem s) (pd_pool s) (p :: List.concat pss0 ++ ks)).
  { unfold pss0. destruct (pk_index pkt <? n); [exact H|]. rewrite concat_app. cbn [List.concat]. cbn [app]. now rewrite app_nil_r. }
  clearbody lists L pss0 k. clear F E H En.
  destruct (idx lists k) as [l|] eqn:Il.
  2:{ replace (idx L k) with (@None (list packet)); [exact I|]. symmetry. rewrite E0. unfold idx in *. destruct (k <? 0); [reflexivity|]. rewrite nth_error_map. pose proof (forall2_nth _ _ _ F0 (Z.to_nat k)) as X. rewrite Il in X. destruct (nth_error pss0 _); [contradiction|reflexivity]. }
  destruct (idx_cut _ _ _ Il) as (la & lb & El & Lk & Ul). rewrite El in F0. apply Forall2_app_inv_l in F0 as (pa & pb' & Fa & Fb & Ep). inversion Fb as [|? ps ? pb Hl Fb' X1 X2]; subst pb'. clear Fb.
  rewrite Ep in E0. rewrite map_app in E0. cbn [map] in E0. set (mem := pd_mem s) in *.
  assert (Lk' : zlen (map (map (look mem)) pa) = k) by (rewrite <- Lk; unfold zlen; rewrite map_length; f_equal; clear -Fa; induction Fa; cbn; auto).
  assert (IL : idx L k = Some (map (look mem) ps)) by (rewrite E0, idx_app_r, Lk', Z.sub_diag by lia; reflexivity).
  destruct (idx_cut _ _ _ IL) as (a' & b' & EL & Lk2 & UL). rewrite E0 in EL. destruct (cut_at _ _ _ _ _ _ EL) as (<- & _ & <-); [lia|]. clear EL Lk2.
  rewrite IL. cbn [of_opt bind]. destruct (lrep_add _ _ p Hl) as (l1 & -> & Hl1). cbn [bind]. rewrite (lrep_size _ _ Hl1), !zlen_app. change (zlen [p]) with 1. change (zlen [pkt]) with 1. rewrite Ep in H0.
  replace (zlen (map (look mem) ps)) with (zlen ps) by (unfold zlen; now rewrite map_length).
  destruct (snoc_cases ps) as [->|(f & t & ->)].
  - cbn [map app] in *. change (zlen (@nil nat) + 1 - 2 <? 0) with true. cbv iota. rewrite Ul, UL. cbn [of_opt bind]. split; [|reflexivity]. exists (pa ++ [p] :: pb). cbn [fst pd_lists pd_mem pd_pool pd_kept pd_d]. split; [apply Forall2_app; [exact Fa|now constructor]|].
    split; [cbn [dm_packets with_packets]; rewrite map_app; reflexivity|]. split; [|split; [exact Kp|exact Ed]]. eapply ho_perm; [|exact H0]. refine (Permutation_app_tail ks (concat_cut pa [] [p] [p] pb _)). reflexivity.
  - rewrite zlen_app. change (zlen [t]) with 1. pose proof (zlen_nonneg f). replace (zlen f + 1 + 1 - 2) with (zlen f) by lia. replace (zlen f <? 0) with false by lia. cbv iota.
    rewrite <- app_assoc in Hl1. cbn [app] in Hl1. rewrite (lrep_get _ _ _ Hl1) by lia. rewrite idx_app_r, Z.sub_diag by lia. change (idx [t; p] 0) with (Some t). cbn [of_opt bind].
    assert (Pt : Permutation (p :: List.concat (pa ++ (f ++ [t]) :: pb)) (t :: List.concat (pa ++ (f ++ [p]) :: pb))).
    { rewrite (concat_cut pa (f ++ [t]) [p] (f ++ [p; t]) pb); [symmetry; apply (concat_cut pa (f ++ [p]) [t] (f ++ [p; t]) pb)|]; cbn [app].
      - rewrite (Permutation_cons_append (f ++ [p]) t). now rewrite <- app_assoc.
      - rewrite (Permutation_cons_append (f ++ [t]) p). rewrite <- app_assoc. apply Permutation_app_head. apply perm_swap. }
    pose proof (ho_perm _ _ _ _ (Permutation_app_tail ks Pt) H0) as Ht. cbn [app] in Ht. pose proof (ho_lt _ _ _ t Ht (or_introl eq_refl)) as Lt. rewrite (load_look _ _ Lt). cbn [bind]. rewrite (store_set _ _ _ Lt). cbn [bind].
    rewrite map_app. cbn [map]. rewrite <- app_assoc. cbn [app]. assert (Lf : zlen (map (look mem) f) = zlen f) by (unfold zlen; now rewrite map_length). rewrite idx_app_r, Lf, Z.sub_diag by lia. change (idx [look mem t; pkt] 0) with (Some (look mem t)). cbn [of_opt bind].
    set (q1 := set_duration (look mem t) (i64 (pk_dts pkt - pk_dts (look mem t)))).
    assert (U2 : upd (map (look mem) f ++ [look mem t; pkt]) (zlen f) q1 = Some (map (look mem) f ++ [q1; pkt])).
    { destruct (idx_cut (map (look mem) f ++ [look mem t; pkt]) (zlen f) (look mem t)) as (xa & xb & Ex & Lx & Ux); [rewrite idx_app_r, Lf, Z.sub_diag by lia; reflexivity|]. rewrite Ux. destruct (cut_at _ _ _ _ _ _ Ex) as (<- & _ & <-); [lia|]. reflexivity. }
    rewrite U2. cbn [of_opt bind]. set (mem1 := set_nth t q1 mem). pose proof (ho_set _ _ _ _ q1 Ht) as Hm. fold mem1 in Hm. pose proof (ho_not _ _ _ _ Ht) as [Nt _].
    assert (Lq : look mem1 t = q1) by (apply look_same; exact Lt).
    assert (Kq : forall q, In q (List.concat (pa ++ (f ++ [p]) :: pb)) -> look mem1 q = look mem q) by (intros q Q; apply look_other; intros ->; apply Nt; apply in_or_app; auto).
    assert (Kp1 : kept_ok mem1 (pd_kept s)) by (eapply kept_same; [|exact Kp]; intros q Q; apply look_other; intros ->; apply Nt; apply in_or_app; auto).
    assert (Ka : map (map (look mem1)) pa = map (map (look mem)) pa).
    { apply map_ext_in. intros a A. apply map_ext_in. intros q Q. apply Kq. rewrite concat_app. apply in_or_app. left. apply in_concat. eauto. }
    assert (Kb : map (map (look mem1)) pb = map (map (look mem)) pb).
    { apply map_ext_in. intros a A. apply map_ext_in. intros q Q. apply Kq. rewrite concat_app. cbn [List.concat]. apply in_or_app. right. apply in_or_app. right. apply in_concat. eauto. }
    assert (Kf : map (look mem1) f = map (look mem) f).
    { apply map_ext_in. intros q Q. apply Kq. rewrite concat_app. cbn [List.concat]. apply in_or_app. right. apply in_or_app. left. apply in_or_app. auto. }
    assert (Kn : look mem1 p = pkt).
    { apply Kq. rewrite concat_app. cbn [List.concat]. apply in_or_app. right. apply in_or_app. left. apply in_or_app. right. left. reflexivity. }
    rewrite Ed. change (dm_completed (with_packets d [])) with (dm_completed d). change (dm_probe (with_packets d [])) with (dm_probe d). destruct (dm_completed d) eqn:Ec.
    + destruct (lrep_remove _ f t [p] Hl1) as (l2 & -> & Hl2). cbn [bind]. rewrite Ul. cbn [of_opt bind]. replace (Z.to_nat (zlen f)) with (List.length (map (look mem) f)) by (rewrite map_length; unfold zlen; lia).
      rewrite firstn_app, firstn_all, Nat.sub_diag. cbn [firstn]. rewrite app_nil_r. rewrite skipn_app, skipn_all2 by lia. replace (S (List.length (map (look mem) f)) - List.length (map (look mem) f))%nat with 1%nat by lia. cbn [skipn app]. rewrite UL. cbn [of_opt bind].
      set (d1 := with_packets d (map (map (look mem)) pa ++ _ :: _)). pose proof (forward_sim (with_packets d []) d1 mem1 (pd_pool s) (pd_kept s) t _ eq_refl eq_refl eq_refl Hm Kp1) as W. rewrite Lq in W.
      destruct (forward_packet d1 q1) as [e| | |]; try contradiction; [|rewrite W; exact I]. destruct W as (mem2 & pool2 & kept2 & -> & Hn & Kp2 & K2). cbn [bind]. split; [|reflexivity]. exists (pa ++ (f ++ [p]) :: pb). cbn [fst pd_lists pd_mem pd_pool pd_kept pd_d].
      split; [apply Forall2_app; [exact Fa|now constructor]|]. split; [|split; [exact Hn|split; [exact Kp2|reflexivity]]]. cbn [d1 dm_packets with_packets]. rewrite map_app. cbn [map]. rewrite map_app. cbn [map].
      rewrite <- Ka, <- Kb, <- Kf, <- Kn. assert (G : forall a, In a (pa ++ (f ++ [p]) :: pb) -> map (look mem1) a = map (look mem2) a) by (intros a A; apply map_ext_in; intros q Q; symmetry; apply K2; apply in_concat; eauto).
      f_equal; [apply map_ext_in; intros a A; apply G; apply in_or_app; auto|]. f_equal; [|apply map_ext_in; intros a A; apply G; apply in_or_app; right; right; auto].
      pose proof (G (f ++ [p])) as G1. rewrite !map_app in G1. cbn [map] in G1. apply G1. apply in_or_app. right. left. reflexivity.
    + rewrite Ul, UL. cbn [of_opt bind]. assert (Pf : Permutation (t :: List.concat (pa ++ (f ++ [p]) :: pb)) (List.concat (pa ++ (f ++ [t; p]) :: pb))).
      { apply (concat_cut pa (f ++ [p]) [t]). cbn [app]. rewrite (Permutation_middle f [p] t). reflexivity. }
      pose proof (ho_perm _ _ _ _ (Permutation_app_tail ks Pf) Hm) as Hn.
      assert (Bi : inside mem1 (f ++ [t; p])).
      { pose proof (ho_inside _ _ _ Hn) as B. apply Forall_app in B as [B _]. rewrite concat_app in B. cbn [List.concat] in B. apply Forall_app in B as [_ B]. now apply Forall_app in B. }
      replace (Z.to_nat (zlen f + 1)) with (S (List.length f)) by (unfold zlen; lia). change 0 with (Z.of_nat 0) at 1. rewrite (sum_sim o r _ _ _ Hl1 Bi) by (rewrite app_length; cbn; lia). cbn [bind skipn].
      unfold total_ms. replace (map (look mem1) (firstn (S (List.length f)) (f ++ [t; p]))) with (firstn (S (List.length f)) (map (look mem) f ++ [q1; pkt])) by (rewrite <- firstn_map, map_app; cbn [map]; now rewrite Kf, Lq, Kn).
      set (dur := fold_left _ _ _). change (dm_probe (with_packets d ?x)) with (dm_probe d). set (d1 := with_packets d (map (map (look mem)) pa ++ _ :: _)). set (s1 := mkPd _ _ mem1 _ _).
      assert (S1 : psim s1 d1).
      { exists (pa ++ (f ++ [t; p]) :: pb). cbn [s1 d1 pd_lists pd_mem pd_pool pd_kept pd_d dm_packets with_packets]. split; [apply Forall2_app; [exact Fa|now constructor]|]. split; [|split; [exact Hn|split; [exact Kp1|reflexivity]]].
        rewrite map_app. cbn [map]. rewrite map_app. cbn [map]. now rewrite Ka, Kb, Kf, Lq, Kn. }
      destruct (_ <=? dur); [|split; [exact S1|reflexivity]]. eapply rel_bind; [apply (complete_sim o r _ _ O S1)|]. intros [s2 e] [d2 e'] [S2 E2]. cbn [fst snd] in *. subst. split; [exact S2|reflexivity].
Qed.

(** ** Tracks *)
Definition track_sim (d : demuxer) (x y : demuxer * option stream) : Prop := fst x = with_packets (fst y) [] /\ dm_packets (fst y) = dm_packets d /\ snd x = snd y.
Lemma add_track_sim d t buf : track_sim d (add_track (with_packets d []) t buf) (add_track d t buf).
Proof. unfold add_track. change (dm_completed (with_packets d [])) with (dm_completed d). destruct (dm_completed d); split; auto. Qed.
Lemma audio_track_sim d buf id tb extra c : rel_res (track_sim d) (create_audio_track (with_packets d []) buf id tb extra c) (create_audio_track d buf id tb extra c).
Proof.
  unfold create_audio_track. cbv zeta. change (dm_tracks (with_packets d [])) with (dm_tracks d). destruct ((id =? AVCodecIdAAC) && negb (ac_has_adts c)); [|apply add_track_sim]. destruct extra as [e|]; [|exact I].
  destruct (parse_asc e); try exact I; [apply add_track_sim|]. split; auto.
Qed.
Lemma video_track_sim o o' d buf id tb extra : or_grow o = or_grow o' -> rel_res (track_sim d) (create_video_track o (with_packets d []) buf id tb extra) (create_video_track o' d buf id tb extra).
Proof.
  intros E. unfold create_video_track. change (dm_tracks (with_packets d [])) with (dm_tracks d). change (dm_name (with_packets d [])) with (dm_name d). rewrite E. destruct (generate_video_codec_data _ _ _ _); try exact I; [apply add_track_sim|]. split; auto.
Qed.
Lemma keep_track d t : track_sim d (with_packets d [], t) (d, t).
Proof. split; auto. Qed.

Lemma new_packet_sim o s d (g : packet -> packet) pss : poracle_ok o -> Forall2 lrep (pd_lists s) pss -> dm_packets d = map (map (look (pd_mem s))) pss -> heap_ok (pd_mem s) (pd_pool s) (List.concat pss ++ map fst (pd_kept s)) -> kept_ok (pd_mem s) (pd_kept s) -> pd_d s = with_packets d [] ->
  forall p mem pool, pool_take o (pd_mem s) (pd_pool s) = (p, mem, pool) -> (p < List.length mem)%nat /\ look mem p = pool_packet (choices o (recycled o (pd_pool s))) /\
  forall r, rel_res sim_out (process_ptr o (mkPd (with_packets d []) (pd_lists s) (set_nth p (g (look mem p)) mem) pool (pd_kept s)) p) (process_buffered_packet (choices o r) d (g (pool_packet (choices o (recycled o (pd_pool s)))))).
Proof.
  intros O F E H Kp Ed p mem pool T. destruct (take_sim o _ _ _ H) as (p' & mem' & pool' & T' & H' & K & L). rewrite T in T'. injection T' as <- <- <-. pose proof (ho_lt _ _ _ p H' (or_introl eq_refl)) as Lt. split; [exact Lt|]. split; [exact L|].
  intros r. rewrite <- L. set (v := g (look mem p)). set (s1 := mkPd _ _ (set_nth p v mem) _ _). pose proof (ho_not _ _ _ _ H') as [N _]. rewrite <- (look_same mem p v Lt). change (set_nth p v mem) with (pd_mem s1). apply process_sim with (pss := pss); auto.
  - rewrite E. cbn [s1 pd_mem]. apply map_ext_in. intros a A. apply map_ext_in. intros q Q. assert (I : In q (List.concat pss ++ map fst (pd_kept s))) by (apply in_or_app; left; apply in_concat; eauto). rewrite look_other by (intros ->; auto). symmetry. now apply K.
  - cbn [s1 pd_mem pd_pool]. now apply ho_set.
  - eapply kept_same; [|exact Kp]. cbn [s1 pd_mem pd_kept]. intros q Q. rewrite look_other by (intros ->; apply N; apply in_or_app; auto). apply K. apply in_or_app. auto.
Qed.

Lemma audio_sim o s d buf id data ts : poracle_ok o -> psim s d -> rel_res sim_out (on_audio_packet_ptr o s buf id data ts) (on_audio_packet (choices o (recycled o (pd_pool s))) d buf id data ts).
Proof.
  intros O (pss & F & E & H & Kp & Ed). unfold on_audio_packet_ptr, on_audio_packet. rewrite Ed. change (find_track (choices o false) (with_packets d []) buf) with (find_track (choices o (recycled o (pd_pool s))) d buf).
  destruct (find_track _ d buf) as [track| | |]; cbn [bind]; try exact I. eapply rel_bind with (R := track_sim d).
  - destruct track as [t|]; [apply keep_track|]. change (dm_completed (with_packets d [])) with (dm_completed d). destruct (dm_completed d); [apply keep_track|]. destruct (extract_audio_extra_data id data) as [[[extra x] config]| | |]; try exact I; [|apply keep_track].
    change (dm_name (with_packets d [])) with (dm_name d). destruct (get_timebase (dm_name d)); cbn [bind]; try exact I. apply audio_track_sim.
  - intros [d1 t1] [d2 t2] (E1 & E2 & E3). cbn [fst snd] in *. subst d1 t1. destruct t2 as [t|].
    + set (g := fun v => set_buffer (init_audio v data ts id (st_index t) (st_timebase t)) buf). set (s1 := on_d s (with_packets d2 [])). rewrite <- E2 in E.
      destruct (pool_take o (pd_mem s) (pd_pool s)) as [[p mem] pool] eqn:T. destruct (new_packet_sim o s1 d2 g pss O F E H Kp eq_refl p mem pool T) as (L & V & R). rewrite (load_look _ _ L). cbn [bind]. rewrite (store_set _ _ _ L). cbn [bind]. exact (R _).
    + split; [|reflexivity]. exists pss. cbn [fst]. rewrite E2. auto.
Qed.
Lemma set_twice {A} (v w : A) : forall m p, set_nth p w (set_nth p v m) = set_nth p w m.
Proof. induction m as [|x m IH]; intros [|p]; cbn [set_nth]; auto. now rewrite IH. Qed.
Lemma video_sim o s d buf id data key dts pts : poracle_ok o -> psim s d -> rel_res sim_out (on_video_packet_ptr o s buf id data key dts pts) (on_video_packet (choices o (recycled o (pd_pool s))) d buf id data key dts pts).
Proof.
  intros O (pss & F & E & H & Kp & Ed). unfold on_video_packet_ptr, on_video_packet. rewrite Ed. change (find_track (choices o false) (with_packets d []) buf) with (find_track (choices o (recycled o (pd_pool s))) d buf).
  destruct (find_track _ d buf) as [track| | |]; cbn [bind]; try exact I. eapply rel_bind with (R := track_sim d).
  - destruct track as [t|]; [apply keep_track|]. change (dm_completed (with_packets d [])) with (dm_completed d). change (dm_name (with_packets d [])) with (dm_name d). change (dm_tracks (with_packets d [])) with (dm_tracks d).
    destruct (negb (dm_completed d) && _); [|apply keep_track]. destruct (if key then _ else _) as [extra| | |]; cbn [bind]; try exact I.
    destruct (match extra with Some e => _ | None => _ end) as [[e|]| | |]; cbn [bind]; try exact I; [|apply keep_track]. destruct (get_timebase (dm_name d)); cbn [bind]; try exact I. now apply video_track_sim.
  - intros [d1 t1] [d2 t2] (E1 & E2 & E3). cbn [fst snd] in *. subst d1 t1. destruct t2 as [t|].
    + set (g := fun v => let p := set_buffer (init_video v data dts pts key (get_pack_type (dm_name d2)) id (st_index t) (st_timebase t)) buf in match dm_pre d2 with Some f => f p | None => p end). set (s1 := on_d s (with_packets d2 [])). rewrite <- E2 in E.
      destruct (pool_take o (pd_mem s) (pd_pool s)) as [[p mem] pool] eqn:T. destruct (new_packet_sim o s1 d2 g pss O F E H Kp eq_refl p mem pool T) as (L & V & R). rewrite (load_look _ _ L). cbn [bind]. rewrite (store_set _ _ _ L). cbn [bind].
      rewrite load_look by (rewrite set_nth_length; exact L). cbn [bind]. rewrite store_set by (rewrite set_nth_length; exact L). cbn [bind]. rewrite look_same by exact L.
      rewrite set_twice.
      exact (R _).
    + split; [|reflexivity]. exists pss. cbn [fst]. rewrite E2. auto.
Qed.

Lemma need_sim s d : psim s d -> need_more_ptr s = need_more d.
Proof.
  intros (pss & F & E & H & Kp & Ed). unfold need_more_ptr, need_more. rewrite Ed. change (dm_tracks (with_packets d [])) with (dm_tracks d). induction (dm_tracks d) as [|t ts IH]; [reflexivity|]. cbn [existsb]. rewrite IH. f_equal. f_equal.
  rewrite E. unfold idx. destruct (st_index t <? 0); [reflexivity|]. rewrite nth_error_map. pose proof (forall2_nth _ _ _ F (Z.to_nat (st_index t))) as X. destruct (nth_error (pd_lists s) _) as [l|], (nth_error pss _) as [ps|]; try contradiction; [|reflexivity].
  cbn [option_map]. rewrite (lrep_size _ _ X). unfold zlen. now rewrite map_length.
Qed.

Lemma step_sim o s d a : poracle_ok o -> psim s d -> rel_res sim_out (step_ptr o s a) (step (choices o (recycled o (pd_pool s))) d a).
Proof.
  intros O S. assert (Other : forall x y, rel_res (fun x y => fst x = with_packets (fst y) [] /\ dm_packets (fst y) = dm_packets d /\ snd x = snd y) x y -> rel_res sim_out ('(d0, e) <- x;; Ok (on_d s d0, e)) y).
  { intros x y R. destruct x as [[d0 e]| | |], y as [[d1 e']| | |]; cbn in R; try contradiction; try exact I. destruct R as (E1 & E2 & E3). cbn [fst snd] in *. subst. split; [|reflexivity]. destruct S as (pss & F & E & H & Kp & Ed). exists pss. cbn [fst on_d pd_lists pd_mem pd_pool pd_kept pd_d]. rewrite E2. auto. }
  pose proof S as (pss & F & E & H & Kp & Ed). destruct a; cbn [step_ptr step]; try (apply Other; rewrite Ed; cbn [rel_res]; cbn [bind]; (split; [reflexivity|split; reflexivity])).
  - apply Other. rewrite Ed. unfold on_new_audio_track. change (dm_tracks (with_packets d [])) with (dm_tracks d). change (dm_name (with_packets d [])) with (dm_name d). eapply rel_bind with (R := track_sim d).
    + destruct (tm_find_type _ _); [destruct (_ =? "ts")%string; [|apply keep_track]|]; apply audio_track_sim.
    + intros [d1 t1] [d2 t2] (E1 & E2 & E3). cbn [fst snd] in *. subst. split; auto.
  - apply Other. rewrite Ed. unfold on_new_video_track. change (dm_tracks (with_packets d [])) with (dm_tracks d). change (dm_name (with_packets d [])) with (dm_name d). eapply rel_bind with (R := track_sim d).
    + destruct (tm_find_type _ _); [destruct (_ =? "ts")%string; [|apply keep_track]|]; now apply video_track_sim.
    + intros [d1 t1] [d2 t2] (E1 & E2 & E3). cbn [fst snd] in *. subst. split; auto.
  - now apply audio_sim.
  - now apply video_sim.
  - now apply complete_sim.
  - unfold try_complete_probe_ptr, try_complete_probe. rewrite (need_sim _ _ S). destruct (need_more d); [split; [exact S|reflexivity]|]. now apply complete_sim.
  - apply Other. rewrite Ed. unfold find_buffer_index. change (dm_ordered (with_packets d [])) with (dm_ordered d). destruct (marker_index (dm_ordered d) 0 marker); split; auto.
Qed.

(** ** Histories *)
Lemma perm_sorted o r : poracle_ok o -> oracle_ok (choices o r).
Proof.
  intros O l. destruct (O l) as [P S]. split; [|exact S]. cbn [choices or_sort]. unfold order. rewrite P. now rewrite map_nth_seq.
Qed.
Lemma run_sim : forall h s d, Forall (fun x => poracle_ok (fst x)) h -> psim s d -> exists h', map snd h' = map snd h /\ Forall (fun x => oracle_ok (fst x)) h' /\
  (forall i po a, nth_error h i = Some (po, a) -> exists r, nth_error h' i = Some (choices po r, a)) /\ rel_res sim_out (run_ptr s h) (run d h').
Proof.
  induction h as [|[o a] h IH]; intros s d O S.
  - exists []. split; [reflexivity|]. split; [constructor|]. split; [intros [|i] ? ? X; discriminate X|]. split; [exact S|reflexivity].
  - apply Forall_cons_iff in O as [O1 O2]. cbn [fst] in O1. set (r := recycled o (pd_pool s)). pose proof (step_sim o s d a O1 S) as T. fold r in T. cbn [run_ptr].
    destruct (step_ptr o s a) as [[s1 e]| | |] eqn:Es; [|exists ((choices o r, a) :: map (fun x => (choices (fst x) r, snd x)) h)..].
    + destruct (step (choices o r) d a) as [[d1 e']| | |] eqn:Ed; cbn in T; try contradiction. destruct T as [S1 E1]. cbn [fst snd] in *. subst e'. destruct (IH s1 d1 O2 S1) as (h' & M & Oh & Nh & R). exists ((choices o r, a) :: h').
      split; [cbn [map snd]; now rewrite M|]. split; [constructor; [now apply perm_sorted|exact Oh]|]. split; [intros [|i] po b X; cbn in *; [injection X as <- <-; eauto|now apply Nh]|].
      cbn [bind run]. rewrite Ed. cbn [bind]. eapply rel_bind; [exact R|]. intros [s2 e2] [d2 e2'] [S2 E2]. cbn [fst snd] in *. subst. split; [exact S2|reflexivity].
    + destruct (step (choices o r) d a) eqn:Ed; cbn in T; try contradiction. split; [cbn [map snd]; f_equal; now rewrite map_map|]. split; [constructor; [now apply perm_sorted|]|]; [|split; [|cbn [run bind]; rewrite Ed; exact I]].
      * apply Forall_map. eapply Forall_impl; [|exact O2]. intros x X. now apply perm_sorted.
      * intros [|i] po b X; cbn in *; [injection X as <- <-; eauto|]. exists r. rewrite nth_error_map, X. reflexivity.
    + destruct (step (choices o r) d a) eqn:Ed; cbn in T; try contradiction. split; [cbn [map snd]; f_equal; now rewrite map_map|]. split; [constructor; [now apply perm_sorted|]|]; [|split; [|cbn [run bind]; rewrite Ed; exact I]].
      * apply Forall_map. eapply Forall_impl; [|exact O2]. intros x X. now apply perm_sorted.
      * intros [|i] po b X; cbn in *; [injection X as <- <-; eauto|]. exists r. rewrite nth_error_map, X. reflexivity.
    + destruct (step (choices o r) d a) eqn:Ed; cbn in T; try contradiction. split; [cbn [map snd]; f_equal; now rewrite map_map|]. split; [constructor; [now apply perm_sorted|]|]; [|split; [|cbn [run bind]; rewrite Ed; exact I]].
      * apply Forall_map. eapply Forall_impl; [|exact O2]. intros x X. now apply perm_sorted.
      * intros [|i] po b X; cbn in *; [injection X as <- <-; eauto|]. exists r. rewrite nth_error_map, X. reflexivity.
Qed.
Lemma psim_new name : psim (pd_new name) (dm_new name).
Proof. exists []. split; [constructor|]. split; [reflexivity|]. split; [constructor; constructor|]. split; [constructor|reflexivity]. Qed.

(** ** What is kept *)
Definition keeps (s : pdm) (k' : list (nat * packet)) (e : list event) : Prop := exists new, k' = new ++ pd_kept s /\ (dm_autofree (pd_d s) = false -> map snd (rev new) = delivered e).
Lemma forward_kept d mem pool kept p mem' pool' kept' e : forward_ptr d mem pool kept p = Ok (mem', pool', kept', e) -> exists new, kept' = new ++ kept /\ (dm_autofree d = false -> map snd (rev new) = delivered e).
Proof.
  unfold forward_ptr. destruct (load mem p) as [pkt| | |]; cbn [bind]; try discriminate. destruct (negb (dm_handler d)); [discriminate|]. destruct (dm_autofree d).
  - destruct (map_find _ _); [|discriminate]. destruct (store _ _ _); cbn [bind]; try discriminate. intros E. injection E as <- <- <- <-. exists []. split; [reflexivity|discriminate].
  - intros E. injection E as <- <- <- <-. exists [(p, pkt)]. split; reflexivity.
Qed.
Lemma forwards_kept d : forall l mem pool kept mem' pool' kept' e, forward_ptrs d mem pool kept l = Ok (mem', pool', kept', e) -> exists new, kept' = new ++ kept /\ (dm_autofree d = false -> map snd (rev new) = delivered e).
Proof.
  induction l as [|p l IH]; intros mem pool kept mem' pool' kept' e; cbn [forward_ptrs]; [intros E; injection E as <- <- <- <-; exists []; split; reflexivity|].
  destruct (forward_ptr d mem pool kept p) as [[[[m1 p1] k1] e1]| | |] eqn:E1; cbn [bind]; try discriminate. destruct (forward_ptrs d m1 p1 k1 l) as [[[[m2 p2] k2] e2]| | |] eqn:E2; cbn [bind]; try discriminate. intros E. injection E as <- <- <- <-.
  apply forward_kept in E1 as (n1 & -> & D1). apply IH in E2 as (n2 & -> & D2). exists (n2 ++ n1). split; [apply app_assoc|]. intros A. rewrite rev_app_distr, map_app, D1, D2 by exact A. unfold delivered. now rewrite flat_map_app.
Qed.
Lemma delivered_add p n e : delivered (EvAdd p n :: e) = delivered e.
Proof. reflexivity. Qed.
Lemma complete_kept o s s' e : on_probe_complete_ptr o s = Ok (s', e) -> keeps s (pd_kept s') e /\ dm_autofree (pd_d s') = dm_autofree (pd_d s).
Proof.
  unfold on_probe_complete_ptr. destruct (dm_completed (pd_d s)); [intros E; injection E as <- <-; split; [exists []; split; reflexivity|reflexivity]|]. cbv zeta. change (dm_tracks (with_completed (pd_d s))) with (dm_tracks (pd_d s)).
  destruct (dm_tracks (pd_d s)); [destruct (dm_handler _); [|discriminate]; intros E; injection E as <- <-; split; [exists []; split; reflexivity|reflexivity]|].
  destruct (prepare_ptr _ _ _ _) as [ts| | |]; cbn [bind]; try discriminate. destruct (negb _); [discriminate|]. destruct (collect _) as [[result lists]| | |]; cbn [bind]; try discriminate. destruct (sort_ptrs _ _ _) as [sorted| | |]; cbn [bind]; try discriminate.
  destruct (forward_ptrs _ _ _ _ _) as [[[[m p] k] e1]| | |] eqn:F; cbn [bind]; try discriminate. intros E. injection E as <- <-. split; [|reflexivity]. apply forwards_kept in F as (new & -> & D). exists new. split; [reflexivity|]. intros A. rewrite D by exact A.
  unfold delivered. rewrite flat_map_app. replace (flat_map _ (map EvNewTrack ts)) with (@nil packet); [reflexivity|]. clear. induction ts; auto.
Qed.
Lemma process_kept o s p s' e : process_ptr o s p = Ok (s', e) -> keeps s (pd_kept s') e /\ dm_autofree (pd_d s') = dm_autofree (pd_d s).
Proof.
  unfold process_ptr. destruct (load _ _) as [pkt| | |]; cbn [bind]; try discriminate. destruct (of_opt _) as [l| | |]; cbn [bind]; try discriminate. destruct (ll_add l p) as [l1| | |]; cbn [bind]; try discriminate. destruct (_ <? 0).
  - destruct (of_opt _); cbn [bind]; try discriminate. intros E. injection E as <- <-. split; [exists []; split; reflexivity|reflexivity].
  - destruct (ll_get _ _) as [qp| | |]; cbn [bind]; try discriminate. destruct (load _ qp) as [q| | |]; cbn [bind]; try discriminate. destruct (store _ _ _) as [mem| | |]; cbn [bind]; try discriminate. destruct (dm_completed _).
    + destruct (ll_remove _ _) as [[rp l2]| | |]; cbn [bind]; try discriminate. destruct (of_opt _); cbn [bind]; try discriminate. destruct (forward_ptr _ _ _ _ _) as [[[[m p1] k] e1]| | |] eqn:F; cbn [bind]; try discriminate. intros E. injection E as <- <-. split; [|reflexivity]. exact (forward_kept _ _ _ _ _ _ _ _ _ F).
    + destruct (of_opt _); cbn [bind]; try discriminate. destruct (sum_ms _ _ _ _ _ _) as [dur| | |]; cbn [bind]; try discriminate. destruct (_ <=? dur).
      * destruct (on_probe_complete_ptr _ _) as [[s2 e2]| | |] eqn:C; cbn [bind]; try discriminate. intros E. injection E as <- <-. apply complete_kept in C as [(new & K & D) A]. split; [|exact A]. exists new. split; [exact K|exact D].
      * intros E. injection E as <- <-. split; [exists []; split; reflexivity|reflexivity].
Qed.
Lemma audio_track_free d buf id tb extra c d1 t : create_audio_track d buf id tb extra c = Ok (d1, t) -> dm_autofree d1 = dm_autofree d.
Proof.
  unfold create_audio_track, add_track. cbv zeta. destruct (_ && _); [destruct extra as [e|]; [|discriminate]; destruct (parse_asc e); try discriminate; [|intros E; now injection E as <- <-]|]; destruct (dm_completed d); intros E; now injection E as <- <-.
Qed.
Lemma video_track_free o d buf id tb extra d1 t : create_video_track o d buf id tb extra = Ok (d1, t) -> dm_autofree d1 = dm_autofree d.
Proof.
  unfold create_video_track, add_track. destruct (generate_video_codec_data _ _ _ _); try discriminate; [|intros E; now injection E as <- <-]. destruct (dm_completed d); intros E; now injection E as <- <-.
Qed.
Definition frees (a : op) : bool := match a with OpSetAutoFree b => b | _ => false end.
Lemma step_kept o s a s' e : step_ptr o s a = Ok (s', e) -> keeps s (pd_kept s') e /\ (frees a = false -> dm_autofree (pd_d s) = false -> dm_autofree (pd_d s') = false).
Proof.
  assert (K0 : forall d e, delivered e = [] -> keeps s (pd_kept (on_d s d)) e) by (intros d0 e0 D; exists []; split; [reflexivity|intros _; now rewrite D]).
  destruct a; cbn [step_ptr step bind].
  - unfold on_new_audio_track. destruct (match tm_find_type _ _ with Some _ => _ | None => _ end) as [[d1 t]| | |] eqn:T; cbn [bind]; try discriminate. intros E. injection E as <- <-. split; [apply K0; unfold discard_if; now destruct (_ <? _)|]. intros _ A. cbn [on_d pd_d]. rewrite <- A.
    destruct (tm_find_type _ _); [destruct (_ =? _)%string; [|now injection T as <- <-]|]; now apply audio_track_free in T.
  - unfold on_new_video_track. destruct (match tm_find_type _ _ with Some _ => _ | None => _ end) as [[d1 t]| | |] eqn:T; cbn [bind]; try discriminate. intros E. injection E as <- <-. split; [apply K0; unfold discard_if; now destruct (_ <? _)|]. intros _ A. cbn [on_d pd_d]. rewrite <- A.
    destruct (tm_find_type _ _); [destruct (_ =? _)%string; [|now injection T as <- <-]|]; now apply video_track_free in T.
  - unfold on_audio_packet_ptr. destruct (find_track _ _ _) as [track| | |]; cbn [bind]; try discriminate. destruct (match track with Some t => _ | None => _ end) as [[d1 t]| | |] eqn:T; cbn [bind]; try discriminate.
    assert (A1 : dm_autofree d1 = dm_autofree (pd_d s)).
    { destruct track; [now injection T as <- <-|]. destruct (dm_completed _); [now injection T as <- <-|]. destruct (extract_audio_extra_data _ _) as [[[x y] z]| | |]; try discriminate; [|now injection T as <- <-]. destruct (get_timebase _); cbn [bind] in T; try discriminate. now apply audio_track_free in T. }
    destruct t as [t|]; [|intros E; injection E as <- <-; split; [now apply K0|intros _ A; cbn [on_d pd_d]; congruence]]. destruct (pool_take _ _ _) as [[p mem] pool]. destruct (load _ _); cbn [bind]; try discriminate. destruct (store _ _ _); cbn [bind]; try discriminate.
    intros E. apply process_kept in E as [(new & K & D) A]. cbn [pd_kept pd_d] in *. split; [exists new; split; [exact K|]; intros B; apply D; cbn [pd_d]; congruence|]. intros _ B. congruence.
  - unfold on_video_packet_ptr. destruct (find_track _ _ _) as [track| | |]; cbn [bind]; try discriminate. destruct (match track with Some t => _ | None => _ end) as [[d1 t]| | |] eqn:T; cbn [bind]; try discriminate.
    assert (A1 : dm_autofree d1 = dm_autofree (pd_d s)).
    { destruct track; [now injection T as <- <-|]. destruct (_ && _); [|now injection T as <- <-]. destruct (if key then _ else _) as [extra| | |]; cbn [bind] in T; try discriminate. destruct (match extra with Some e0 => _ | None => _ end) as [[x|]| | |]; cbn [bind] in T; try discriminate; [|now injection T as <- <-].
      destruct (get_timebase _); cbn [bind] in T; try discriminate. now apply video_track_free in T. }
    destruct t as [t|]; [|intros E; injection E as <- <-; split; [now apply K0|intros _ A; cbn [on_d pd_d]; congruence]]. destruct (pool_take _ _ _) as [[p mem] pool]. destruct (load _ _); cbn [bind]; try discriminate. destruct (store _ _ _) as [mem1| | |]; cbn [bind]; try discriminate.
    destruct (load mem1 _); cbn [bind]; try discriminate. destruct (store mem1 _ _); cbn [bind]; try discriminate. intros E. apply process_kept in E as [(new & K & D) A]. cbn [pd_kept pd_d] in *. split; [exists new; split; [exact K|]; intros B; apply D; cbn [pd_d]; congruence|]. intros _ B. congruence.
  - intros E. apply complete_kept in E as [K A]. split; [exact K|]. intros _ B. congruence.
  - unfold try_complete_probe_ptr. destruct (need_more_ptr s); [intros E; injection E as <- <-; split; [exists []; split; reflexivity|auto]|]. intros E. apply complete_kept in E as [K A]. split; [exact K|]. intros _ B. congruence.
  - intros E. injection E as <- <-. split; [now apply K0|]. auto.
  - intros E. injection E as <- <-. split; [now apply K0|]. auto.
  - intros E. injection E as <- <-. split; [now apply K0|]. auto.
  - intros E. injection E as <- <-. split; [now apply K0|]. cbn [frees]. intros ->. auto.
  - intros E. injection E as <- <-. split; [now apply K0|]. auto.
  - destruct (find_buffer_index (pd_d s) marker) as [d1 i] eqn:Fb. cbn [bind]. intros E. injection E as <- <-. split; [now apply K0|]. intros _ A. cbn [on_d pd_d]. rewrite <- A. unfold find_buffer_index in Fb. destruct (marker_index _ _ _); injection Fb as <- <-; reflexivity.
  - intros E. injection E as <- <-. split; [now apply K0|]. auto.
  - intros E. injection E as <- <-. split; [now apply K0|]. auto.
Qed.
Lemma run_kept : forall h s s' e, run_ptr s h = Ok (s', e) -> exists new, pd_kept s' = new ++ pd_kept s /\ (Forall (fun x => frees (snd x) = false) h -> dm_autofree (pd_d s) = false -> map snd (rev new) = delivered e).
Proof.
  induction h as [|[o a] h IH]; intros s s' e; cbn [run_ptr]; [intros E; injection E as <- <-; exists []; split; reflexivity|].
  destruct (step_ptr o s a) as [[s1 e1]| | |] eqn:E1; cbn [bind]; try discriminate. destruct (run_ptr s1 h) as [[s2 e2]| | |] eqn:E2; cbn [bind]; try discriminate. intros E. injection E as <- <-.
  apply step_kept in E1 as [(n1 & K1 & D1) A]. apply IH in E2 as (n2 & K2 & D2). exists (n2 ++ n1). split; [rewrite K2, K1; apply app_assoc|]. intros F B. apply Forall_cons_iff in F as [F1 F2]. cbn [snd] in F1.
  rewrite rev_app_distr, map_app, D1, D2; auto. unfold delivered. now rewrite flat_map_app.
Qed.

Lemma NoDup_app_remove_l {A} (l l' : list A) : NoDup (l ++ l') -> NoDup l'.
Proof. induction l as [|a l IH]; intros H; [exact H|]. inversion H; subst. auto. Qed.
Lemma NoDup_app_remove_r {A} (l l' : list A) : NoDup (l ++ l') -> NoDup l.
Proof. induction l as [|a l IH]; intros H; [constructor|]. inversion H; subst. constructor; [|auto]. intros I. apply H2. apply in_or_app. auto. Qed.

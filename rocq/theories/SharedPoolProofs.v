(** * SharedPoolProofs: demuxers that share the packet pool do not influence each other. *)
From Verif Require Import Base RingProofs CollectionsModel CollectionsSpec BlockModel BlockSpec HeapProofs LinkedListProofs PacketModel DemuxModel DemuxPtrModel DemuxPtrProofs BlockQueueProofs SharedPoolModel.
From Coq Require Import String Permutation.
Local Open Scope list_scope.

(** ** What has been kept before makes no difference *)
Definition plus (K : list (nat * packet)) (s : pdm) : pdm := mkPd (pd_d s) (pd_lists s) (pd_mem s) (pd_pool s) (pd_kept s ++ K).
Definition plus_res (K : list (nat * packet)) (r : res (pdm * list event)) : res (pdm * list event) := '(s, e) <- r;; Ok (plus K s, e).

Lemma forward_plus K d mem pool kept p : forward_ptr d mem pool (kept ++ K) p = '(m, q, k, e) <- forward_ptr d mem pool kept p;; Ok (m, q, k ++ K, e).
Proof.
  unfold forward_ptr. destruct (load mem p) as [v| | |]; cbn [bind]; try reflexivity. destruct (negb _); [reflexivity|]. destruct (dm_autofree d); [|reflexivity].
  destruct (map_find _ _); [|reflexivity]. destruct (store _ _ _); reflexivity.
Qed.
Lemma forwards_plus K d : forall l mem pool kept, forward_ptrs d mem pool (kept ++ K) l = '(m, q, k, e) <- forward_ptrs d mem pool kept l;; Ok (m, q, k ++ K, e).
Proof.
  induction l as [|p l IH]; intros mem pool kept; cbn [forward_ptrs]; [reflexivity|]. rewrite forward_plus. destruct (forward_ptr d mem pool kept p) as [[[[m q] k] e]| | |]; cbn [bind]; try reflexivity.
  rewrite IH. destruct (forward_ptrs d m q k l) as [[[[m' q'] k'] e']| | |]; reflexivity.
Qed.
Lemma complete_plus K o s : on_probe_complete_ptr o (plus K s) = plus_res K (on_probe_complete_ptr o s).
Proof.
  destruct s as [d lists mem pool kept]. unfold on_probe_complete_ptr, plus. cbn [pd_d pd_lists pd_mem pd_pool pd_kept]. destruct (dm_completed d); [reflexivity|]. cbv zeta.
  destruct (dm_tracks (with_completed d)); [destruct (dm_handler _); reflexivity|]. destruct (prepare_ptr _ _ _ _) as [ts| | |]; cbn [bind]; try reflexivity. destruct (negb _); [reflexivity|].
  destruct (collect _) as [[r ls]| | |]; cbn [bind]; try reflexivity. destruct (sort_ptrs _ _ _) as [so| | |]; cbn [bind]; try reflexivity. rewrite forwards_plus.
  destruct (forward_ptrs _ _ _ kept so) as [[[[m q] k] e]| | |]; reflexivity.
Qed.
Lemma process_plus K o s p : process_ptr o (plus K s) p = plus_res K (process_ptr o s p).
Proof.
  destruct s as [d lists mem pool kept]. unfold process_ptr, plus. cbn [pd_d pd_lists pd_mem pd_pool pd_kept]. cbv zeta. destruct (load mem p) as [v| | |]; cbn [bind]; try reflexivity.
  destruct (of_opt (idx _ _)) as [l| | |]; cbn [bind]; try reflexivity. destruct (ll_add l p) as [l1| | |]; cbn [bind]; try reflexivity. destruct (_ <? 0).
  { destruct (of_opt _); reflexivity. }
  destruct (ll_get _ _) as [qp| | |]; cbn [bind]; try reflexivity. destruct (load mem qp) as [q| | |]; cbn [bind]; try reflexivity. destruct (store _ _ _) as [m| | |]; cbn [bind]; try reflexivity.
  destruct (dm_completed d).
  - destruct (ll_remove _ _) as [[rp l2]| | |]; cbn [bind]; try reflexivity. destruct (of_opt _); cbn [bind]; try reflexivity. rewrite forward_plus.
    destruct (forward_ptr _ _ _ kept rp) as [[[[m' q'] k'] e']| | |]; reflexivity.
  - destruct (of_opt _) as [ls| | |]; cbn [bind]; try reflexivity. destruct (sum_ms _ _ _ _ _ _) as [du| | |]; cbn [bind]; try reflexivity. destruct (_ <=? _); [|reflexivity].
    change (mkPd d ls m pool (kept ++ K)) with (plus K (mkPd d ls m pool kept)). rewrite complete_plus. destruct (on_probe_complete_ptr _ _) as [[s e]| | |]; reflexivity.
Qed.
Lemma step_plus K o s a : step_ptr o (plus K s) a = plus_res K (step_ptr o s a).
Proof.
  destruct a; cbn [step_ptr]; change (pd_d (plus K s)) with (pd_d s);
    try (match goal with |- context [step ?o ?d ?a] => destruct (step o d a) as [[d1 e1]| | |]; reflexivity end).
  - unfold on_audio_packet_ptr. change (pd_d (plus K s)) with (pd_d s). change (pd_mem (plus K s)) with (pd_mem s). change (pd_pool (plus K s)) with (pd_pool s). change (pd_lists (plus K s)) with (pd_lists s).
    destruct (find_track _ _ _) as [tr| | |]; cbn [bind]; try reflexivity. match goal with |- bind ?e _ = _ => destruct e as [[d1 [t|]]| | |]; cbn [bind]; try reflexivity end.
    destruct (pool_take _ _ _) as [[p mem] pool]. destruct (load mem p) as [v| | |]; cbn [bind]; try reflexivity. destruct (store _ _ _) as [m| | |]; cbn [bind]; try reflexivity.
    apply (process_plus K o (mkPd d1 (pd_lists s) m pool (pd_kept s))).
  - unfold on_video_packet_ptr. change (pd_d (plus K s)) with (pd_d s). change (pd_mem (plus K s)) with (pd_mem s). change (pd_pool (plus K s)) with (pd_pool s). change (pd_lists (plus K s)) with (pd_lists s).
    destruct (find_track _ _ _) as [tr| | |]; cbn [bind]; try reflexivity. match goal with |- bind ?e _ = _ => destruct e as [[d1 [t|]]| | |]; cbn [bind]; try reflexivity end.
    destruct (pool_take _ _ _) as [[p mem] pool]. destruct (load mem p) as [v| | |]; cbn [bind]; try reflexivity. destruct (store _ _ _) as [m| | |]; cbn [bind]; try reflexivity.
    destruct (load m p) as [v1| | |]; cbn [bind]; try reflexivity. destruct (store _ _ _) as [m2| | |]; cbn [bind]; try reflexivity.
    apply (process_plus K o (mkPd d1 (pd_lists s) m2 pool (pd_kept s))).
  - apply complete_plus.
  - unfold try_complete_probe_ptr. change (need_more_ptr (plus K s)) with (need_more_ptr s). destruct (need_more_ptr s); [reflexivity|]. apply complete_plus.
Qed.

(** ** The demuxers of a world as demuxers over lists of packets *)
Definition holds (mem : list packet) (p : part) (x : demuxer * list (list nat)) : Prop :=
  Forall2 lrep (pt_lists p) (snd x) /\ dm_packets (fst x) = map (map (look mem)) (snd x) /\ pt_d p = with_packets (fst x) [].
Definition owned (xs : list (demuxer * list (list nat))) : list nat := List.concat (map (fun x => List.concat (snd x)) xs).
Definition wsim (w : world) (xs : list (demuxer * list (list nat))) : Prop :=
  Forall2 (holds (w_mem w)) (w_parts w) xs /\ heap_ok (w_mem w) (w_pool w) (owned xs ++ map fst (w_kept w)) /\ kept_ok (w_mem w) (w_kept w).
Lemma owned_app a b : owned (a ++ b) = owned a ++ owned b.
Proof. unfold owned. now rewrite map_app, concat_app. Qed.
Lemma owned_cons x b : owned (x :: b) = List.concat (snd x) ++ owned b.
Proof. reflexivity. Qed.
Lemma holds_same mem mem' ps xs : (forall q, In q (owned xs) -> look mem' q = look mem q) -> Forall2 (holds mem) ps xs -> Forall2 (holds mem') ps xs.
Proof.
  intros E F. induction F as [|p x ps xs (L & P & D) F IH]; constructor.
  - split; [exact L|]. split; [|exact D]. rewrite P. apply map_ext_in. intros l Il. apply map_ext_in. intros q Iq. symmetry. apply E. rewrite owned_cons. apply in_or_app. left. apply in_concat. eauto.
  - apply IH. intros q Q. apply E. rewrite owned_cons. apply in_or_app. auto.
Qed.
Lemma app_set {A} n (a b : list A) x y : List.length a = n -> set_nth n y (a ++ x :: b) = a ++ y :: b.
Proof. intros <-. induction a as [|z a IH]; [reflexivity|]. cbn [List.length app set_nth]. now rewrite IH. Qed.

Lemma turn {A} (a x b k : list A) : Permutation (a ++ x ++ b ++ k) (x ++ k ++ a ++ b).
Proof. rewrite (Permutation_app_swap_app a x). apply Permutation_app_head. rewrite app_assoc. apply Permutation_app_comm. Qed.

Definition world_out (i : nat) (xs : list (demuxer * list (list nat))) (y : world * list (nat * event)) (z : demuxer * list event) : Prop :=
  exists pss, wsim (fst y) (set_nth i (fst z, pss) xs) /\ snd y = map (pair i) (snd z).
Lemma step_world_sim w xs i x o a : poracle_ok o -> wsim w xs -> nth_error xs i = Some x -> rel_res (world_out i xs) (step_world w i o a) (step (choices o (recycled o (w_pool w))) (fst x) a).
Proof.
  intros O (F & H & Kp) N. apply nth_error_split in N as (XA & XB & -> & L). apply Forall2_app_inv_r in F as (PA & PB & FA & FB & Ep). inversion FB as [|p ? PB' ? Hp FB' E1 E2]; subst PB. clear FB.
  assert (La : List.length PA = i) by (rewrite <- L; clear -FA; induction FA; cbn; auto). unfold step_world. rewrite Ep. rewrite nth_error_app2 by lia. replace (i - List.length PA)%nat with 0%nat by lia. cbn [nth_error].
  set (Q := owned XA ++ owned XB). set (K := map (fun q => (q, look (w_mem w) q)) Q). destruct Hp as (Hl & Hk & Hd).
  assert (KQ : map fst K = Q) by (unfold K; rewrite map_map; cbn [fst]; apply map_id).
  assert (S : psim (plus K (view w p)) (fst x)).
  { exists (snd x). unfold plus, view. cbn [pd_d pd_lists pd_mem pd_pool pd_kept]. split; [exact Hl|]. split; [exact Hk|]. split; [|split; [|exact Hd]].
    - eapply ho_perm; [|exact H]. rewrite map_app, KQ, owned_app, owned_cons. unfold Q. rewrite <- !app_assoc. apply turn.
    - unfold kept_ok in *. apply Forall_app. split; [exact Kp|]. unfold K. apply Forall_map. apply Forall_forall. reflexivity. }
  pose proof (step_sim o _ _ a O S) as T. rewrite step_plus in T. change (pd_pool (plus K (view w p))) with (w_pool w) in T.
  destruct (step_ptr o (view w p) a) as [[s e]| | |], (step _ (fst x) a) as [[d e']| | |]; cbn [bind plus_res rel_res] in *; try contradiction; try exact I.
  destruct T as ((pss & F1 & P1 & H1 & K1 & D1) & E1'). cbn [fst snd plus pd_d pd_lists pd_mem pd_pool pd_kept] in *. subst e'. exists pss. split; [|reflexivity]. cbn [fst].
  rewrite !app_set by assumption. rewrite map_app, KQ in H1. unfold kept_ok in K1. apply Forall_app in K1 as [K1 K2].
  assert (Same : forall q, In q Q -> look (pd_mem s) q = look (w_mem w) q).
  { intros q Iq. rewrite Forall_forall in K2. apply (K2 (q, look (w_mem w) q)). unfold K. now apply (in_map (fun q => (q, look (w_mem w) q))). }
  split; [|split; [|exact K1]]; cbn [w_parts w_mem w_pool w_kept].
  - apply Forall2_app; [|constructor].
    + eapply holds_same; [|exact FA]. intros q Iq. apply Same. apply in_or_app. auto.
    + split; [exact F1|]. split; [exact P1|exact D1].
    + eapply holds_same; [|exact FB']. intros q Iq. apply Same. apply in_or_app. auto.
  - eapply ho_perm; [|exact H1]. rewrite owned_app, owned_cons. cbn [snd]. unfold Q. symmetry. rewrite <- !app_assoc. apply turn.
Qed.

Definition history_of (l : list (poracle * op)) (h : list (oracle * op)) : Prop := Forall2 (fun x y => exists r, y = (choices (fst x) r, snd x)) l h.
Definition failed {A B} (x : res A) (y : res B) : Prop := match x, y with Err, Err | Panic, Panic | NoFuel, NoFuel => True | _, _ => False end.
Lemma history_any l : history_of l (map (fun x => (choices (fst x) false, snd x)) l).
Proof. induction l as [|x l IH]; constructor; eauto. Qed.
Lemma history_sorting l h : Forall (fun x => poracle_ok (fst x)) l -> history_of l h -> Forall (fun x => oracle_ok (fst x)) h.
Proof. intros F H. induction H as [|x y l h (r & ->) H IH]; [constructor|]. apply Forall_cons_iff in F as [F1 F2]. constructor; [now apply perm_sorted|auto]. Qed.
Lemma calls_cons i j o a l : calls_of i ((j, o, a) :: l) = if (j =? i)%nat then (o, a) :: calls_of i l else calls_of i l.
Proof. unfold calls_of. cbn [filter fst]. now destruct (j =? i)%nat. Qed.
Lemma events_app {A} i (a b : list (nat * A)) : events_of i (a ++ b) = events_of i a ++ events_of i b.
Proof. unfold events_of. now rewrite filter_app, map_app. Qed.
Lemma events_pair {A} i j (e : list A) : events_of i (map (pair j) e) = if (j =? i)%nat then e else [].
Proof. unfold events_of. induction e as [|x e IH]; cbn [map filter fst]; destruct (j =? i)%nat eqn:E; try reflexivity; cbn [map snd]; now rewrite IH. Qed.

Lemma run_world_sim : forall l w xs, Forall (fun x => poracle_ok (snd (fst x))) l -> wsim w xs -> exists hs : nat -> list (oracle * op), (forall i, history_of (calls_of i l) (hs i)) /\
  match run_world w l with
  | Ok (w', e) => exists xs', wsim w' xs' /\ List.length xs' = List.length xs /\ forall i x, nth_error xs i = Some x -> exists x', nth_error xs' i = Some x' /\ run (fst x) (hs i) = Ok (fst x', events_of i e)
  | r => exists i x, nth_error xs i = Some x /\ failed r (run (fst x) (hs i))
  end.
Proof.
  induction l as [|[[i o] a] l IH]; intros w xs O S.
  - exists (fun _ => []). split; [intros i; constructor|]. cbn [run_world]. exists xs. split; [exact S|]. split; [reflexivity|]. intros i x N. exists x. split; [exact N|reflexivity].
  - apply Forall_cons_iff in O as [O1 O2]. cbn [fst snd] in O1. cbn [run_world]. set (r := recycled o (w_pool w)).
    set (put := fun (hs : nat -> list (oracle * op)) j => if (i =? j)%nat then (choices o r, a) :: hs j else hs j).
    assert (Hp : forall hs, (forall j, history_of (calls_of j l) (hs j)) -> forall j, history_of (calls_of j ((i, o, a) :: l)) (put hs j)).
    { intros hs Hh j. rewrite calls_cons. unfold put. destruct (i =? j)%nat; [|apply Hh]. constructor; [cbn [fst snd]; eauto|apply Hh]. }
    destruct (nth_error xs i) as [x|] eqn:N.
    + pose proof (step_world_sim w xs i x o a O1 S N) as T. fold r in T. destruct (step_world w i o a) as [[w1 e]| | |] eqn:Ew, (step (choices o r) (fst x) a) as [[d1 e1]| | |] eqn:Es; cbn [rel_res] in T; try contradiction; cbn [bind].
      2-4: exists (put (fun j => map (fun x => (choices (fst x) false, snd x)) (calls_of j l))); (split; [apply Hp; intros j; apply history_any|]); exists i, x; (split; [exact N|]); unfold put; rewrite Nat.eqb_refl; cbn [run]; rewrite Es; exact I.
      destruct T as (pss & S1 & Ee). cbn [fst snd] in *. destruct (IH w1 _ O2 S1) as (hs & Hh & R). exists (put hs). split; [now apply Hp|].
      assert (Bi : (i < List.length xs)%nat) by (apply nth_error_Some; congruence).
      assert (Nj : forall j, j <> i -> nth_error (set_nth i (d1, pss) xs) j = nth_error xs j) by (intros j J; apply set_nth_other; auto).
      destruct (run_world w1 l) as [[w2 e2]| | |]; cbn [bind].
      2-4: destruct R as (j & y & Ny & Fy); exists j; destruct (Nat.eq_dec j i) as [->|J];
        [rewrite set_nth_same in Ny by exact Bi; injection Ny as <-; exists x; split; [exact N|]; unfold put; rewrite Nat.eqb_refl; cbn [run]; rewrite Es; cbn [bind]; cbn [fst] in Fy; destruct (run d1 (hs i)) as [[? ?]| | |]; try contradiction; exact I
        |rewrite Nj in Ny by exact J; exists y; split; [exact Ny|]; unfold put; replace (i =? j)%nat with false by lia; exact Fy].
      destruct R as (xs' & S2 & L2 & R). exists xs'. split; [exact S2|]. split; [rewrite L2; apply set_nth_length|]. intros j y Ny. rewrite events_app. subst e. rewrite events_pair. unfold put. destruct (Nat.eq_dec j i) as [->|J].
      * rewrite Nat.eqb_refl. rewrite N in Ny. injection Ny as <-. destruct (R i (d1, pss)) as (x' & Nx & Rx); [now apply set_nth_same|]. exists x'. split; [exact Nx|]. cbn [run]. rewrite Es. cbn [bind]. cbn [fst] in Rx. rewrite Rx. reflexivity.
      * replace (i =? j)%nat with false by lia. cbn [app]. apply R. now rewrite Nj.
    + unfold step_world. assert (Np : nth_error (w_parts w) i = None). { apply nth_error_None. apply nth_error_None in N. destruct S as (F & _). enough (List.length (w_parts w) = List.length xs) by lia. clear -F. induction F; cbn; auto. }
      rewrite Np. cbn [bind]. destruct (IH w xs O2 S) as (hs & Hh & R). exists (put hs). split; [now apply Hp|].
      assert (Pj : forall j y, nth_error xs j = Some y -> put hs j = hs j) by (intros j y J; unfold put; replace (i =? j)%nat with false; [reflexivity|]; symmetry; apply Nat.eqb_neq; intros ->; congruence).
      destruct (run_world w l) as [[w2 e2]| | |]; cbn [bind].
      2-4: destruct R as (j & y & Ny & Fy); exists j, y; split; [exact Ny|]; now rewrite (Pj _ _ Ny).
      destruct R as (xs' & S2 & L2 & R). exists xs'. split; [exact S2|]. split; [exact L2|]. intros j y Ny. rewrite (Pj _ _ Ny). cbn [app]. now apply R.
Qed.
Lemma wsim_new names : wsim (world_new names) (map (fun n => (dm_new n, [])) names).
Proof.
  unfold world_new. split; [|split; [|constructor]]; cbn [w_parts w_mem w_pool w_kept].
  - induction names as [|n t IH]; constructor; [|exact IH]. split; [constructor|]. split; reflexivity.
  - assert (E : owned (map (fun n => (dm_new n, [])) names) = []) by (induction names as [|n t IH]; [reflexivity|exact IH]). rewrite E. constructor; constructor.
Qed.

(** ** Places *)
Lemma in_concat_nth {A} (L : list (list A)) a x b p : nth_error L a = Some x -> nth_error x b = Some p -> In p (List.concat L).
Proof. intros H K. apply in_concat. exists x. split; eapply nth_error_In; eauto. Qed.
Lemma nodup_apart {A} (x y : list A) p : NoDup (x ++ y) -> In p x -> In p y -> False.
Proof. induction x as [|z x IH]; intros N X Y; [exact X|]. cbn [app] in N. apply NoDup_cons_iff in N as [N1 N2]. destruct X as [->|X]; [apply N1; apply in_or_app; auto|auto]. Qed.
Lemma concat_place {A} : forall (L : list (list A)), NoDup (List.concat L) -> forall a b a' b' x x' p, nth_error L a = Some x -> nth_error x b = Some p -> nth_error L a' = Some x' -> nth_error x' b' = Some p -> a' = a /\ b' = b.
Proof.
  induction L as [|y L IH]; intros N a b a' b' x x' p H K H' K'; [destruct a; discriminate H|]. cbn [List.concat] in N. assert (Ny : NoDup y) by now apply NoDup_app_remove_r in N. assert (Nl : NoDup (List.concat L)) by now apply NoDup_app_remove_l in N.
  destruct a as [|a], a' as [|a']; cbn [nth_error] in H, H'.
  - injection H as ->. injection H' as ->. split; [reflexivity|]. rewrite NoDup_nth_error in Ny. symmetry. apply Ny; [apply nth_error_Some; congruence|congruence].
  - exfalso. injection H as ->. eapply nodup_apart; [exact N|eapply nth_error_In; exact K|eapply in_concat_nth; eassumption].
  - exfalso. injection H' as ->. eapply nodup_apart; [exact N|eapply nth_error_In; exact K'|eapply in_concat_nth; eassumption].
  - destruct (IH Nl a b a' b' x x' p) as [-> ->]; auto.
Qed.
Lemma nodup_concat_in {A} (L : list (list A)) a x : NoDup (List.concat L) -> nth_error L a = Some x -> NoDup x.
Proof. revert a. induction L as [|y L IH]; intros a N H; [destruct a; discriminate H|]. cbn [List.concat] in N. destruct a as [|a]; cbn in H; [injection H as ->; now apply NoDup_app_remove_r in N|]. apply (IH a); [now apply NoDup_app_remove_l in N|exact H]. Qed.

(** * RetainProofs: which elements the backing array of a RingBuffer or Queue still holds. *)
From Verif Require Import Base CollectionsModel CollectionsSpec RingProofs.
From Verif Require Import BitSpec.

Ltac wrap_cases := unfold wrap; repeat match goal with |- context [?a <? ?b] => destruct (a <? b) eqn:? end; lia.

Section Retain.
(** [Q]: what a slot outside the contents may hold, the zero value and elements that were left behind. *)
Context {A : Type} (zero : A) (Q : A -> Prop) (Q0 : Q zero).

Definition slots_clean (r : ring A) (l : list A) : Prop :=
  forall i, zlen l <= i < zlen (r_data r) -> exists x, idx (r_data r) (wrap (zlen (r_data r)) (r_head r + i)) = Some x /\ Q x.

Lemma clean_retention (r : ring A) l : ring_rep r l -> slots_clean r l -> forall x, In x (r_data r) -> Q x \/ In x l.
Proof.
  intros [C H S L T N] K x Hx. apply In_nth_error in Hx as [n Hn]. rewrite <- idx_nat in Hn.
  assert (0 <= Z.of_nat n < zlen (r_data r)) as Hr.
  { split; [lia|]. destruct (Z.lt_ge_cases (Z.of_nat n) (zlen (r_data r))); [assumption|]. rewrite idx_none in Hn by lia. discriminate. }
  set (i := if r_head r <=? Z.of_nat n then Z.of_nat n - r_head r else Z.of_nat n - r_head r + zlen (r_data r)).
  assert (0 <= i < zlen (r_data r) /\ wrap (zlen (r_data r)) (r_head r + i) = Z.of_nat n) as [Hi W].
  { unfold i. destruct (r_head r <=? Z.of_nat n) eqn:E; split; try lia; wrap_cases. }
  destruct (Z.lt_ge_cases i (zlen l)) as [Lt|Ge].
  - right. specialize (N i ltac:(lia)). rewrite W, Hn in N. symmetry in N. unfold idx in N. destruct (i <? 0); [discriminate|].
    eapply nth_error_In, N.
  - left. destruct (K i ltac:(lia)) as (y & E & Qy). rewrite W, Hn in E. congruence.
Qed.

Lemma clean_all (r : ring A) l : 0 <= r_head r < zlen (r_data r) -> Forall Q (r_data r) -> slots_clean r l.
Proof.
  intros H F i Hi. pose proof (zlen_nonneg l). destruct (idx_some (r_data r) (wrap (zlen (r_data r)) (r_head r + i))) as [y Hy]; [wrap_cases|].
  exists y. split; [exact Hy|]. eapply Forall_forall in F; [exact F|]. unfold idx in Hy. destruct (_ <? 0) in Hy; [discriminate|]. eapply nth_error_In, Hy.
Qed.
Lemma clean_clear (r : ring A) l : ring_rep r l -> slots_clean r l -> Forall Q l -> slots_clean (ring_clear r) [].
Proof.
  intros R K F. apply clean_all.
  - destruct R. cbn [ring_clear r_data r_head]. lia.
  - cbn [ring_clear r_data]. apply Forall_forall. intros x I. destruct (clean_retention r l R K x I) as [|J]; [assumption|]. eapply Forall_forall in F; eauto.
Qed.
Lemma clean_pop_back (r : ring A) l a : ring_rep r (l ++ [a]) -> slots_clean r (l ++ [a]) -> Q a ->
  forall v r', queue_pop_back r = Ok (v, r') -> slots_clean r' l.
Proof.
  intros R K Qa v r' E. pose proof R as [C H S L T N]. unfold queue_pop_back in E. rewrite zlen_app, zlen_cons, zlen_nil in *. pose proof (zlen_nonneg l).
  unfold assert in E. destruct (r_size r >? 0); cbn [bind] in E; [|discriminate]. destruct (ring_tail r); cbn [bind] in E; try discriminate.
  cbn [r_size] in E. set (r1 := mkRing _ _ _ _ _) in E.
  assert (K1 : slots_clean r1 l).
  { intros i Hi. unfold r1 in *. cbn [r_data r_head] in *. destruct (Z.eq_dec i (zlen l)) as [->|Ne].
    - exists a. split; [|exact Qa]. rewrite N by (unfold zlen; cbn [length]; lia). rewrite idx_app_r, Z.sub_diag by lia. reflexivity.
    - apply K. rewrite zlen_app, zlen_cons, zlen_nil. lia. }
  injection E as <- <-. destruct (r_size r - 1 =? 0) eqn:E2; [|exact K1].
  assert (l = []) as -> by (apply zlen_zero_nil; lia). apply clean_all; [cbn [ring_clear r_head r_data r1]; lia|].
  cbn [ring_clear r_data r1]. apply Forall_forall. intros x I. destruct (clean_retention r _ R K x I) as [|[<-|[]]]; assumption.
Qed.

Lemma clean_pop (r : ring A) l : ring_rep r l -> slots_clean r l ->
  forall v r', ring_pop zero r = Ok (v, r') -> slots_clean r' (tl l).
Proof.
  intros R K v r' E. pose proof R as [C H S L T N]. unfold ring_pop, ring_is_empty in E. rewrite S in E.
  destruct l as [|x l]; [change (zlen (@nil A) =? 0) with true in E; cbv iota in E; injection E as <- <-; exact K|].
  rewrite zlen_cons in *. pose proof (zlen_nonneg l). replace (1 + zlen l =? 0) with false in E by lia.
  destruct (idx_some (r_data r) (r_head r)) as [y Hy]; [lia|]. rewrite Hy, upd_some in E by lia. cbn [of_opt bind r_size] in E.
  rewrite zlen_set_nth, rem_wrap in E by lia.
  set (r1 := mkRing _ _ _ _ _) in E.
  assert (K1 : slots_clean r1 l).
  { unfold slots_clean, r1. cbn [r_data r_head]. rewrite zlen_set_nth. intros i Hi.
    destruct (Z.eq_dec i (zlen (r_data r) - 1)) as [->|Ne].
    - exists zero. split; [|exact Q0]. rewrite <- (idx_set_nth_same (r_data r) (r_head r) zero) by lia. f_equal. wrap_cases.
    - rewrite idx_set_nth_other; [|lia|wrap_cases]. destruct (K (i + 1)) as (z & Ez & Qz); [rewrite zlen_cons; lia|]. exists z. split; [|exact Qz].
      rewrite <- Ez. f_equal. wrap_cases. }
  destruct (1 + zlen l - 1 =? 0) eqn:E2; injection E as <- <-; cbn [tl]; [|exact K1].
  assert (l = []) as -> by (apply zlen_zero_nil; lia). apply (clean_clear _ []); [|exact K1|constructor].
  unfold r1. constructor; cbn [r_data r_head r_tail r_size]; rewrite ?zlen_set_nth, ?zlen_nil; try lia.
  - wrap_cases.
  - rewrite T. rewrite zlen_nil. wrap_cases.
Qed.

Lemma clean_put (r : ring A) l a d t s c : ring_rep r l -> slots_clean r l -> zlen l < zlen (r_data r) ->
  upd (r_data r) (r_tail r) a = Some d -> slots_clean (mkRing d (r_head r) t s c) (l ++ [a]).
Proof.
  intros [C H S L T N] K Lt U. pose proof (zlen_nonneg l).
  assert (Ht : 0 <= r_tail r < zlen (r_data r)) by (rewrite T; wrap_cases).
  rewrite upd_some in U by lia. injection U as <-. intros i Hi. cbn [r_data r_head] in *.
  rewrite zlen_set_nth, zlen_app, zlen_cons, zlen_nil in *. rewrite idx_set_nth_other; [apply K; lia|lia|rewrite T; wrap_cases].
Qed.

Lemma clean_push (r : ring A) l a : ring_rep r l -> slots_clean r l ->
  forall r', ring_push zero r a = Ok r' -> slots_clean r' (if zlen (l ++ [a]) >? zlen (r_data r) then tl (l ++ [a]) else l ++ [a]).
Proof.
  intros R K r' E. pose proof R as [C H S L T N]. unfold ring_push, ring_is_full in E. rewrite S in E.
  rewrite zlen_app, zlen_cons, zlen_nil. pose proof (zlen_nonneg l).
  destruct (zlen l =? zlen (r_data r)) eqn:F.
  - destruct (ring_pop_rep zero r l R) as (r1 & P & R1 & Cp & Lp). pose proof (clean_pop r l R K _ _ P) as K1.
    rewrite P in E. cbn [bind] in E. replace (zlen l + (1 + 0) >? zlen (r_data r)) with true by lia.
    destruct l as [|x l]; [rewrite zlen_nil in F; lia|]. cbn [tl app] in *. rewrite zlen_cons in *.
    destruct (upd (r_data r1) (r_tail r1) a) as [d|] eqn:U; [|discriminate]. cbn [of_opt bind] in E. injection E as <-.
    eapply clean_put; eauto. lia.
  - cbn [bind] in E. replace (zlen l + (1 + 0) >? zlen (r_data r)) with false by lia.
    destruct (upd (r_data r) (r_tail r) a) as [d|] eqn:U; [|discriminate]. cbn [of_opt bind] in E. injection E as <-.
    eapply clean_put; eauto. lia.
Qed.

Lemma clean_queue_push (q : ring A) l a : ring_rep q l -> slots_clean q l ->
  forall q', queue_push zero q a = Ok q' -> slots_clean q' (l ++ [a]).
Proof.
  intros R K q' E. pose proof R as [C H S L T N]. pose proof (zlen_nonneg l). unfold queue_push, ring_is_full in E. rewrite S in E.
  destruct (zlen l =? zlen (r_data q)) eqn:F.
  - destruct (ring_data_rep q l R) as (h & t & D & Cc & _). rewrite D in E. cbn [bind] in E.
    set (na := repeat zero (Z.to_nat (zlen l * 2))) in E.
    assert (Ln : length na = (2 * length l)%nat) by (unfold na; rewrite repeat_length; unfold zlen; lia).
    assert (Lc : length l = (length (opt_list h) + length (opt_list t))%nat) by (rewrite <- Cc, app_length; reflexivity).
    assert (A2 : match t with Some t0 => of_opt (copy_at (copy na (opt_list h)) (zlen (opt_list h)) t0) | None => Ok (copy na (opt_list h)) end = Ok (l ++ skipn (length l) na)).
    { rewrite copy_fits by lia. rewrite <- Cc. destruct t as [t0|]; cbn [opt_list] in *.
      - assert (Sp : skipn (length (opt_list h)) na = firstn (length t0) (skipn (length (opt_list h)) na) ++ skipn (length l) na).
        { rewrite <- (firstn_skipn (length t0) (skipn (length (opt_list h)) na)) at 1. rewrite skipn_skipn, <- Lc. reflexivity. }
        rewrite Sp. rewrite copy_at_app by (rewrite firstn_length, skipn_length; lia). cbn [of_opt].
        rewrite Cc, app_assoc, Cc. reflexivity.
      - rewrite app_nil_r. reflexivity. }
    rewrite A2 in E. cbn [bind] in E. set (q1 := mkRing _ _ _ _ _) in E.
    assert (L2 : zlen (r_data q1) = 2 * zlen l) by (unfold q1; cbn [r_data]; unfold zlen; rewrite app_length, skipn_length; lia).
    assert (R1 : ring_rep q1 l).
    { constructor; try rewrite L2; unfold q1; cbn [r_head r_tail r_size r_data]; try lia.
      - wrap_cases.
      - intros i Hi. unfold wrap. destruct (_ <? _) eqn:?; [|lia]. rewrite Z.add_0_l. apply idx_app_l. lia. }
    assert (K1 : slots_clean q1 l).
    { intros i Hi. rewrite L2 in *. unfold q1. cbn [r_data r_head]. replace (wrap (2 * zlen l) (0 + i)) with i by wrap_cases.
      exists zero. split; [|exact Q0]. rewrite idx_app_r by lia. unfold idx. destruct (i - zlen l <? 0) eqn:?; [lia|]. rewrite nth_error_skipn. unfold na.
      apply nth_error_repeat. unfold zlen in *. lia. }
    destruct (upd (r_data q1) (r_tail q1) a) as [d|] eqn:U; [|discriminate]. cbn [of_opt bind] in E. injection E as <-.
    apply (clean_put q1 l a d); auto. lia.
  - cbn [bind] in E. destruct (upd (r_data q) (r_tail q) a) as [d|] eqn:U; [|discriminate]. cbn [of_opt bind] in E. injection E as <-.
    eapply clean_put; eauto. lia.
Qed.

Lemma clean_new c d : 0 < c -> slots_clean (mkRing (repeat zero (Z.to_nat c)) 0 0 0 d) [].
Proof.
  intros Hc. apply clean_all; cbn [r_head r_data].
  - unfold zlen. rewrite repeat_length. lia.
  - apply Forall_forall. intros x I. apply repeat_spec in I. now subst.
Qed.

Lemma ring_clean_step c r l o : Forall Q (ring_left l o) -> ring_rel c r l -> slots_clean r l ->
  slots_clean (fst (ring_step zero r o)) (fst (ring_spec zero c l o)).
Proof.
  intros Ho (R & Cp & Lc) K. destruct o as [a| | | | | | | | |]; cbn [ring_step ring_spec ring_left] in *;
    try (match goal with |- context [keep r (fun _ => r) ?g ?x] => destruct x end; cbn [keep fst snd]; exact K);
    try (cbn [fst snd]; exact K).
  - destruct (ring_push_rep zero r l a R) as (r' & P & _). pose proof (clean_push r l a R K r' P) as K1. rewrite P. cbn [keep fst snd].
    rewrite Lc in K1. destruct (zlen (l ++ [a]) >? c); exact K1.
  - destruct (ring_pop_rep zero r l R) as (r' & P & _). pose proof (clean_pop r l R K _ _ P) as K1. rewrite P. cbn [keep fst snd].
    destruct l; exact K1.
  - cbn [fst]. eapply clean_clear; eauto.
Qed.

Lemma queue_clean_step q l o : Forall Q (queue_left l o) -> ring_rep q l -> slots_clean q l ->
  slots_clean (fst (queue_step zero q o)) (fst (queue_spec zero l o)).
Proof.
  intros Ho R K. destruct o as [a| | |i| | | | | |]; cbn [queue_step queue_spec queue_left] in *;
    try (match goal with |- context [keep q (fun _ => q) ?g ?x] => destruct x end; cbn [keep fst snd]; exact K);
    try (cbn [fst snd]; exact K).
  - destruct (queue_push_rep zero q l a R) as (r' & P & _). pose proof (clean_queue_push q l a R K r' P) as K1. rewrite P. exact K1.
  - destruct (ring_pop_rep zero q l R) as (r' & P & _). pose proof (clean_pop q l R K _ _ P) as K1. rewrite P. cbn [keep fst snd].
    destruct l; exact K1.
  - destruct l as [|a l _] using rev_ind.
    + unfold queue_pop_back, assert. destruct R as [C H S L T N]. rewrite S, zlen_nil. exact K.
    + destruct (queue_pop_back_rep q (l ++ [a]) R) as (q' & y & P & E & R'); [destruct l; discriminate|].
      rewrite E in Ho. assert (last_of (l ++ [a]) = Some a) as E' by (clear; induction l as [|b [|c l] IH]; auto). rewrite E' in E. injection E as <-.
      rewrite P. cbn [keep fst snd]. rewrite removelast_app by discriminate. cbn [removelast]. rewrite app_nil_r. apply (clean_pop_back q l a R K) in P; [exact P|]. now inversion Ho.
  - cbn [fst]. eapply clean_clear; eauto.
Qed.

Lemma ring_run_clean c ops : forall r l, Forall Q (left_behind (ring_spec zero c) ring_left l ops) -> ring_rel c r l -> slots_clean r l ->
  let r' := fst (run (ring_step zero) r ops) in let l' := fst (run (ring_spec zero c) l ops) in ring_rep r' l' /\ slots_clean r' l'.
Proof.
  induction ops as [|o ops IH]; intros r l F Rl K; cbn [run]; [split; [apply Rl|exact K]|]. cbn [left_behind] in F. apply Forall_app in F as [F1 F2].
  pose proof (ring_step_sim zero c r l o Rl) as [R1 _]. pose proof (ring_clean_step c r l o F1 Rl K) as K1.
  destruct (ring_step zero r o) as [r1 x], (ring_spec zero c l o) as [l1 y]. cbn [fst] in *. specialize (IH r1 l1 F2 R1 K1).
  destruct (run (ring_step zero) r1 ops), (run (ring_spec zero c) l1 ops). exact IH.
Qed.

Lemma queue_run_clean ops : forall q l, Forall Q (left_behind (queue_spec zero) queue_left l ops) -> ring_rep q l -> slots_clean q l ->
  let q' := fst (run (queue_step zero) q ops) in let l' := fst (run (queue_spec zero) l ops) in ring_rep q' l' /\ slots_clean q' l'.
Proof.
  induction ops as [|o ops IH]; intros q l F R K; cbn [run]; [split; [exact R|exact K]|]. cbn [left_behind] in F. apply Forall_app in F as [F1 F2].
  pose proof (queue_step_sim zero q l o R) as [R1 _]. pose proof (queue_clean_step q l o F1 R K) as K1.
  destruct (queue_step zero q o) as [q1 x], (queue_spec zero l o) as [l1 y]. cbn [fst] in *. specialize (IH q1 l1 F2 R1 K1).
  destruct (run (queue_step zero) q1 ops), (run (queue_spec zero) l1 ops). exact IH.
Qed.

End Retain.

Lemma ring_retention (A : Type) (zero : A) (c : Z) (ops : list (ring_op A)) r : ring_new zero c = Ok r ->
  forall x, In x (r_data (fst (run (ring_step zero) r ops))) ->
  x = zero \/ In x (fst (run (ring_spec zero c) [] ops)) \/ In x (left_behind (ring_spec zero c) ring_left [] ops).
Proof.
  intros E x I. assert (0 < c) as Hc. { unfold ring_new, assert in E. destruct (c >? 0) eqn:G; [lia|discriminate]. }
  destruct (ring_new_rep zero c Hc) as (r0 & E0 & R & Cp & L). rewrite E in E0. injection E0 as <-.
  set (Q := fun x => x = zero \/ In x (left_behind (ring_spec zero c) ring_left [] ops)).
  assert (slots_clean Q r []) as K.
  { unfold ring_new, assert in E. destruct (c >? 0); [|discriminate]. injection E as <-. apply (clean_new zero); [now left|exact Hc]. }
  destruct (ring_run_clean zero Q (or_introl eq_refl) c ops r []) as [R1 K1]; [|split; auto|exact K|].
  - apply Forall_forall. intros y J. now right.
  - destruct (clean_retention Q _ _ R1 K1 x I) as [[|]|]; auto.
Qed.

Lemma queue_retention (A : Type) (zero : A) (c : Z) (ops : list (queue_op A)) q : queue_new zero c = Ok q ->
  forall x, In x (r_data (fst (run (queue_step zero) q ops))) ->
  x = zero \/ In x (fst (run (queue_spec zero) [] ops)) \/ In x (left_behind (queue_spec zero) queue_left [] ops).
Proof.
  intros E x I. assert (0 < c) as Hc. { unfold queue_new, assert in E. destruct (c >? 0) eqn:G; [lia|discriminate]. }
  destruct (queue_new_rep zero c Hc) as (q0 & E0 & R). rewrite E in E0. injection E0 as <-.
  set (Q := fun x => x = zero \/ In x (left_behind (queue_spec zero) queue_left [] ops)).
  assert (slots_clean Q q []) as K.
  { unfold queue_new, assert in E. destruct (c >? 0); [|discriminate]. injection E as <-. apply (clean_new zero); [now left|exact Hc]. }
  destruct (queue_run_clean zero Q (or_introl eq_refl) ops q []) as [R1 K1]; [|exact R|exact K|].
  - apply Forall_forall. intros y J. now right.
  - destruct (clean_retention Q _ _ R1 K1 x I) as [[|]|]; auto.
Qed.

Lemma nothing_left {A O R} (spec : list A -> O -> list A * R) lft ops : Forall (fun o => forall l, lft l o = []) ops -> forall l, left_behind spec lft l ops = [].
Proof. induction 1 as [|o ops H F IH]; intros l; cbn [left_behind]; [reflexivity|]. now rewrite H, IH. Qed.
Lemma ring_no_retention (A : Type) (zero : A) (c : Z) (ops : list (ring_op A)) r :
  ring_new zero c = Ok r -> Forall (fun o => o <> RClear) ops ->
  forall x, In x (r_data (fst (run (ring_step zero) r ops))) -> x = zero \/ In x (fst (run (ring_spec zero c) [] ops)).
Proof.
  intros E F x I. destruct (ring_retention A zero c ops r E x I) as [|[|J]]; auto. rewrite nothing_left in J; [destruct J|].
  eapply Forall_impl; [|exact F]. intros o Ho l. destruct o; try reflexivity. congruence.
Qed.
Lemma queue_no_retention (A : Type) (zero : A) (c : Z) (ops : list (queue_op A)) q :
  queue_new zero c = Ok q -> Forall (fun o => o <> QPopBack /\ o <> QClear) ops ->
  forall x, In x (r_data (fst (run (queue_step zero) q ops))) -> x = zero \/ In x (fst (run (queue_spec zero) [] ops)).
Proof.
  intros E F x I. destruct (queue_retention A zero c ops q E x I) as [|[|J]]; auto. rewrite nothing_left in J; [destruct J|].
  eapply Forall_impl; [|exact F]. intros o [Ho1 Ho2] l. destruct o; try reflexivity; congruence.
Qed.

Lemma rep_in {A} (r : ring A) l x : ring_rep r l -> In x l -> In x (r_data r).
Proof.
  intros [C H S L T N] I. apply In_nth_error in I as [n Hn]. rewrite <- idx_nat in Hn. pose proof (idx_inv _ _ _ Hn) as B.
  rewrite <- N in Hn by lia. unfold idx in Hn. destruct (_ <? 0) in Hn; [discriminate|]. eapply nth_error_In, Hn.
Qed.
Lemma last_of_in {A} (l : list A) x : last_of l = Some x -> In x l.
Proof. induction l as [|a [|b l] IH]; intros E; [discriminate|injection E as ->; now left|right; now apply IH]. Qed.
Lemma queue_left_there {A} (zero : A) q l o x : ring_rep q l -> In x (queue_left l o) -> In x (r_data (fst (queue_step zero q o))).
Proof.
  intros R I. destruct o; cbn [queue_left] in I; try destruct I.
  - destruct (last_of l) as [y|] eqn:E; [|destruct I]. destruct I as [->|[]]. apply last_of_in in E. apply (rep_in q l x R) in E. cbn [queue_step].
    unfold queue_pop_back. destruct (assert _); cbn [bind keep fst]; [|exact E..]. destruct (ring_tail q); cbn [bind keep fst snd]; [|exact E..].
    destruct (_ =? 0); exact E.
  - cbn [queue_step fst ring_clear r_data]. exact (rep_in q l x R I).
Qed.
Lemma ring_left_there {A} (zero : A) c r l o x : ring_rel c r l -> In x (ring_left l o) -> In x (r_data (fst (ring_step zero r o))).
Proof. intros (R & _) I. destruct o; cbn [ring_left] in I; try destruct I. cbn [ring_step fst ring_clear r_data]. exact (rep_in r l x R I). Qed.
Lemma queue_run_rep {A} (zero : A) ops : forall q l, ring_rep q l -> ring_rep (fst (run (queue_step zero) q ops)) (fst (run (queue_spec zero) l ops)).
Proof.
  induction ops as [|o ops IH]; intros q l R; cbn [run]; [auto|]. pose proof (queue_step_sim zero q l o R) as [R1 _].
  destruct (queue_step zero q o) as [q1 x], (queue_spec zero l o) as [l1 y]. cbn [fst] in *. specialize (IH q1 l1 R1).
  destruct (run (queue_step zero) q1 ops), (run (queue_spec zero) l1 ops). exact IH.
Qed.
Lemma ring_run_rep {A} (zero : A) c ops : forall r l, ring_rel c r l -> ring_rel c (fst (run (ring_step zero) r ops)) (fst (run (ring_spec zero c) l ops)).
Proof.
  induction ops as [|o ops IH]; intros q l R; cbn [run]; [auto|]. pose proof (ring_step_sim zero c q l o R) as [R1 _].
  destruct (ring_step zero q o) as [q1 x], (ring_spec zero c l o) as [l1 y]. cbn [fst] in *. specialize (IH q1 l1 R1).
  destruct (run (ring_step zero) q1 ops), (run (ring_spec zero c) l1 ops). exact IH.
Qed.

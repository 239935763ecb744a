(** * BlockQueueProofs: the block buffers over collections.Queue behave as over a list. *)
From Verif Require Import Base CollectionsModel CollectionsSpec RingProofs BlockModel BlockSpec StreamsSpec SafeSpec HeapProofs DirectProofs BlockQueueModel.

Definition points (mem : list block) (p : nat) (b : block) : Prop := nth_error mem p = Some b.
Record qrep (mem : list block) (q : ring bptr) (ps : list nat) (l : list block) : Prop := {
  qp_ring : ring_rep q (map Some ps); qp_mem : Forall2 (points mem) ps l; qp_nodup : NoDup ps }.

Lemma qrep_len mem q ps l : qrep mem q ps l -> length ps = length l.
Proof. intros [_ F _]. induction F; cbn; auto. Qed.
Lemma qrep_size mem q ps l : qrep mem q ps l -> r_size q = zlen l.
Proof. intros H. rewrite (rr_size _ _ (qp_ring _ _ _ _ H)). unfold zlen. rewrite map_length. now rewrite (qrep_len _ _ _ _ H). Qed.
Lemma qrep_empty mem q ps l : qrep mem q ps l -> ring_is_empty q = (zlen l =? 0).
Proof. intros H. unfold ring_is_empty. now rewrite (qrep_size _ _ _ _ H). Qed.
Lemma points_lt mem p b : points mem p b -> (p < length mem)%nat.
Proof. intros H. apply nth_error_Some. unfold points in H. congruence. Qed.

Lemma forall2_snoc {A B} (R : A -> B -> Prop) l m : Forall2 R l m -> forall f x, m = f ++ [x] -> exists g y, l = g ++ [y] /\ Forall2 R g f /\ R y x.
Proof.
  intros F f x ->. apply Forall2_app_inv_r in F as (g & l2 & F1 & F2 & ->). inversion F2 as [|y ? ? ? Hy F3]; subst. inversion F3; subst. exists g, y. auto.
Qed.

(** Tail(): the last block. *)
Lemma qrep_tail mem q ps f t : qrep mem q ps (f ++ [t]) -> exists p, ring_tail q = Ok (Some p) /\ points mem p t /\
  forall v, qrep (set_nth p v mem) q ps (f ++ [v]).
Proof.
  intros [R F N]. destruct (forall2_snoc _ _ _ F f t eq_refl) as (g & p & -> & Fg & Hp). exists p. split.
  - rewrite (ring_tail_rep _ _ R), map_app. cbn [map]. now rewrite last_of_snoc.
  - split; [exact Hp|]. intros v. split; [exact R| |exact N]. apply Forall2_app; [|constructor; [|constructor]].
    + assert (Np : ~ In p g) by (intros I; apply NoDup_remove_2 in N; apply N; now rewrite app_nil_r). clear - Fg Np. induction Fg as [|x y g f H _ IH]; [constructor|]. constructor; [|apply IH; intros I; apply Np; now right].
      unfold points in *. rewrite set_nth_other; [exact H|]. intros ->. apply Np. now left.
    + unfold points. apply set_nth_same. eapply points_lt; eauto.
Qed.
Lemma qrep_head mem q ps t l : qrep mem q ps (t :: l) -> exists p, ring_head q = Ok (Some p) /\ points mem p t.
Proof. intros [R F _]. inversion F as [|p ? ? ? H]; subst. exists p. split; [|exact H]. now rewrite (ring_head_rep _ _ R). Qed.
Lemma qrep_one mem q ps t : qrep mem q ps [t] -> ring_head q = ring_tail q.
Proof.
  intros [R F _]. inversion F as [|p ? ps' ? ? F']; subst. inversion F'; subst. rewrite (ring_head_rep _ _ R), (ring_tail_rep _ _ R). reflexivity.
Qed.
Lemma qrep_push mem q ps l i : qrep mem q ps l -> exists q', push_block mem q i = Ok (mem ++ [mkBlock i 0 false], q', Some (length mem)) /\
  qrep (mem ++ [mkBlock i 0 false]) q' (ps ++ [length mem]) (l ++ [mkBlock i 0 false]).
Proof.
  intros [R F N]. destruct (queue_push_rep (None : bptr) q _ (Some (length mem)) R) as (q' & E & R'). exists q'. unfold push_block. cbv zeta. rewrite E. split; [reflexivity|].
  assert (B : forall p, In p ps -> (p < length mem)%nat) by (clear - F; intros p; induction F as [|x y ps l H _ IH]; intros []; [subst; eapply points_lt; eauto|auto]). split.
  - rewrite map_app. exact R'.
  - apply Forall2_app; [|constructor; [|constructor]].
    + clear - F. induction F as [|x y ps l H _ IH]; constructor; auto. unfold points in *. rewrite nth_error_app1; [exact H|]. apply nth_error_Some. congruence.
    + unfold points. rewrite nth_error_app2 by lia. now rewrite Nat.sub_diag.
  - rewrite <- (rev_involutive (ps ++ [length mem])), rev_app_distr; apply NoDup_rev; cbn; constructor; [rewrite <- in_rev; intros I; apply B in I; lia|now apply NoDup_rev].
Qed.
Lemma qrep_pop mem q ps l : qrep mem q ps l -> exists x q', ring_pop None q = Ok (x, q') /\ qrep mem q' (tl ps) (tl l).
Proof.
  intros [R F N]. destruct (ring_pop_rep (None : bptr) q _ R) as (q' & E & R' & _). do 2 eexists. split; [exact E|]. split.
  - destruct ps; exact R'.
  - destruct F; [constructor|assumption].
  - destruct ps; [constructor|]. now inversion N.
Qed.
Lemma qrep_pops mem ps l : forall n q, qrep mem q ps l -> exists q', pops n q = Ok q' /\ qrep mem q' (skipn n ps) (skipn n l).
Proof.
  intros n. revert ps l. induction n as [|n IH]; intros ps l q H; cbn [pops]; [exists q; auto|]. destruct (qrep_pop _ _ _ _ H) as (x & q1 & -> & H1). cbn [bind].
  destruct (IH _ _ _ H1) as (q' & -> & H'). exists q'. split; [reflexivity|]. destruct ps, l; cbn [tl skipn] in *; rewrite ?skipn_nil in *; auto; apply qrep_len in H; discriminate.
Qed.
Lemma qrep_pop_back mem q ps f t : qrep mem q ps (f ++ [t]) -> exists x q' ps', queue_pop_back q = Ok (x, q') /\ qrep mem q' ps' f.
Proof.
  intros [R F N]. destruct (forall2_snoc _ _ _ F f t eq_refl) as (g & p & -> & Fg & _). destruct (queue_pop_back_rep q _ R) as (q' & x & E & _ & R'); [rewrite map_app; destruct (map Some g); discriminate|].
  exists x, q', g. split; [exact E|]. split; [|exact Fg|].
  - rewrite map_app in R'. cbn [map] in R'. rewrite removelast_snoc in R'. exact R'.
  - apply NoDup_remove_1 in N. now rewrite app_nil_r in N.
Qed.
Lemma qrep_nil mem q : ring_rep q [] -> qrep mem q [] [].
Proof. intros R. split; [exact R|constructor|constructor]. Qed.
Lemma qrep_clear mem q ps l : qrep mem q ps l -> qrep mem (ring_clear q) [] [].
Proof. intros [R _ _]. apply qrep_nil. eapply ring_clear_rep; eauto. Qed.
Lemma queue_new_64 : exists q, queue_new (None : bptr) 64 = Ok q /\ ring_rep q [].
Proof. apply queue_new_rep. lia. Qed.

(** ** Related results *)
Definition rel_res {A B} (R : A -> B -> Prop) (x : res A) (y : res B) : Prop :=
  match x, y with Ok a, Ok b => R a b | Err, Err => True | Panic, Panic => True | NoFuel, NoFuel => True | _, _ => False end.
Lemma rel_bind {A B C D} (R : A -> B -> Prop) (Q : C -> D -> Prop) x y f g : rel_res R x y -> (forall a b, R a b -> rel_res Q (f a) (g b)) -> rel_res Q (bind x f) (bind y g).
Proof. intros H K. destruct x, y; cbn in *; try contradiction; auto. Qed.
Lemma rel_same {A} (x : res A) : rel_res eq x x.
Proof. destruct x; cbn; auto. Qed.

Definition same_d (b : qdbuf) (d : dbuf) : Prop := qd_data b = d_data d /\ qd_next b = d_next d /\ qd_sealed b = d_sealed d /\ exists ps, qrep (qd_mem b) (qd_blocks b) ps (d_blocks d).
Definition same_r (r : qrbuf) (r' : rbuf) : Prop := same_d (qr_d r) (rb_d r') /\ qr_capacity r = rb_capacity r' /\ qr_discard r = rb_discard r'.
(** The same memory, related buffers, the same value. *)
Definition same3 {B C X} (R : B -> C -> Prop) (x : heap * B * X) (y : heap * C * X) : Prop := fst (fst x) = fst (fst y) /\ R (snd (fst x)) (snd (fst y)) /\ snd x = snd y.
Definition same2 {B C X} (R : B -> C -> Prop) (x : B * X) (y : C * X) : Prop := R (fst x) (fst y) /\ snd x = snd y.
Definition same2' {B C X} (R : B -> C -> Prop) (x : X * B) (y : X * C) : Prop := fst x = fst y /\ R (snd x) (snd y).

Lemma bget_points mem p b : points mem p b -> bget mem (Some p) = Ok b.
Proof. intros H. unfold bget, points in *. now rewrite H. Qed.
Lemma bset_points mem p b v : points mem p b -> bset mem (Some p) v = Ok (set_nth p v mem).
Proof. intros H. unfold bset, points in *. now rewrite H. Qed.

Lemma sim_d_new h c : rel_res (same2' same_d) (qd_new h c) (d_new h c).
Proof.
  unfold qd_new, d_new. destruct (make h c) as [[h1 s]| | |]; cbn; auto. destruct queue_new_64 as (q & E & R). unfold queue_new in E. cbn in E. injection E as <-. cbn.
  split; [reflexivity|]. split; [reflexivity|]. split; [reflexivity|]. split; [reflexivity|]. exists []. cbn [qd_mem qd_blocks d_blocks snd]. now apply qrep_nil.
Qed.
Lemma sim_d_grow h b d c : same_d b d -> qd_grow h b c = d_grow h d c.
Proof. intros (E1 & E2 & _). unfold qd_grow, d_grow. now rewrite E1, E2. Qed.

(** The pointer found by Alloc, and the block pushed if it is not usable. *)
Lemma choose mem q ps l p i : qrep mem q ps l -> (match last_of l with None => p = None | Some t => exists n, p = Some n /\ points mem n t /\ ring_tail q = Ok p end) ->
  exists need mem' q' n front blk ps', unusable mem p = Ok need /\ (if need : bool then push_block mem q i else Ok (mem, q, p)) = Ok (mem', q', Some n) /\
    (match last_of l with None => (l, mkBlock i 0 false) | Some t => if bk_completed t then (l, mkBlock i 0 false) else (removelast l, t) end) = (front, blk) /\
    qrep mem' q' ps' (front ++ [blk]) /\ ring_tail q' = Ok (Some n) /\ points mem' n blk.
Proof.
  intros H Hp. assert (P : exists q', push_block mem q i = Ok (mem ++ [mkBlock i 0 false], q', Some (length mem)) /\ qrep (mem ++ [mkBlock i 0 false]) q' (ps ++ [length mem]) (l ++ [mkBlock i 0 false]) /\
    ring_tail q' = Ok (Some (length mem)) /\ points (mem ++ [mkBlock i 0 false]) (length mem) (mkBlock i 0 false)).
  { destruct (qrep_push _ _ _ _ i H) as (q' & E & H'). exists q'. split; [exact E|]. split; [exact H'|]. split; [|unfold points; rewrite nth_error_app2 by lia; now rewrite Nat.sub_diag].
    rewrite (ring_tail_rep _ _ (qp_ring _ _ _ _ H')), map_app. cbn [map]. now rewrite last_of_snoc. }
  destruct P as (q' & E & H' & T & Pt). destruct (snoc_cases l) as [->|(f & t & ->)].
  - cbn [last_of] in *. subst p. exists true. do 6 eexists. split; [reflexivity|]. split; [exact E|]. split; [reflexivity|]. split; [exact H'|]. auto.
  - rewrite last_of_snoc in *. destruct Hp as (n & -> & Pn & Tn). unfold unusable. rewrite (bget_points _ _ _ Pn). cbn [bind]. exists (bk_completed t). destruct (bk_completed t) eqn:Ec.
    + do 6 eexists. split; [reflexivity|]. split; [exact E|]. split; [reflexivity|]. split; [exact H'|]. auto.
    + do 6 eexists. split; [reflexivity|]. split; [reflexivity|]. split; [reflexivity|]. rewrite removelast_snoc. split; [exact H|]. auto.
Qed.

Lemma find_tail mem q ps l : qrep mem q ps l -> exists p, (if negb (ring_is_empty q) then ring_tail q else Ok None) = Ok p /\
  match last_of l with None => p = None | Some t => exists n, p = Some n /\ points mem n t /\ ring_tail q = Ok p end.
Proof.
  intros H. rewrite (qrep_empty _ _ _ _ H). destruct (snoc_cases l) as [->|(f & t & ->)]; [exists None; split; reflexivity|].
  replace (zlen (f ++ [t]) =? 0) with false by (rewrite zlen_app, zlen_cons, zlen_nil; pose proof (zlen_nonneg f); lia). cbn [negb].
  destruct (qrep_tail _ _ _ _ _ H) as (p & E & P & _). exists (Some p). rewrite E, last_of_snoc. split; [reflexivity|]. exists p. auto.
Qed.

Lemma sim_d_alloc h b d size : same_d b d -> rel_res (same3 same_d) (qd_alloc h b size) (d_alloc h d size).
Proof.
  intros S. pose proof S as (E1 & E2 & E3 & ps & H). unfold qd_alloc, d_alloc. rewrite E3. destruct (d_sealed d); cbn [negb assert bind]; [exact I|].
  destruct (find_tail _ _ _ _ H) as (p & -> & Hp). cbn [bind]. rewrite E2. destruct (choose _ _ _ _ _ (d_next d) H Hp) as (need & mem & q & n & front & blk & ps' & -> & Eq & Ef & H' & T & P). cbn [bind]. rewrite Eq. cbn [bind]. rewrite Ef.
  rewrite E1, (sim_d_grow _ _ _ _ S). destruct (if d_next d + size >? s_len (d_data d) then _ else _) as [[h1 data]| | |]; cbn [bind]; try exact I.
  rewrite (bget_points _ _ _ P). cbn [bind]. rewrite (bset_points _ _ _ _ P). cbn [bind]. destruct (reslice data _ _) as [bytes| | |]; cbn [bind]; try exact I.
  split; [reflexivity|]. split; [|reflexivity]. cbn [fst snd]. split; [reflexivity|]. split; [reflexivity|]. split; [reflexivity|]. cbn [qd_mem qd_blocks d_blocks]. exists ps'.
  destruct (qrep_tail _ _ _ _ _ H') as (n' & T' & _ & K). rewrite T in T'. injection T' as <-. apply K.
Qed.
Lemma sim_d_write h b d data : same_d b d -> rel_res (same2' same_d) (qd_write h b data) (d_write h d data).
Proof.
  intros S. unfold qd_write, d_write. eapply rel_bind; [apply sim_d_alloc; exact S|]. intros [[h1 b1] s1] [[h2 d2] s2] (E1 & R & E2). cbn [fst snd] in *. subst.
  destruct (hcopy h2 s2 data); cbn; try exact I. split; [reflexivity|exact R].
Qed.
Lemma sim_d_fetch b d : same_d b d -> rel_res (same2 same_d) (qd_fetch b) (d_fetch d).
Proof.
  intros S. pose proof S as (E1 & E2 & E3 & ps & H). unfold qd_fetch, d_fetch. rewrite E3. destruct (d_sealed d) eqn:Es; cbn [negb assert bind]; [exact I|].
  destruct (snoc_cases (d_blocks d)) as [E|(f & t & E)]; rewrite E in *.
  - rewrite (ring_tail_rep _ _ (qp_ring _ _ _ _ H)). pose proof (qrep_len _ _ _ _ H) as L. destruct ps; [|discriminate]. exact I.
  - destruct (qrep_tail _ _ _ _ _ H) as (p & -> & P & K). rewrite last_of_snoc. cbn [bind of_opt]. rewrite (bget_points _ _ _ P). cbn [bind]. destruct (bk_completed t); [split; [exact S|reflexivity]|].
    rewrite (bset_points _ _ _ _ P), E1. cbn [bind]. destruct (reslice _ _ _); cbn [bind]; try exact I. split; [|reflexivity]. cbn [fst snd]. rewrite removelast_snoc. split; [reflexivity|]. split; [exact E2|]. split; [reflexivity|]. cbn [qd_mem qd_blocks d_blocks]. eauto.
Qed.
Lemma sim_d_pop b d : same_d b d -> rel_res same_d (qd_pop b) (d_pop d).
Proof.
  intros (E1 & E2 & E3 & ps & H). unfold qd_pop, d_pop. rewrite E3. destruct (d_sealed d) eqn:Es; cbn [negb assert bind]; [exact I|]. destruct (qrep_pop _ _ _ _ H) as (x & q & -> & H'). cbn [bind].
  split; [exact E1|]. split; [cbn [qd_next d_next]; now rewrite (qrep_empty _ _ _ _ H'), E2|]. split; [reflexivity|]. cbn [qd_mem qd_blocks d_blocks]. eauto.
Qed.
Lemma sim_d_pop_back b d : same_d b d -> rel_res same_d (qd_pop_back b) (d_pop_back d).
Proof.
  intros (E1 & E2 & E3 & ps & H). unfold qd_pop_back, d_pop_back. rewrite E3. destruct (d_sealed d) eqn:Es; cbn [negb assert bind]; [exact I|].
  destruct (snoc_cases (d_blocks d)) as [E|(f & t & E)]; rewrite E in *.
  - unfold queue_pop_back. rewrite (qrep_size _ _ _ _ H). exact I.
  - destruct (qrep_pop_back _ _ _ _ _ H) as (x & q & ps' & -> & H'). cbn [bind]. replace (zlen (f ++ [t]) >? 0) with true by (rewrite zlen_app, zlen_cons, zlen_nil; pose proof (zlen_nonneg f); lia). cbn [assert bind]. rewrite removelast_snoc.
    split; [exact E1|]. split; [cbn [qd_next d_next]; now rewrite (qrep_empty _ _ _ _ H'), E2|]. split; [reflexivity|]. cbn [qd_mem qd_blocks d_blocks]. eauto.
Qed.
Lemma sim_d_pending b d : same_d b d -> qd_pending b = Ok (d_pending d).
Proof.
  intros (E1 & E2 & E3 & ps & H). unfold qd_pending, d_pending. rewrite (qrep_empty _ _ _ _ H). destruct (snoc_cases (d_blocks d)) as [E|(f & t & E)]; rewrite E in *; [reflexivity|].
  replace (zlen (f ++ [t]) =? 0) with false by (rewrite zlen_app, zlen_cons, zlen_nil; pose proof (zlen_nonneg f); lia). destruct (qrep_tail _ _ _ _ _ H) as (p & -> & P & _). rewrite last_of_snoc. cbn [bind]. rewrite (bget_points _ _ _ P). cbn [bind].
  now destruct (bk_completed t).
Qed.
Lemma sim_d_clear b d : same_d b d -> same_d (qd_clear b) (d_clear d).
Proof. intros (E1 & E2 & E3 & ps & H). split; [exact E1|]. split; [reflexivity|]. split; [reflexivity|]. exists []. eapply qrep_clear. exact H. Qed.
Lemma sim_d_size b d : same_d b d -> qd_size b = d_size d.
Proof. intros (_ & _ & _ & ps & H). apply (qrep_size _ _ _ _ H). Qed.
Lemma sim_d_split_off b d : same_d b d -> rel_res (fun x y => same_d (fst x) (fst y) /\ same_d (snd x) (snd y)) (qd_split_off b) (d_split_off d).
Proof.
  intros (E1 & E2 & E3 & ps & H). unfold qd_split_off, d_split_off. rewrite E1, E2. destruct (reslice _ _ _) as [s| | |]; cbn [bind]; try exact I. destruct queue_new_64 as (q & -> & R). cbn [bind].
  split; cbn [fst snd]; (split; [reflexivity|]; split; [reflexivity|]; split; [reflexivity|]); cbn [qd_mem qd_blocks d_blocks]; [eauto|]. exists []. now apply qrep_nil.
Qed.

(** ** RBBlockBuffer *)
Lemma sim_r_new h c : rel_res (same2' same_r) (qr_new h c) (rb_new h c).
Proof.
  unfold qr_new, rb_new. eapply rel_bind; [apply sim_d_new|]. intros [h1 b] [h2 d] [E R]. cbn [fst snd] in *. subst. split; [reflexivity|]. split; [exact R|]. auto.
Qed.
Lemma stage1 mem q ps l (cap rcap : Z) : qrep mem q ps l -> exists head tail p capacity,
  (if r_size q =? 0 then Ok (0, 0, None : bptr, cap)
   else if r_size q =? 1 then p <- ring_head q;; b <- bget mem p;; Ok (bk_index b, bk_index b + bk_size b, p, cap)
   else p <- ring_tail q;; hp <- ring_head q;; hd <- bget mem hp;; b <- bget mem p;; Ok (bk_index hd, bk_index b + bk_size b, p, rcap)) = Ok (head, tail, p, capacity) /\
  (if zlen l =? 0 then Ok (0, 0, None : option block, cap)
   else if zlen l =? 1 then b <- of_opt (first_of l);; Ok (bk_index b, bk_index b + bk_size b, Some b, cap)
   else b <- of_opt (last_of l);; hd <- of_opt (first_of l);; Ok (bk_index hd, bk_index b + bk_size b, Some b, rcap)) = Ok (head, tail, last_of l, capacity) /\
  match last_of l with None => p = None | Some t => exists n, p = Some n /\ points mem n t /\ ring_tail q = Ok p end.
Proof.
  intros H. rewrite (qrep_size _ _ _ _ H). destruct (snoc_cases l) as [->|(f & t & ->)]; [do 4 eexists; split; [reflexivity|]; split; reflexivity|].
  pose proof (zlen_nonneg f) as Lf. replace (zlen (f ++ [t]) =? 0) with false by (rewrite zlen_app, zlen_cons, zlen_nil; lia).
  destruct (qrep_tail _ _ _ _ _ H) as (p & T & P & _). destruct f as [|a f].
  - cbn [app]. change (zlen [t] =? 1) with true. cbv iota. rewrite (qrep_one _ _ _ _ H), T. cbn [bind]. rewrite (bget_points _ _ _ P). do 4 eexists. split; [reflexivity|]. split; [reflexivity|]. exists p. auto.
  - replace (zlen ((a :: f) ++ [t]) =? 1) with false by (rewrite zlen_app, !zlen_cons, zlen_nil; pose proof (zlen_nonneg f); lia). rewrite T. cbn [bind].
    destruct (qrep_head _ _ _ _ _ H) as (hp & -> & Ph). cbn [bind]. rewrite (bget_points _ _ _ Ph). cbn [bind]. rewrite (bget_points _ _ _ P). rewrite last_of_snoc. cbn [bind of_opt first_of app].
    do 4 eexists. split; [reflexivity|]. split; [reflexivity|]. exists p. auto.
Qed.
Lemma sim_r_alloc h r r' size : same_r r r' -> rel_res (same3 same_r) (qr_alloc h r size) (rb_alloc h r' size).
Proof.
  intros ((E1 & E2 & E3 & ps & H) & Ec & Ed). unfold qr_alloc, rb_alloc. cbv zeta. rewrite E1, E2, E3, Ec, Ed.
  destruct (stage1 _ _ _ _ (s_len (d_data (rb_d r'))) (rb_capacity r') H) as (head & tail & p & capacity & -> & -> & Hp). cbn [bind].
  destruct (choose _ _ _ _ _ tail H Hp) as (need & mem & q & n & front & ob & ps' & -> & Eq & Ef & H' & T & P). cbn [bind]. rewrite Eq. cbn [bind].
  replace (match last_of (d_blocks (rb_d r')) with Some b => if bk_completed b then (d_blocks (rb_d r'), mkBlock tail 0 false) else (removelast (d_blocks (rb_d r')), b) | None => (d_blocks (rb_d r'), mkBlock tail 0 false) end) with (front, ob)
    by (rewrite <- Ef; reflexivity).
  rewrite (bget_points _ _ _ P). cbn [bind].
  assert (Fin : forall h1 data cp mem' q' front' i tl dsc ps2, qrep mem' q' ps2 (front' ++ [mkBlock i (bk_size ob) (bk_completed ob)]) ->
    rel_res (same3 same_r)
      (bytes <- reslice data tl (tl + size);; tp <- ring_tail q';; t <- bget mem' tp;; mem'' <- bset mem' tp (mkBlock (bk_index t) (bk_size t + size) (bk_completed t));;
       Ok (h1, mkQR (mkQD data (d_next (rb_d r')) (d_sealed (rb_d r')) mem'' q') cp dsc, bytes))
      (bytes <- reslice data tl (tl + size);;
       Ok (h1, mkRB (mkD data (d_next (rb_d r')) (d_sealed (rb_d r')) (front' ++ [mkBlock i (bk_size ob + size) (bk_completed ob)])) cp dsc, bytes))).
  { intros h1 data cp mem' q' front' i tl dsc ps2 H2. destruct (reslice data tl _) as [bytes| | |]; cbn [bind]; try exact I. destruct (qrep_tail _ _ _ _ _ H2) as (tp & -> & Pt & K). cbn [bind]. rewrite (bget_points _ _ _ Pt). cbn [bind].
    rewrite (bset_points _ _ _ _ Pt). cbn [bind bk_index bk_size bk_completed]. split; [reflexivity|]. split; [|reflexivity]. cbn [fst snd]. split; [|auto]. split; [reflexivity|]. split; [reflexivity|]. split; [reflexivity|]. cbn [qr_d qd_mem qd_blocks d_blocks rb_d]. eauto. }
  assert (Eob : ob = mkBlock (bk_index ob) (bk_size ob) (bk_completed ob)) by now destruct ob.
  destruct (qrep_tail _ _ _ _ _ H') as (n' & T' & _ & K). rewrite T in T'. injection T' as <-.
  destruct ((tail <? head) && (head - tail >=? size)); [cbn [bind]; eapply Fin; rewrite <- Eob; exact H'|].
  destruct (negb (tail <? head) && (capacity - tail >=? size)); [cbn [bind]; eapply Fin; rewrite <- Eob; exact H'|].
  destruct (negb (tail <? head) && (head >=? bk_size ob + size)).
  - destruct (reslice (d_data (rb_d r')) _ _) as [s| | |]; cbn [bind]; try exact I. destruct (read h s) as [src| | |]; cbn [bind]; try exact I. destruct (hcopy h _ src) as [h1| | |]; cbn [bind]; try exact I.
    rewrite (bset_points _ _ _ _ P). cbn [bind]. eapply Fin. apply K.
  - destruct (make h _) as [[h1 data1]| | |]; cbn [bind]; try exact I. destruct (reslice (d_data (rb_d r')) _ _) as [s| | |]; cbn [bind]; try exact I. destruct (read h1 s) as [src| | |]; cbn [bind]; try exact I. destruct (hcopy h1 _ src) as [h2| | |]; cbn [bind]; try exact I.
    rewrite (bset_points _ _ _ _ P). cbn [bind]. pose proof (K (mkBlock 0 (bk_size ob) (bk_completed ob))) as K0. rewrite (qrep_size _ _ _ _ K0).
    replace (zlen (front ++ [mkBlock 0 (bk_size ob) (bk_completed ob)]) - 1) with (zlen (front ++ [ob]) - 1) by (rewrite !zlen_app; reflexivity).
    destruct (qrep_pops _ _ _ (Z.to_nat (Z.max (zlen (front ++ [ob]) - 1) 0)) _ K0) as (q2 & -> & K2). cbn [bind]. eapply Fin. rewrite skipn_app in K2.
    replace (Z.to_nat (Z.max (zlen (front ++ [ob]) - 1) 0) - length front)%nat with 0%nat in K2 by (rewrite zlen_app, zlen_cons, zlen_nil; unfold zlen; lia). exact K2.
Qed.
Lemma sim_r_write h r r' data : same_r r r' -> rel_res (same2' same_r) (qr_write h r data) (rb_write h r' data).
Proof.
  intros S. unfold qr_write, rb_write. eapply rel_bind; [apply sim_r_alloc; exact S|]. intros [[h1 b1] s1] [[h2 d2] s2] (E1 & R & E2). cbn [fst snd] in *. subst.
  destruct (hcopy h2 s2 data); cbn; try exact I. split; [reflexivity|exact R].
Qed.
Lemma sim_r_fetch r r' : same_r r r' -> rel_res (same2 same_r) (qr_fetch r) (rb_fetch r').
Proof.
  intros (S & Ec & Ed). unfold qr_fetch, rb_fetch. eapply rel_bind; [apply sim_d_fetch; exact S|]. intros [b x] [d y] [R E]. cbn [fst snd] in *. subst. split; [|reflexivity]. split; [exact R|]. auto.
Qed.
Lemma sim_r_pop_back r r' : same_r r r' -> rel_res same_r (qr_pop_back r) (rb_pop_back r').
Proof. intros (S & Ec & Ed). unfold qr_pop_back, rb_pop_back. eapply rel_bind; [apply sim_d_pop_back; exact S|]. intros b d R. split; [exact R|]. auto. Qed.
Lemma sim_r_pop r r' : same_r r r' -> rel_res same_r (qr_pop r) (rb_pop r').
Proof.
  intros (S & Ec & Ed). pose proof S as (E1 & E2 & E3 & _). unfold qr_pop, rb_pop. rewrite E3, Ed, Ec. destruct (d_sealed (rb_d r')); cbn [negb assert bind]; [exact I|]. destruct (rb_discard r' >? 0); [split; [exact S|auto]|].
  eapply rel_bind; [apply sim_d_pop; exact S|]. intros b d R. pose proof R as (F1 & F2 & F3 & ps & H). rewrite (qrep_size _ _ _ _ H). destruct (d_blocks d) as [|t l] eqn:El.
  - cbn [bind first_of]. rewrite F1. split; [exact R|]. auto.
  - replace (zlen (t :: l) =? 0) with false by (rewrite zlen_cons; pose proof (zlen_nonneg l); lia). destruct (qrep_head _ _ _ _ _ H) as (p & -> & P). cbn [bind]. rewrite (bget_points _ _ _ P). cbn [bind first_of]. rewrite F1. split; [exact R|]. auto.
Qed.
Lemma sim_r_clear r r' : same_r r r' -> same_r (qr_clear r) (rb_clear r').
Proof. intros (S & Ec & Ed). split; [apply sim_d_clear; exact S|]. split; [|reflexivity]. cbn [qr_clear rb_clear qr_capacity rb_capacity]. destruct S as (-> & _). reflexivity. Qed.

Lemma sim_r_call h r r' o : same_r r r' -> rel_res (same3 same_r) (qr_call h r o) (rb_call h r' o).
Proof.
  intros S. destruct o; cbn [qr_call rb_call rb_impl].
  - eapply rel_bind; [apply sim_r_write; exact S|]. intros [h1 b] [h2 d0] [E R]. cbn [fst snd] in *. subst. split; [reflexivity|]. auto.
  - eapply rel_bind; [apply sim_r_alloc; exact S|]. intros [[h1 b1] s1] [[h2 d2] s2] (E1 & R & E2). cbn [fst snd] in *. subst. split; [reflexivity|]. auto.
  - eapply rel_bind; [apply sim_r_fetch; exact S|]. intros [b x] [d0 y] [R E]. cbn [fst snd] in *. subst. split; [reflexivity|]. auto.
  - eapply rel_bind; [apply sim_r_pop; exact S|]. intros b d0 R. split; [reflexivity|]. auto.
  - eapply rel_bind; [apply sim_r_pop_back; exact S|]. intros b d0 R. split; [reflexivity|]. auto.
  - unfold rb_pending. rewrite (sim_d_pending _ _ (proj1 S)). cbn [bind]. split; [reflexivity|]. auto.
  - unfold rb_size. rewrite (sim_d_size _ _ (proj1 S)). split; [reflexivity|]. auto.
  - split; [reflexivity|]. split; [apply sim_r_clear; exact S|reflexivity].
  - destruct S as (S & Ec & Ed). eapply rel_bind; [apply sim_d_split_off; exact S|]. intros [b1 b2] [d1 d2] [R1 R2]. cbn [fst snd] in *. split; [reflexivity|]. split; [|reflexivity]. split; [exact R1|]. auto.
  - destruct (hcopy h s d); cbn [bind]; try exact I. split; [reflexivity|]. auto.
Qed.

(** ** Families of DirectBlockBuffers *)
Definition same4 (x : heap * qdbuf * list qdbuf * raw) (y : heap * dbuf * list dbuf * raw) : Prop :=
  let '(h, b, l, o) := x in let '(h', d, m, o') := y in h = h' /\ same_d b d /\ Forall2 same_d l m /\ o = o'.
Lemma sim_d_call h b d o : same_d b d -> rel_res same4 (qd_call h b o) (d_call h d o).
Proof.
  intros S. assert (N : Forall2 same_d [] []) by constructor. destruct o as [o| |]; [destruct o|..]; cbn [qd_call d_call].
  - eapply rel_bind; [apply sim_d_write; exact S|]. intros [h1 b1] [h2 d1] [E R]. cbn [fst snd] in *. subst. split; auto.
  - eapply rel_bind; [apply sim_d_alloc; exact S|]. intros [[h1 b1] s1] [[h2 d2] s2] (E1 & R & E2). cbn [fst snd] in *. subst. split; auto.
  - eapply rel_bind; [apply sim_d_fetch; exact S|]. intros [b1 x] [d1 y] [R E]. cbn [fst snd] in *. subst. split; auto.
  - eapply rel_bind; [apply sim_d_pop; exact S|]. intros b1 d1 R. split; auto.
  - eapply rel_bind; [apply sim_d_pop_back; exact S|]. intros b1 d1 R. split; auto.
  - rewrite (sim_d_pending _ _ S). cbn [bind]. split; auto.
  - rewrite (sim_d_size _ _ S). split; auto.
  - split; [reflexivity|]. split; [apply sim_d_clear; exact S|]. auto.
  - eapply rel_bind; [apply sim_d_split_off; exact S|]. intros [b1 b2] [d1 d2] [R1 R2]. cbn [fst snd] in *. split; auto.
  - destruct (hcopy h s d0); cbn [bind]; try exact I. split; auto.
  - pose proof S as (E1 & E2 & _). unfold qd_data_slice, d_data_slice. rewrite E1, E2. destruct (reslice _ _ _); cbn [bind]; try exact I. split; auto.
  - pose proof S as (E1 & E2 & _). unfold qd_available, d_available. rewrite E1, E2. split; auto.
Qed.
Lemma forall2_nth {A B} (R : A -> B -> Prop) l m : Forall2 R l m -> forall n, match nth_error l n, nth_error m n with Some a, Some b => R a b | None, None => True | _, _ => False end.
Proof. induction 1 as [|a b l m H _ IH]; intros [|n]; cbn; auto. apply IH. Qed.
Lemma forall2_idx {A B} (R : A -> B -> Prop) l m i : Forall2 R l m -> rel_res R (of_opt (idx l i)) (of_opt (idx m i)).
Proof.
  intros F. unfold idx. destruct (i <? 0); [exact I|]. pose proof (forall2_nth _ _ _ F (Z.to_nat i)) as H. destruct (nth_error l _), (nth_error m _); cbn; auto; contradiction.
Qed.
Lemma forall2_set {A B} (R : A -> B -> Prop) l m n a b : Forall2 R l m -> R a b -> Forall2 R (set_nth n a l) (set_nth n b m).
Proof. intros F H. revert n. induction F as [|x y l m K F IH]; intros [|n]; cbn [set_nth]; constructor; auto. Qed.
Lemma forall2_zlen {A B} (R : A -> B -> Prop) l m : Forall2 R l m -> zlen l = zlen m.
Proof. intros F. unfold zlen. f_equal. induction F; cbn; auto. Qed.
Lemma sim_family h l m c : Forall2 same_d l m -> rel_res (same3 (Forall2 same_d)) (on_family qd_call h l c) (on_family d_call h m c).
Proof.
  intros F. unfold on_family. eapply rel_bind; [apply forall2_idx; exact F|]. intros b d S. eapply rel_bind; [apply sim_d_call; exact S|]. intros [[[h1 b1] n1] o1] [[[h2 d2] n2] o2] (E & R & N & E2). subst.
  split; [reflexivity|]. split; [|reflexivity]. cbn [fst snd]. apply Forall2_app; [|exact N]. now apply forall2_set.
Qed.

(** ** StreamsBuffer *)
Lemma sim_open h s s' i v : Forall2 same_r s s' -> rel_res (fun x y => fst (fst x) = fst (fst y) /\ Forall2 same_r (snd (fst x)) (snd (fst y)) /\ same_r (snd x) (snd y)) (qs_find_or_create h s i v) (sb_find_or_create h s' i v).
Proof.
  intros F. unfold qs_find_or_create, sb_find_or_create. apply rel_bind with (R := same2' (Forall2 same_r)).
  - rewrite (forall2_zlen _ _ _ F). destruct (i <? zlen s'); [split; [reflexivity|exact F]|]. eapply rel_bind; [apply sim_r_new|]. intros [h1 b] [h2 d] [E R]. cbn [fst snd] in *. subst. split; [reflexivity|]. cbn [fst snd]. apply Forall2_app; auto.
  - intros [h1 s1] [h2 s2] [E R]. cbn [fst snd] in *. subst. eapply rel_bind; [apply forall2_idx; exact R|]. intros r r' S. split; [reflexivity|]. auto.
Qed.
Lemma sim_s_call h s s' c : Forall2 same_r s s' -> rel_res (same3 (Forall2 same_r)) (qs_call h s c) (sb_impl h s' (fst c) (snd c)).
Proof.
  intros F. destruct c as [i o]. cbn [fst snd]. destruct o as [d v| | | |]; cbn [qs_call sb_impl].
  - unfold sb_write. destruct (sb_find_or_create h s' i v) as [[[h2 s2] r2]| | |] eqn:E2; pose proof (sim_open h s s' i v F) as S; rewrite E2 in S; destruct (qs_find_or_create h s i v) as [[[h1 s1] r1]| | |]; cbn in S; try contradiction; cbn [bind]; try exact I.
    destruct S as (-> & F1 & S). pose proof (sim_r_write h2 r1 r2 d S) as W. destruct (qr_write h2 r1 d) as [[h3 r3]| | |], (rb_write h2 r2 d) as [[h4 r4]| | |]; cbn in W; try contradiction; cbn [bind]; try exact I. destruct W as [E R]. cbn [fst snd] in *. subst.
    split; [reflexivity|]. split; [|reflexivity]. now apply forall2_set.
  - unfold sb_fetch. destruct (sb_find_or_create h s' i false) as [[[h2 s2] r2]| | |] eqn:E2; pose proof (sim_open h s s' i false F) as S; rewrite E2 in S; destruct (qs_find_or_create h s i false) as [[[h1 s1] r1]| | |]; cbn in S; try contradiction; cbn [bind]; try exact I.
    destruct S as (-> & F1 & S). pose proof (sim_r_fetch r1 r2 S) as W. destruct (qr_fetch r1) as [[r3 x3]| | |], (rb_fetch r2) as [[r4 x4]| | |]; cbn in W; try contradiction; cbn [bind]; try exact I. destruct W as [R E]. cbn [fst snd] in *. subst.
    split; [reflexivity|]. split; [|reflexivity]. now apply forall2_set.
  - unfold sb_discard_head. pose proof (forall2_idx _ _ _ i F) as S. destruct (of_opt (idx s i)) as [r| | |], (of_opt (idx s' i)) as [r'| | |]; cbn in S; try contradiction; cbn [bind]; try exact I.
    pose proof (sim_r_pop _ _ S) as W. destruct (qr_pop r), (rb_pop r'); cbn in W; try contradiction; cbn [bind]; try exact I. split; [reflexivity|]. split; [|reflexivity]. now apply forall2_set.
  - unfold sb_discard_back. pose proof (forall2_idx _ _ _ i F) as S. destruct (of_opt (idx s i)) as [r| | |], (of_opt (idx s' i)) as [r'| | |]; cbn in S; try contradiction; cbn [bind]; try exact I.
    pose proof (sim_r_pop_back _ _ S) as W. destruct (qr_pop_back r), (rb_pop_back r'); cbn in W; try contradiction; cbn [bind]; try exact I. split; [reflexivity|]. split; [|reflexivity]. now apply forall2_set.
  - unfold sb_pending. destruct (sb_find_or_create h s' i false) as [[[h2 s2] r2]| | |] eqn:E2; pose proof (sim_open h s s' i false F) as S; rewrite E2 in S; destruct (qs_find_or_create h s i false) as [[[h1 s1] r1]| | |]; cbn in S; try contradiction; cbn [bind]; try exact I.
    destruct S as (-> & F1 & S). rewrite (sim_d_pending _ _ (proj1 S)). cbn [bind]. split; [reflexivity|]. auto.
Qed.

(** ** Histories *)
Lemma trace_same {B C O} (R : B -> C -> Prop) (f : heap -> B -> O -> res (heap * B * raw)) (g : heap -> C -> O -> res (heap * C * raw)) :
  (forall h b c o, R b c -> rel_res (same3 R) (f h b o) (g h c o)) -> forall ops h b c, R b c -> trace f h b ops = trace g h c ops.
Proof.
  intros Sim. induction ops as [|o ops IH]; intros h b c H; [reflexivity|]. cbn [trace]. pose proof (Sim h b c o H) as S. destruct (f h b o) as [[[h1 b1] o1]| | |], (g h c o) as [[[h2 c2] o2]| | |]; cbn in S; try contradiction; auto.
  destruct S as (E1 & R1 & E2). cbn [fst snd] in *. subst. f_equal. now apply IH.
Qed.

(** * BlockRecoverProofs: what panicking calls of the block buffers and pipelines leave behind. *)
From Coq Require Import Lia.
From Verif Require Import Base BitCursorProofs CollectionsSpec RingProofs BlockModel BlockSpec HeapProofs DirectProofs RBProofs StreamsSpec StreamsProofs SafeSpec SafeProofs PipeModel PipeSpec BlockQueueModel BlockRecoverModel.

(** The result of a call without the state a panic leaves. *)
Definition ended {S A} (x : S * res A) : res (S * A) := match snd x with Ok a => Ok (fst x, a) | Err => Err | Panic => Panic | NoFuel => NoFuel end.

Lemma ended_attempt {S A B} (s : S) (x : res A) (k : A -> S * res B) : ended (attempt s x k) = (a <- x;; ended (k a)).
Proof. destruct x; reflexivity. Qed.
Lemma ended_plain {B A} h (b : B) (x : res (heap * B * A)) : ended (plain h b x) = x.
Proof. destruct x as [[[h1 b1] a]| | |]; reflexivity. Qed.
Lemma ended_ok {S A} (s : S) (a : A) : ended (s, Ok a) = Ok (s, a).
Proof. reflexivity. Qed.
Lemma ended_then {S A S' B} (x : S * res A) (k : S -> A -> S' * res B) (f : S -> S') :
  ended (let '(s, y) := x in attempt (f s) y (fun a => k s a)) = ('(s, a) <- ended x;; ended (k s a)).
Proof. destruct x as [s [a| | |]]; reflexivity. Qed.

(** ** The model agrees with BlockModel. *)
Lemma d_alloc_ended h b n : ended (d_alloc_r h b n) = d_alloc h b n.
Proof.
  unfold d_alloc_r, d_alloc. rewrite ended_attempt. destruct (assert _); cbn [bind]; try reflexivity. destruct (match last_of _ with Some _ => _ | None => _ end) as [front blk].
  cbv zeta. rewrite ended_attempt. destruct (if _ : bool then _ else _) as [[h1 data]| | |]; cbn [bind]; try reflexivity. rewrite ended_attempt. destruct (reslice _ _ _); reflexivity.
Qed.
Lemma d_write_ended h b d : ended (d_write_r h b d) = ('(h1, b1) <- d_write h b d;; Ok (h1, b1, tt)).
Proof.
  unfold d_write_r, d_write. rewrite <- d_alloc_ended. destruct (d_alloc_r h b (zlen d)) as [[h1 b1] [s| | |]]; cbn [attempt ended snd fst bind]; try reflexivity.
  destruct (hcopy h1 s d); reflexivity.
Qed.
Lemma d_fetch_ended b : ended (d_fetch_r b) = d_fetch b.
Proof.
  unfold d_fetch_r, d_fetch. rewrite ended_attempt. destruct (assert _); cbn [bind]; try reflexivity. rewrite ended_attempt. destruct (of_opt _) as [t| | |]; cbn [bind]; try reflexivity.
  destruct (bk_completed t); [reflexivity|]. cbv zeta. rewrite ended_attempt. destruct (reslice _ _ _); reflexivity.
Qed.
Lemma d_split_ended b : ended (d_split_off_r b) = d_split_off b.
Proof. unfold d_split_off_r, d_split_off. cbv zeta. rewrite ended_attempt. destruct (reslice _ _ _); reflexivity. Qed.
Lemma d_call_ended h b o : ended (d_call_r h b o) = d_one h b o.
Proof.
  unfold d_one. destruct o as [o| |]; [destruct o|..]; cbn [d_call_r]; try apply ended_plain; cbn [d_call].
  - pose proof (d_write_ended h b d) as E. destruct (d_write_r h b d) as [[h1 b1] [x| | |]]; destruct (d_write h b d) as [[h2 b2]| | |]; cbn in *; try discriminate; congruence.
  - rewrite <- d_alloc_ended. destruct (d_alloc_r h b n) as [[h1 b1] [x| | |]]; reflexivity.
  - rewrite <- d_fetch_ended. destruct (d_fetch_r b) as [b1 [x| | |]]; reflexivity.
  - rewrite <- d_split_ended. destruct (d_split_off_r b) as [b1 [x| | |]]; reflexivity.
Qed.

Lemma rb_alloc_ended h r n : ended (rb_alloc_r h r n) = rb_alloc h r n.
Proof.
  unfold rb_alloc_r, rb_alloc. cbv zeta. rewrite ended_attempt. match goal with |- bind ?x _ = bind ?x _ => destruct x as [[[[head tail] old] capacity]| | |]; cbn [bind]; try reflexivity end.
  destruct (match old with Some _ => _ | None => _ end) as [front ob].
  destruct (_ && _); [rewrite ended_attempt; cbn [bind]; destruct (reslice _ _ _); reflexivity|].
  destruct (_ && _); [rewrite ended_attempt; cbn [bind]; destruct (reslice _ _ _); reflexivity|].
  destruct (_ && _).
  - rewrite ended_attempt. destruct (reslice _ _ _) as [s| | |]; cbn [bind]; try reflexivity. rewrite ended_attempt. destruct (read h s) as [src| | |]; cbn [bind]; try reflexivity.
    rewrite ended_attempt. destruct (hcopy _ _ _) as [h1| | |]; cbn [bind]; try reflexivity. rewrite ended_attempt. destruct (reslice _ _ _); reflexivity.
  - rewrite ended_attempt. destruct (make _ _) as [[h1 data1]| | |]; cbn [bind]; try reflexivity. rewrite ended_attempt. destruct (reslice _ _ _) as [s| | |]; cbn [bind]; try reflexivity.
    rewrite ended_attempt. destruct (read h1 s) as [src| | |]; cbn [bind]; try reflexivity. rewrite ended_attempt. destruct (hcopy _ _ _) as [h2| | |]; cbn [bind]; try reflexivity.
    rewrite ended_attempt. destruct (reslice _ _ _); reflexivity.
Qed.
Lemma rb_write_ended h r d : ended (rb_write_r h r d) = ('(h1, r1) <- rb_write h r d;; Ok (h1, r1, tt)).
Proof.
  unfold rb_write_r, rb_write. rewrite <- rb_alloc_ended. destruct (rb_alloc_r h r (zlen d)) as [[h1 b1] [s| | |]]; cbn [attempt ended snd fst bind]; try reflexivity.
  destruct (hcopy h1 s d); reflexivity.
Qed.
Lemma rb_fetch_ended r : ended (rb_fetch_r r) = rb_fetch r.
Proof. unfold rb_fetch_r, rb_fetch. rewrite <- d_fetch_ended. destruct (d_fetch_r (rb_d r)) as [b [x| | |]]; reflexivity. Qed.
Lemma rb_call_ended h r o : ended (rb_call_r h r o) = rb_call h r o.
Proof.
  destruct o; cbn [rb_call_r]; try apply ended_plain; cbn [rb_call rb_impl].
  - pose proof (rb_write_ended h r d) as E. destruct (rb_write_r h r d) as [[h1 b1] [x| | |]]; destruct (rb_write h r d) as [[h2 b2]| | |]; cbn in *; try discriminate; congruence.
  - rewrite <- rb_alloc_ended. destruct (rb_alloc_r h r n) as [[h1 b1] [x| | |]]; reflexivity.
  - rewrite <- rb_fetch_ended. destruct (rb_fetch_r r) as [b1 [x| | |]]; reflexivity.
  - unfold rb_split_off_r. rewrite <- d_split_ended. destruct (d_split_off_r (rb_d r)) as [b1 [x| | |]]; reflexivity.
Qed.
Lemma sb_find_ended h s i v : ended (sb_find_r h s i v) = sb_find_or_create h s i v.
Proof.
  unfold sb_find_r, sb_find_or_create. destruct (i <? zlen s); [cbn [bind]; destruct (idx s i); reflexivity|]. rewrite ended_attempt. destruct (rb_new _ _) as [[h1 r]| | |]; cbn [bind]; try reflexivity.
Qed.
Lemma sb_call_ended h s i o : ended (sb_call_r h s (i, o)) = sb_impl h s i o.
Proof.
  destruct o; cbn [sb_call_r]; try apply ended_plain; cbn [sb_impl].
  - unfold sb_write. rewrite <- sb_find_ended. destruct (sb_find_r h s i video) as [[h1 s1] [r| | |]]; cbn [attempt ended fst snd bind]; try reflexivity.
    pose proof (rb_write_ended h1 r d) as E. destruct (rb_write_r h1 r d) as [[h2 r1] [x| | |]]; destruct (rb_write h1 r d) as [[h3 r3]| | |]; cbn in *; try discriminate; congruence.
  - unfold sb_fetch. rewrite <- sb_find_ended. destruct (sb_find_r h s i false) as [[h1 s1] [r| | |]]; cbn [attempt ended fst snd bind]; try reflexivity.
    rewrite <- rb_fetch_ended. destruct (rb_fetch_r r) as [b1 [x| | |]]; reflexivity.
  - unfold sb_pending. rewrite <- sb_find_ended. destruct (sb_find_r h s i false) as [[h1 s1] [r| | |]]; reflexivity.
Qed.
Lemma hp_write_ended h p d : ended (hp_write_r h p d) = hp_write h p d.
Proof.
  unfold hp_write_r, hp_write. cbv zeta. rewrite ended_attempt. match goal with |- bind ?x _ = bind ?x _ => destruct x as [[h1 buf]| | |]; cbn [bind]; try reflexivity end.
  rewrite ended_attempt. destruct (reslice _ _ _); cbn [bind]; try reflexivity. rewrite ended_attempt. destruct (hcopy _ _ _); reflexivity.
Qed.
Lemma hp_fetch_ended p : ended (hp_fetch_r p) = hp_fetch p.
Proof. unfold hp_fetch_r, hp_fetch. rewrite ended_attempt. destruct (reslice _ _ _); reflexivity. Qed.

(** ** When a panic leaves everything as it was. *)
Lemma ended_plain_eq {B A} h (b : B) (x : heap * B * res A) y z : ended x = y -> y = Ok z -> x = plain h b y.
Proof. intros E Q. subst y. rewrite Q. destruct x as [[h1 b1] [a| | |]]; cbn in Q; try discriminate. injection Q as <-. reflexivity. Qed.

Definition sized (o : rb_op) : Prop := match o with XAlloc n => 0 <= n | _ => True end.

Lemma rb_call_same h r o : wfs h r -> sized o -> rb_call_r h r o = plain h r (rb_call h r o).
Proof.
  intros W N. destruct (rb_call_ok h r o W) as (P & Q & _).
  destruct (rb_panics (d_sealed (rb_d r)) (rb_size r) o) eqn:E.
  - rewrite P by auto. destruct o; cbn [rb_panics sized] in *; try discriminate; try lia; cbn [rb_call_r].
    + (* Fetch *) unfold rb_fetch_r, d_fetch_r, rb_size, d_size in *. destruct r as [b c k]. cbn [rb_d rb_capacity rb_discard] in *. destruct (d_sealed b); [reflexivity|]. cbn [orb negb assert attempt] in *.
      destruct (d_blocks b) as [|x l]; [reflexivity|]. rewrite zlen_cons in E. pose proof (zlen_nonneg l). lia.
    + (* Pop *) rewrite P by auto. reflexivity.
    + (* PopBack *) rewrite P by auto. reflexivity.
  - destruct o; try reflexivity; (destruct Q as [x X]; [auto|discriminate|]); (eapply ended_plain_eq; [apply rb_call_ended|exact X]).
Qed.

(** DirectBlockBuffer, sealed or not. *)
Definition dwfs (h : heap) (b : dbuf) : Prop := valid h (d_data b) /\ 0 <= d_next b <= s_len (d_data b) /\ Forall (blk_ok (d_next b)) (d_blocks b).

Lemma d_pick_ok b : 0 <= d_next b -> Forall (blk_ok (d_next b)) (d_blocks b) -> Forall (blk_ok (d_next b)) (fst (d_pick b)) /\ blk_ok (d_next b) (snd (d_pick b)).
Proof.
  intros Hn F. unfold d_pick. assert (K : blk_ok (d_next b) (mkBlock (d_next b) 0 false)) by (unfold blk_ok; cbn [bk_index bk_size]; lia).
  destruct (snoc_cases (d_blocks b)) as [E|(f & t & E)]; rewrite E in *; [cbn [last_of fst snd]; auto|]. rewrite last_of_snoc, removelast_snoc.
  pose proof (proj1 (Forall_app _ _ _) F) as [Ff Ft]. apply Forall_cons_iff in Ft as [Ht _]. destruct (bk_completed t); cbn [fst snd]; auto.
Qed.
Lemma blk_ok_le n m k : blk_ok n k -> n <= m -> blk_ok m k.
Proof. unfold blk_ok. lia. Qed.

Lemma d_alloc_good h b n : dwfs h b -> d_sealed b = false -> 0 <= n ->
  exists h' b' s, d_alloc h b n = Ok (h', b', s) /\ dwfs h' b' /\ d_sealed b' = false /\ valid h' s /\ s_len s = n.
Proof.
  intros (V & N & F) S Hn. unfold d_alloc. rewrite S. cbn [negb assert bind]. fold (d_pick b). destruct (d_pick_ok b ltac:(lia) F) as [Ff Fb]. destruct (d_pick b) as [front blk]. cbn [fst snd] in *.
  assert (G : exists h1 data, (if d_next b + n >? s_len (d_data b) then d_grow h b ((d_next b + n) * 3 / 2) else Ok (h, d_data b)) = Ok (h1, data) /\ valid h1 data /\ d_next b + n <= s_len data).
  { destruct (d_next b + n >? s_len (d_data b)) eqn:G; [|exists h, (d_data b); repeat split; auto; lia].
    set (c := (d_next b + n) * 3 / 2). assert (d_next b + n <= c) by (subst c; Z.div_mod_to_equations; lia). unfold d_grow. rewrite make_ok by lia. cbn [bind]. rewrite reslice_ok by lia. cbn [bind].
    assert (Vs : valid h (mkSlice (s_arr (d_data b)) (s_off (d_data b) + 0) (d_next b - 0))) by (apply reslice_valid; auto; lia).
    destruct (valid_read _ _ Vs) as (src & Rs & Ls). cbn [s_len] in Ls. rewrite read_app by (apply (valid_lt _ _ V)). rewrite Rs. cbn [bind].
    set (h1 := h ++ [zeros (Z.to_nat c)]). assert (V1 : valid h1 (mkSlice (length h) 0 c)) by (apply make_valid; lia).
    destruct (hcopy_ok h1 _ src V1 ltac:(cbn [s_len]; lia)) as (h2 & E2 & _). rewrite E2. cbn [bind]. exists h2, (mkSlice (length h) 0 c). split; [reflexivity|].
    split; [exact (hcopy_valid h1 _ src V1 ltac:(cbn [s_len]; lia) h2 _ E2 V1)|cbn [s_len]; lia]. }
  destruct G as (h1 & data & -> & V1 & L1). cbn [bind]. rewrite reslice_ok by lia. cbn [bind]. do 3 eexists. split; [reflexivity|]. split; [|split; [first [exact S|reflexivity]|split; [apply reslice_valid; auto; lia|cbn [s_len]; lia]]].
  split; [exact V1|]. cbn [d_next d_data d_blocks]. split; [lia|]. apply Forall_app. split; [eapply Forall_impl; [|exact Ff]; intros k Hk; eapply blk_ok_le; [exact Hk|lia]|].
  apply Forall_cons; [|constructor]. unfold blk_ok in *. cbn [bk_index bk_size]. lia.
Qed.

Lemma hcopy_keeps h s d h' t : hcopy h s d = Ok h' -> valid h t -> valid h' t.
Proof.
  intros E2 (a & Ea & A). unfold hcopy in E2. destruct (nth_error h (s_arr s)) as [x|] eqn:Eb; [|discriminate]. cbn [of_opt bind] in E2.
  destruct (copy_at x _ _) as [x'|] eqn:Cb; [|discriminate]. cbn [of_opt bind] in E2. injection E2 as <-. apply copy_at_length in Cb.
  destruct (Nat.eq_dec (s_arr t) (s_arr s)) as [Eq|Ne].
  - unfold valid. rewrite Eq in Ea |- *. exists x'. rewrite set_nth_same by (apply nth_error_Some; congruence). split; [reflexivity|]. assert (a = x) by congruence. subst a. lia.
  - exists a. rewrite set_nth_other by auto. auto.
Qed.
Lemma d_call_good h b o : dwfs h b -> (match o with FCall o => sized o | _ => True end) ->
  d_call_r h b o = plain h b (d_one h b o) /\ (let '(h1, b1, _) := d_call_r h b o in dwfs h1 b1).
Proof.
  intros W N. pose proof W as (V & Nx & F).
  assert (K : forall x : heap * dbuf * res (list dbuf * raw), ended x = d_one h b o -> (forall h1 b1 a, x = (h1, b1, Ok a) -> dwfs h1 b1) ->
            ((exists z, d_one h b o = Ok z) \/ x = plain h b (d_one h b o)) -> x = plain h b (d_one h b o) /\ (let '(h1, b1, _) := x in dwfs h1 b1)).
  { intros x E H D. assert (Q : x = plain h b (d_one h b o)) by (destruct D as [[z D]|D]; [eapply ended_plain_eq; eauto|exact D]). split; [exact Q|].
    destruct x as [[h1 b1] [a| | |]]; [eapply H; reflexivity|..]; rewrite Q in *; destruct (d_one h b o) as [[[h2 b2] a]| | |]; cbn in Q; congruence. }
  apply K; [apply d_call_ended| |].
  - intros h1 b1 a Q. pose proof (d_call_ended h b o) as E. rewrite Q in E. cbn [ended snd fst] in E. clear K Q. symmetry in E. unfold d_one in E.
    destruct o as [o| |]; [destruct o|..]; cbn [d_call sized] in *.
    + unfold d_write in E. destruct (d_sealed b) eqn:Sl; [unfold d_alloc in E; rewrite Sl in E; discriminate|]. destruct (d_alloc_good h b (zlen d) W Sl (zlen_nonneg d)) as (h2 & b2 & s & Ea & W2 & _ & Vs & Ls). rewrite Ea in E. cbn [bind] in E.
      destruct (hcopy_ok h2 s d Vs ltac:(lia)) as (h3 & E3 & _). rewrite E3 in E. cbn [bind] in E. injection E as <- <- _. destruct W2 as (A & B). split; [exact (hcopy_valid h2 s d Vs ltac:(lia) h3 _ E3 A)|exact B].
    + destruct (d_sealed b) eqn:Sl; [unfold d_alloc in E; rewrite Sl in E; discriminate|]. destruct (d_alloc_good h b n W Sl N) as (h2 & b2 & s & Ea & W2 & _). rewrite Ea in E. cbn [bind] in E. injection E as <- <- _. exact W2.
    + unfold d_fetch in E. destruct (assert _); try discriminate. cbn [bind] in E. destruct (snoc_cases (d_blocks b)) as [B|(f & t & B)]; rewrite B in *; [discriminate|]. rewrite last_of_snoc in E. cbn [of_opt bind] in E.
      destruct (bk_completed t); [injection E as <- <- _; exact W|]. destruct (reslice _ _ _); try discriminate. cbn [bind] in E. injection E as <- <- _. split; [exact V|]. cbn [d_next d_data d_blocks]. split; [exact Nx|].
      rewrite removelast_snoc. apply Forall_app in F as [Ff Ft]. apply Forall_app. split; [exact Ff|]. apply Forall_cons_iff in Ft as [Ht _]. constructor; [exact Ht|constructor].
    + unfold d_pop in E. destruct (assert _); try discriminate. cbn [bind] in E. injection E as <- <- _. split; [exact V|]. cbn [d_next d_data d_blocks]. apply Forall_tl in F.
      destruct (tl (d_blocks b)) as [|x l]; [cbn [zlen length Z.of_nat Z.eqb]; split; [lia|constructor]|]. replace (zlen (x :: l) =? 0) with false by (rewrite zlen_cons; pose proof (zlen_nonneg l); lia). auto.
    + unfold d_pop_back in E. destruct (assert _); try discriminate. cbn [bind] in E. destruct (assert _); try discriminate. cbn [bind] in E. injection E as <- <- _. split; [exact V|]. cbn [d_next d_data d_blocks]. apply Forall_removelast in F.
      destruct (removelast (d_blocks b)) as [|x l]; [cbn [zlen length Z.of_nat Z.eqb]; split; [lia|constructor]|]. replace (zlen (x :: l) =? 0) with false by (rewrite zlen_cons; pose proof (zlen_nonneg l); lia). auto.
    + injection E as <- <- _. exact W.
    + injection E as <- <- _. exact W.
    + injection E as <- <- _. split; [exact V|]. cbn [d_clear d_next d_data d_blocks]. split; [lia|constructor].
    + unfold d_split_off in E. destruct (reslice _ _ _); try discriminate. cbn [bind] in E. injection E as <- <- _. exact W.
    + destruct (hcopy h s d) as [h2| | |] eqn:E2; try discriminate. cbn [bind] in E. injection E as <- <- _. split; [|split; [exact Nx|exact F]].
      exact (hcopy_keeps _ _ _ _ _ E2 V).
    + destruct (d_data_slice b); try discriminate. cbn [bind] in E. injection E as <- <- _. exact W.
    + injection E as <- <- _. exact W.
  - destruct o as [o| |]; [destruct o|..]; try (right; reflexivity); unfold d_one; cbn [d_call sized d_call_r] in *.
    + destruct (d_sealed b) eqn:Sl; [right; unfold d_write_r, d_alloc_r, d_write, d_alloc; rewrite Sl; reflexivity|]. left. unfold d_write. destruct (d_alloc_good h b (zlen d) W Sl (zlen_nonneg d)) as (h2 & b2 & s & -> & _ & _ & Vs & Ls). cbn [bind].
      destruct (hcopy_ok h2 s d Vs ltac:(lia)) as (h3 & -> & _). cbn [bind]. eauto.
    + destruct (d_sealed b) eqn:Sl; [right; unfold d_alloc_r, d_alloc; rewrite Sl; reflexivity|]. left. destruct (d_alloc_good h b n W Sl N) as (h2 & b2 & s & -> & _). cbn [bind]. eauto.
    + unfold d_fetch, d_fetch_r. destruct (d_sealed b); [right; reflexivity|]. cbn [negb assert attempt bind]. destruct (snoc_cases (d_blocks b)) as [B|(f & t & B)]; rewrite B in *; [right; reflexivity|]. rewrite last_of_snoc. cbn [of_opt attempt bind].
      destruct (bk_completed t); [right; reflexivity|]. apply Forall_app in F as [_ Ft]. apply Forall_cons_iff in Ft as [(H1 & H2 & H3) _]. rewrite reslice_ok by lia. right. reflexivity.
    + left. unfold d_split_off. rewrite reslice_ok by lia. cbn [bind]. eauto.
Qed.

(** ** Histories *)
Definition skipping {B O A} (call : heap -> B -> O -> res (heap * B * A)) : heap -> B -> list O -> heap * B * list (res A) :=
  recovered (fun h b o => plain h b (call h b o)).

Definition sizedf (o : fam_op) : Prop := match o with FCall o => sized o | _ => True end.
Lemma d_history ops : forall h b, dwfs h b -> Forall sizedf ops -> recovered d_call_r h b ops = skipping d_one h b ops /\ (let '(h1, b1, _) := recovered d_call_r h b ops in dwfs h1 b1).
Proof.
  induction ops as [|o t IH]; intros h b W F; [split; [reflexivity|exact W]|]. apply Forall_cons_iff in F as [So F]. destruct (d_call_good h b o W So) as [E W1].
  unfold skipping in *. cbn [recovered]. rewrite <- E. destruct (d_call_r h b o) as [[h1 b1] x]. destruct (IH h1 b1 W1 F) as [E2 W2]. rewrite <- E2. clear E2.
  revert W2. destruct (recovered _ h1 b1 t) as [[h2 b2] xs]. auto.
Qed.
Lemma d_new_wfs h c h1 b : d_new h c = Ok (h1, b) -> dwfs h1 b.
Proof.
  unfold d_new. destruct (make h c) as [[h2 s]| | |] eqn:E; try discriminate. cbn [bind]. intros Q. injection Q as <- <-.
  unfold make in E. destruct (0 <=? c) eqn:L; [|discriminate]. cbn [assert bind] in E. injection E as <- <-. split; [apply make_valid; lia|]. cbn [d_next d_data d_blocks s_len]. split; [lia|constructor].
Qed.
Lemma rb_history ops : forall h r, wfs h r -> Forall sized ops -> recovered rb_call_r h r ops = skipping rb_call h r ops /\ (let '(h1, r1, _) := recovered rb_call_r h r ops in wfs h1 r1).
Proof.
  induction ops as [|o t IH]; intros h r W F; [split; [reflexivity|exact W]|]. apply Forall_cons_iff in F as [So F]. pose proof (rb_call_same h r o W So) as E. destruct (rb_call_ok h r o W) as (_ & _ & K).
  unfold skipping in *. cbn [recovered]. rewrite <- E. assert (W1 : let '(h1, r1, _) := rb_call_r h r o in wfs h1 r1).
  { rewrite E. destruct (rb_call h r o) as [[[h1 r1] a]| | |]; cbn [plain attempt]; auto. now destruct (K h1 r1 a eq_refl). }
  destruct (rb_call_r h r o) as [[h1 r1] x]. destruct (IH h1 r1 W1 F) as [E2 W2]. rewrite <- E2. clear E2. revert W2. destruct (recovered _ h1 r1 t) as [[h2 b2] xs]. auto.
Qed.
Lemma rb_new_wfs h c h1 r : rb_new h c = Ok (h1, r) -> wfs h1 r.
Proof.
  unfold rb_new. destruct (d_new h c) as [[h2 b]| | |] eqn:E; try discriminate. cbn [bind]. intros Q. injection Q as <- <-. pose proof (d_new_wfs _ _ _ _ E) as (V & N & F).
  unfold d_new, make in E. destruct (0 <=? c) eqn:L; [|discriminate]. cbn [assert bind] in E. injection E as <- <-. split; [|reflexivity].
  repeat split; cbn [unseal rb_d d_data d_sealed d_blocks rb_capacity rb_discard s_len] in *; auto; lia.
Qed.

(** ** StreamsBuffer *)
(** The calls that append a buffer before they panic. *)
Definition adds (n i : Z) (o : sop) : option bool :=
  match o with
  | SWrite _ v => if n <? i then Some v else None
  | SFetch => if n <=? i then Some false else None
  | SPending => if n <? i then Some false else None
  | _ => None
  end.
Definition swf (h : heap) (s : sbuf) : Prop := Forall (rb_wf h) s.
Lemma swf_up h h' s : swf h s -> (forall t, valid h t -> valid h' t) -> swf h' s.
Proof. intros F V. eapply Forall_impl; [|exact F]. intros r (A & B). split; [apply V, A|exact B]. Qed.
Lemma swf_idx h s i r : swf h s -> idx s i = Some r -> rb_wf h r.
Proof. intros F E. unfold idx in E. destruct (i <? 0); [discriminate|]. apply nth_error_In in E. now apply (proj1 (Forall_forall _ _) F). Qed.
Lemma swf_put h s i r : swf h s -> rb_wf h r -> swf h (sb_put s i r).
Proof.
  intros F W. unfold sb_put. generalize (Z.to_nat i). induction F as [|x l Hx F IH]; intros [|n]; cbn [set_nth]; constructor; auto. apply IH.
Qed.
Lemma stream_new h v : exists h1 r, rb_new h (stream_capacity v) = Ok (h1, r) /\ rb_wf h1 r /\ (forall t, valid h t -> valid h1 t) /\ d_blocks (rb_d r) = [] /\ d_sealed (rb_d r) = false.
Proof.
  destruct (rb_new_inv false h (stream_capacity v)) as (h1 & r & E & (W & _)); [destruct v; cbn; lia|]. exists h1, r. split; [exact E|]. split; [exact W|].
  unfold rb_new, d_new, make in E. destruct (0 <=? stream_capacity v); [|discriminate]. cbn [assert bind] in E. injection E as <- <-. split; [intros t Vt; now apply valid_app|auto].
Qed.
Lemma rb_write_same h r d : rb_wf h r -> exists h1 r1, rb_write_r h r d = (h1, r1, Ok tt) /\ rb_write h r d = Ok (h1, r1) /\ rb_wf h1 r1 /\ (forall t, valid h t -> valid h1 t).
Proof.
  intros W. destruct (rb_pick r) as [[[[head tail] c] front] ob] eqn:Pk. destruct (rb_write_ok h r d _ _ _ _ _ W Pk) as (h1 & r1 & E & W1 & _ & V & _). exists h1, r1. split; [|auto].
  pose proof (rb_write_ended h r d) as Q. rewrite E in Q. destruct (rb_write_r h r d) as [[h2 r2] [[]| | |]]; cbn in Q; try discriminate. congruence.
Qed.
Lemma rb_fetch_panic h r : rb_wf h r -> (exists r1 x, rb_fetch_r r = (r1, Ok x) /\ rb_fetch r = Ok (r1, x) /\ rb_wf h r1) \/ (rb_fetch_r r = (r, Panic) /\ rb_fetch r = Panic /\ d_blocks (rb_d r) = []).
Proof.
  intros W. pose proof W as (V & S & C & D & F). pose proof (rb_fetch_ended r) as E. destruct r as [b c k]. cbn [rb_d rb_capacity rb_discard] in *. unfold rb_fetch_r, d_fetch_r in *. cbn [rb_d rb_capacity rb_discard] in *. rewrite S in *. cbn [negb assert attempt] in *.
  destruct (snoc_cases (d_blocks b)) as [B|(f & t & B)]; rewrite B in *; [right; cbn [last_of of_opt attempt ended snd] in *; auto|]. left. rewrite last_of_snoc in *. cbn [of_opt attempt] in *.
  destruct (bk_completed t); cbn [ended snd fst] in E; [symmetry in E; eexists _, _; split; [reflexivity|]; split; [exact E|]; now apply (rb_fetch_wf _ _ _ _ W E)|].
  apply Forall_app in F as [_ Ft]. apply Forall_cons_iff in Ft as [(H1 & H2 & H3) _]. rewrite reslice_ok in * by lia. cbn [attempt ended snd fst] in *. symmetry in E. eexists _, _. split; [reflexivity|]. split; [exact E|]. now apply (rb_fetch_wf _ _ _ _ W E).
Qed.

Lemma find_in h s i v : i < zlen s -> sb_find_r h s i v = (h, s, of_opt (idx s i)).
Proof. intros H. unfold sb_find_r. now replace (i <? zlen s) with true by lia. Qed.
Lemma find_new h s i v h1 r : rb_new h (stream_capacity v) = Ok (h1, r) -> zlen s <= i -> sb_find_r h s i v = (h1, s ++ [r], if i =? zlen s then Ok r else Panic).
Proof.
  intros E H. unfold sb_find_r. replace (i <? zlen s) with false by lia. rewrite E. cbn [attempt]. f_equal. destruct (i =? zlen s) eqn:Q.
  - replace i with (zlen s) by lia. rewrite idx_app_r, Z.sub_diag by lia. reflexivity.
  - destruct (idx (s ++ [r]) i) eqn:X; [|reflexivity]. apply idx_inv in X. rewrite zlen_app in X. change (zlen [r]) with 1 in X. lia.
Qed.
Lemma sb_call_split h s i o : swf h s ->
  (match adds (zlen s) i o with
   | Some v => exists h1 r, rb_new h (stream_capacity v) = Ok (h1, r) /\ sb_call_r h s (i, o) = (h1, s ++ [r], Panic)
   | None => sb_call_r h s (i, o) = plain h s (sb_impl h s i o)
   end) /\ (let '(h1, s1, _) := sb_call_r h s (i, o) in swf h1 s1).
Proof.
  intros F. assert (App : forall h1 r, swf h1 s -> rb_wf h1 r -> swf h1 (s ++ [r])) by (intros; apply Forall_app; split; [auto|constructor; [auto|constructor]]).
  pose proof (sb_call_ended h s i o) as En. remember (sb_call_r h s (i, o)) as y eqn:C.
  assert (K : forall h1 s1 x, y = (h1, s1, Ok x) -> y = plain h s (sb_impl h s i o)).
  { intros h1 s1 x Q. eapply ended_plain_eq; [exact En|]. rewrite Q in En. cbn [ended snd fst] in En. symmetry. exact En. }
  assert (P : y = (h, s, Panic) -> y = plain h s (sb_impl h s i o)).
  { intros Q. rewrite Q in En |- *. cbn [ended snd] in En. now rewrite <- En. }
  assert (Pl : forall x : res sbuf, (forall s1, x = Ok s1 -> swf h s1) -> let '(h1, s1, _) := plain h s (s1 <- x;; Ok (h, s1, RUnit)) in swf h1 s1) by (intros [s1| | |] H; cbn; auto).
  destruct o as [d v| | | |]; cbn [adds]; cbn [sb_call_r] in C.
  - (* Write *) destruct (Z_lt_dec i (zlen s)) as [Hi|Hi].
    + replace (zlen s <? i) with false by lia. rewrite find_in in C by lia. destruct (idx s i) as [r|] eqn:X; cbn [of_opt attempt] in C; [|split; [apply P, C|rewrite C; exact F]].
      destruct (rb_write_same h r d (swf_idx _ _ _ _ F X)) as (h1 & r1 & E1 & _ & W1 & V1). rewrite E1 in C. cbn [attempt] in C. split; [eapply K, C|]. rewrite C. apply swf_put; [eapply swf_up; eauto|exact W1].
    + destruct (stream_new h v) as (h1 & r & E & W & V & _). rewrite (find_new h s i v h1 r E ltac:(lia)) in C. destruct (zlen s <? i) eqn:L.
      * replace (i =? zlen s) with false in C by lia. cbn [attempt] in C. split; [eauto|]. rewrite C. apply App; [eapply swf_up; eauto|exact W].
      * replace (i =? zlen s) with true in C by lia. cbn [attempt] in C. destruct (rb_write_same h1 r d W) as (h2 & r1 & E1 & _ & W1 & V1). rewrite E1 in C. cbn [attempt] in C. split; [eapply K, C|]. rewrite C.
        apply swf_put; [|exact W1]. eapply swf_up; [|exact V1]. apply App; [eapply swf_up; eauto|exact W].
  - (* Fetch *) destruct (Z_lt_dec i (zlen s)) as [Hi|Hi].
    + replace (zlen s <=? i) with false by lia. rewrite find_in in C by lia. destruct (idx s i) as [r|] eqn:X; cbn [of_opt attempt] in C; [|split; [apply P, C|rewrite C; exact F]].
      destruct (rb_fetch_panic h r (swf_idx _ _ _ _ F X)) as [(r1 & x & E1 & _ & W1)|(E1 & _ & _)]; rewrite E1 in C; cbn [attempt] in C; [split; [eapply K, C|rewrite C; now apply swf_put]|].
      assert (Q : sb_put s i r = s). { unfold sb_put. unfold idx in X. destruct (i <? 0); [discriminate|]. now apply set_nth_id. } rewrite Q in C. split; [apply P, C|rewrite C; exact F].
    + replace (zlen s <=? i) with true by lia. destruct (stream_new h false) as (h1 & r & E & W & V & B & Sl). rewrite (find_new h s i false h1 r E ltac:(lia)) in C. destruct (i =? zlen s) eqn:Q; cbn [attempt] in C.
      * destruct (rb_fetch_panic h1 r W) as [(r1 & x & E1 & E2 & _)|(E1 & _ & _)]; [unfold rb_fetch, d_fetch in E2; rewrite B, Sl in E2; discriminate|]. rewrite E1 in C. cbn [attempt] in C. replace (sb_put (s ++ [r]) i r) with (s ++ [r]) in C.
        -- split; [eauto|]. rewrite C. apply App; [eapply swf_up; eauto|exact W].
        -- symmetry. unfold sb_put. apply set_nth_id. replace (Z.to_nat i) with (length s) by (unfold zlen in *; lia). rewrite nth_error_app2, Nat.sub_diag by lia. reflexivity.
      * split; [eauto|]. rewrite C. apply App; [eapply swf_up; eauto|exact W].
  - split; [exact C|]. rewrite C. cbn [sb_impl]. apply Pl. intros s1 Q. unfold sb_discard_head in Q. destruct (idx s i) as [r|] eqn:X; [|discriminate]. cbn [of_opt bind] in Q. destruct (rb_pop r) as [r1| | |] eqn:E1; try discriminate. cbn [bind] in Q. injection Q as <-.
    apply swf_put; [exact F|]. now apply (rb_pop_wf _ _ _ (swf_idx _ _ _ _ F X) E1).
  - split; [exact C|]. rewrite C. cbn [sb_impl]. apply Pl. intros s1 Q. unfold sb_discard_back in Q. destruct (idx s i) as [r|] eqn:X; [|discriminate]. cbn [of_opt bind] in Q. destruct (rb_pop_back r) as [r1| | |] eqn:E1; try discriminate. cbn [bind] in Q. injection Q as <-.
    apply swf_put; [exact F|]. now apply (rb_pop_back_wf _ _ _ (swf_idx _ _ _ _ F X) E1).
  - (* Pending *) destruct (Z_lt_dec i (zlen s)) as [Hi|Hi].
    + replace (zlen s <? i) with false by lia. rewrite find_in in C by lia. destruct (idx s i) as [r|] eqn:X; cbn [of_opt attempt] in C; [|split; [apply P, C|rewrite C; exact F]]. split; [eapply K, C|rewrite C; exact F].
    + destruct (stream_new h false) as (h1 & r & E & W & V & _). rewrite (find_new h s i false h1 r E ltac:(lia)) in C. destruct (zlen s <? i) eqn:L.
      * replace (i =? zlen s) with false in C by lia. cbn [attempt] in C. split; [eauto|]. rewrite C. apply App; [eapply swf_up; eauto|exact W].
      * replace (i =? zlen s) with true in C by lia. cbn [attempt] in C. split; [eapply K, C|]. rewrite C. apply App; [eapply swf_up; eauto|exact W].
Qed.
Lemma sb_history ops : forall h s, swf h s -> let '(h1, s1, _) := recovered sb_call_r h s ops in swf h1 s1.
Proof.
  induction ops as [|[i o] t IH]; intros h s W; [exact W|]. cbn [recovered]. destruct (sb_call_split h s i o W) as [_ W1]. destruct (sb_call_r h s (i, o)) as [[h1 s1] x]. specialize (IH h1 s1 W1).
  destruct (recovered sb_call_r h1 s1 t) as [[h2 s2] xs]. exact IH.
Qed.
(** Calling again and again. *)
Lemma sb_catch_up k : forall h s i d v, swf h s -> i = zlen s + Z.of_nat k ->
  exists h1 s1 fresh, recovered sb_call_r h s (repeat (i, SWrite d v) k) = (h1, s1, repeat Panic k) /\ s1 = s ++ fresh /\ length fresh = k /\
    Forall (fun r => d_blocks (rb_d r) = [] /\ s_len (d_data (rb_d r)) = stream_capacity v) fresh /\
    (forall t, valid h t -> read h1 t = read h t) /\ swf h1 s1.
Proof.
  induction k as [|k IH]; intros h s i d v W Hi.
  - exists h, s, []. cbn [repeat recovered]. rewrite app_nil_r. auto 8.
  - cbn [repeat recovered]. destruct (sb_call_split h s i (SWrite d v) W) as [A W1]. cbn [adds] in A. replace (zlen s <? i) with true in A by lia. destruct A as (h1 & r & E & Q). rewrite Q in *.
    destruct (IH h1 (s ++ [r]) i d v W1) as (h2 & s2 & fresh & R & S2 & L & Fr & V & W2); [rewrite zlen_app; change (zlen [r]) with 1; lia|]. rewrite R. exists h2, s2, (r :: fresh). split; [reflexivity|]. split; [rewrite S2, <- app_assoc; reflexivity|].
    split; [cbn [length]; lia|]. unfold rb_new, d_new, make in E. destruct (0 <=? stream_capacity v); [|discriminate]. cbn [assert bind] in E. injection E as <- <-. split; [constructor; [split; reflexivity|exact Fr]|].
    split; [|exact W2]. intros t Vt. rewrite V by (now apply valid_app). now apply read_app, valid_lt.
Qed.

(** ** Negative sizes *)
Lemma d_pick_open b : bk_completed (snd (d_pick b)) = false.
Proof. unfold d_pick. destruct (last_of (d_blocks b)) as [t|]; [|reflexivity]. destruct (bk_completed t) eqn:E; [reflexivity|exact E]. Qed.
(** The last block with [k] bytes less than it has. *)
Definition shorter (b : dbuf) (k : Z) : dbuf :=
  mkD (d_data b) (d_next b) (d_sealed b) (fst (d_pick b) ++ [mkBlock (bk_index (snd (d_pick b))) (bk_size (snd (d_pick b)) - k) false]).
Lemma d_alloc_neg h b k : 0 <= d_next b <= s_len (d_data b) -> d_sealed b = false -> 0 < k -> d_alloc_r h b (- k) = (h, shorter b k, Panic).
Proof.
  intros N S K. unfold d_alloc_r. rewrite S. cbn [negb assert attempt]. fold (d_pick b). pose proof (d_pick_open b) as Op. unfold shorter. rewrite S. destruct (d_pick b) as [front blk]. cbn [fst snd] in *.
  replace (d_next b + - k >? s_len (d_data b)) with false by lia. cbn [attempt]. unfold reslice. replace (d_next b <=? d_next b + - k) with false by lia. rewrite andb_false_r. cbn [andb attempt]. rewrite Op. do 4 f_equal.
Qed.
Lemma shorter_pick b k : d_pick (shorter b k) = (fst (d_pick b), mkBlock (bk_index (snd (d_pick b))) (bk_size (snd (d_pick b)) - k) false).
Proof. unfold d_pick at 1. cbn [shorter d_blocks]. rewrite last_of_snoc, removelast_snoc. reflexivity. Qed.
Lemma shorter_twice b k j : shorter (shorter b k) j = shorter b (k + j).
Proof. unfold shorter at 1 3. rewrite shorter_pick. cbn [shorter fst snd d_data d_next d_sealed bk_index bk_size]. do 4 f_equal. lia. Qed.
Lemma d_alloc_shorter h b k n : d_alloc h (shorter b k) n = ('(h1, b1, s) <- d_alloc h b n;; Ok (h1, shorter b1 k, s)).
Proof.
  unfold d_alloc. cbn [shorter d_sealed]. destruct (d_sealed b); cbn [negb assert bind]; [reflexivity|].
  change (match last_of (d_blocks (shorter b k)) with Some t => if bk_completed t then (d_blocks (shorter b k), mkBlock (d_next (shorter b k)) 0 false) else (removelast (d_blocks (shorter b k)), t) | None => (d_blocks (shorter b k), mkBlock (d_next (shorter b k)) 0 false) end) with (d_pick (shorter b k)).
  fold (d_pick b). rewrite shorter_pick. pose proof (d_pick_open b) as Op. destruct (d_pick b) as [front blk] eqn:Pk. cbn [fst snd] in *. unfold d_grow. cbn [shorter d_next d_data bk_index bk_size bk_completed].
  match goal with |- bind ?x _ = _ => destruct x as [[h1 data]| | |]; cbn [bind]; try reflexivity end.
  destruct (reslice data (d_next b) (d_next b + n)) as [s| | |]; cbn [bind]; try reflexivity. do 3 f_equal. unfold shorter. cbn [d_data d_next d_sealed]. unfold d_pick. cbn [d_blocks]. rewrite last_of_snoc, removelast_snoc. cbn [bk_completed]. rewrite Op. cbn [fst snd bk_index bk_size].
  do 4 f_equal. lia.
Qed.
Lemma d_write_shorter h b k d : d_write h (shorter b k) d = ('(h1, b1) <- d_write h b d;; Ok (h1, shorter b1 k)).
Proof. unfold d_write. rewrite d_alloc_shorter. destruct (d_alloc h b (zlen d)) as [[[h1 b1] s]| | |]; cbn [bind]; try reflexivity. destruct (hcopy h1 s d); reflexivity. Qed.
(** After the write the block ends [k] bytes early. *)
Lemma d_negative_write h b k d : dwfs h b -> d_sealed b = false -> 0 < k ->
  exists h2 b2 b3 s, d_write h b d = Ok (h2, b2) /\ d_write h (shorter b k) d = Ok (h2, shorter b2 k) /\ d_fetch b2 = Ok (b3, Some s) /\
    s_len s = bk_size (snd (d_pick b)) + zlen d /\
    (k <= s_len s -> exists b4, d_fetch (shorter b2 k) = Ok (b4, Some (mkSlice (s_arr s) (s_off s) (s_len s - k)))) /\
    (s_len s < k -> d_fetch (shorter b2 k) = Panic).
Proof.
  intros W S K. pose proof W as (V & N & F). pose proof (zlen_nonneg d) as Zd.
  destruct (d_alloc_good h b (zlen d) W S Zd) as (h1 & b1 & s & Ea & W1 & S1 & Vs & Ls). destruct (hcopy_ok h1 s d Vs ltac:(lia)) as (h2 & Ec & _).
  assert (Ew : d_write h b d = Ok (h2, b1)) by (unfold d_write; rewrite Ea; cbn [bind]; rewrite Ec; reflexivity).
  assert (B1 : d_blocks b1 = fst (d_pick b) ++ [mkBlock (bk_index (snd (d_pick b))) (bk_size (snd (d_pick b)) + zlen d) false]).
  { unfold d_alloc in Ea. rewrite S in Ea. cbn [negb assert bind] in Ea. fold (d_pick b) in Ea. pose proof (d_pick_open b) as Op. destruct (d_pick b) as [front blk]. cbn [fst snd] in *. rewrite Op in Ea.
    match type of Ea with bind ?x _ = _ => destruct x as [[h3 data]| | |]; try discriminate end. cbn [bind] in Ea. destruct (reslice data _ _) as [s'| | |]; try discriminate. cbn [bind] in Ea. injection Ea as _ <- _. reflexivity. }
  destruct W1 as (V1 & N1 & F1). rewrite B1 in F1. apply Forall_app in F1 as [_ F1]. apply Forall_cons_iff in F1 as [(H1 & H2 & H3) _]. cbn [bk_index bk_size] in *.
  assert (Pk : d_pick b1 = (fst (d_pick b), mkBlock (bk_index (snd (d_pick b))) (bk_size (snd (d_pick b)) + zlen d) false)) by (unfold d_pick at 1; rewrite B1, last_of_snoc, removelast_snoc; reflexivity).
  exists h2, b1. assert (Ef : d_fetch b1 = Ok (mkD (d_data b1) (d_next b1) (d_sealed b1) (fst (d_pick b) ++ [mkBlock (bk_index (snd (d_pick b))) (bk_size (snd (d_pick b)) + zlen d) true]),
     Some (mkSlice (s_arr (d_data b1)) (s_off (d_data b1) + bk_index (snd (d_pick b))) (bk_size (snd (d_pick b)) + zlen d)))).
  { unfold d_fetch. rewrite S1, B1, last_of_snoc, removelast_snoc. cbn [negb assert bind of_opt bk_completed bk_index bk_size]. rewrite reslice_ok by lia. cbn [bind]. do 4 f_equal. lia. }
  do 2 eexists. split; [exact Ew|]. split; [rewrite d_write_shorter, Ew; reflexivity|]. split; [exact Ef|]. cbn [s_len s_arr s_off]. split; [reflexivity|].
  unfold d_fetch, shorter. rewrite Pk. cbn [fst snd d_sealed d_blocks d_data d_next bk_index bk_size]. rewrite S1, last_of_snoc, removelast_snoc. cbn [negb assert bind of_opt bk_completed bk_index bk_size]. split; intros L.
  - rewrite reslice_ok by lia. cbn [bind]. eexists. do 4 f_equal. lia.
  - unfold reslice. replace (bk_index (snd (d_pick b)) <=? bk_index (snd (d_pick b)) + (bk_size (snd (d_pick b)) + zlen d - k)) with false by lia. rewrite andb_false_r. reflexivity.
Qed.

(** The ring: nothing but the pending block. *)
Definition opened (r : rbuf) : rbuf :=
  let '(_, _, c, front, ob) := rb_pick r in mkRB (mkD (d_data (rb_d r)) (d_next (rb_d r)) (d_sealed (rb_d r)) (front ++ [ob])) c (rb_discard r).
Lemma opened_pick r : rb_pick (opened r) = rb_pick r.
Proof.
  unfold opened. destruct (rb_pick r) as [[[[head tail] c] front] ob] eqn:E. unfold rb_pick in *. cbn [rb_d d_blocks d_data rb_capacity].
  rewrite last_of_snoc, first_of_snoc, removelast_snoc.
  destruct (snoc_cases (d_blocks (rb_d r))) as [X|(f & t & X)]; rewrite X in E.
  - cbn [last_of] in E. injection E as <- <- <- <- <-. reflexivity.
  - rewrite last_of_snoc, first_of_snoc, removelast_snoc in E. destruct (bk_completed t) eqn:Ct.
    + injection E as <- <- <- <- <-. cbn [bk_completed bk_index bk_size]. rewrite Z.add_0_r. destruct f as [|y f]; cbn [app].
      * change (zlen [t]) with 1. change (zlen [t; mkBlock (bk_index t + bk_size t) 0 false]) with 2. reflexivity.
      * match goal with |- context [if ?z =? 1 then _ else _] => replace (z =? 1) with false by (rewrite zlen_cons, zlen_app; change (zlen [mkBlock (bk_index t + bk_size t) 0 false]) with 1; pose proof (zlen_nonneg (f ++ [t])); lia) end. reflexivity.
    + injection E as <- <- <- <- <-. rewrite Ct. destruct (zlen (f ++ [t]) =? 1); reflexivity.
Qed.
Lemma opened_alloc h r n : rb_alloc h (opened r) n = rb_alloc h r n.
Proof. rewrite !rb_alloc_place. unfold rb_place. rewrite opened_pick. unfold opened. destruct (rb_pick r) as [[[[head tail] c] front] ob]. cbn [rb_d d_data d_next d_sealed rb_discard]. reflexivity. Qed.
Lemma rb_alloc_neg h r k head tail c front ob : rb_pick r = (head, tail, c, front, ob) -> tail < head \/ tail <= c -> 0 < k -> rb_alloc_r h r (- k) = (h, opened r, Panic).
Proof.
  intros E L K. unfold opened. rewrite E. unfold rb_alloc_r. unfold rb_pick in E.
  assert (G : forall (fr : list block) (o : block), (fr, o) = (front, ob) ->
    (if (tail <? head) && (head - tail >=? - k) then true else negb (tail <? head) && (c - tail >=? - k)) = true).
  { intros _ _ _. destruct (tail <? head) eqn:T; cbn [andb negb]; [replace (head - tail >=? - k) with true by lia; reflexivity|]. replace (c - tail >=? - k) with true by lia. reflexivity. }
  specialize (G front ob eq_refl).
  assert (R : forall o x : block, mkBlock (bk_index o) (bk_size o) (bk_completed o) = o) by (intros [] _; reflexivity).
  assert (Rs : reslice (d_data (rb_d r)) tail (tail + - k) = Panic) by (unfold reslice; replace (tail <=? tail + - k) with false by lia; rewrite andb_false_r; reflexivity).
  destruct (snoc_cases (d_blocks (rb_d r))) as [X|(f & t & X)]; rewrite X in *.
  - cbn [last_of] in E. injection E as <- <- <- <- <-. cbn [zlen length Z.of_nat Z.eqb attempt bk_index bk_size bk_completed]. cbn [Z.ltb andb negb Z.compare] in G |- *. rewrite G. rewrite Rs. reflexivity.
  - rewrite last_of_snoc, first_of_snoc, removelast_snoc in E. destruct (zlen (f ++ [t]) =? 0) eqn:Z0; [rewrite zlen_app in Z0; change (zlen [t]) with 1 in Z0; pose proof (zlen_nonneg f); lia|].
    assert (A : (if zlen (f ++ [t]) =? 1 then b <- of_opt (first_of (f ++ [t]));; Ok (bk_index b, bk_index b + bk_size b, Some b, s_len (d_data (rb_d r)))
       else b <- of_opt (last_of (f ++ [t]));; hd <- of_opt (first_of (f ++ [t]));; Ok (bk_index hd, bk_index b + bk_size b, Some b, rb_capacity r)) = Ok (head, tail, Some t, c)).
    { rewrite last_of_snoc, first_of_snoc. destruct (zlen (f ++ [t]) =? 1) eqn:Z1.
      - destruct f as [|y f]; [|rewrite zlen_app, zlen_cons in Z1; change (zlen [t]) with 1 in Z1; pose proof (zlen_nonneg f); lia]. cbn [of_opt bind]. destruct (bk_completed t); congruence.
      - cbn [of_opt bind]. destruct (bk_completed t); congruence. }
    rewrite A. cbn [attempt]. rewrite removelast_snoc. assert (B : (if bk_completed t then (f ++ [t], mkBlock tail 0 false) else (f, t)) = (front, ob)) by (destruct (bk_completed t); congruence). rewrite B.
    destruct ((tail <? head) && (head - tail >=? - k)); [|rewrite G]; rewrite Rs; cbn [attempt]; rewrite R by exact ob; reflexivity.
Qed.
Lemma chain_last lo l i n hi : chain lo (l ++ [(i, n)]) hi -> i + n <= hi.
Proof. intros C. apply chain_snoc in C. lia. Qed.
Lemma rb_inv_tail h r q head tail c front ob : rb_inv true h r q -> ~ rb_full r -> rb_pick r = (head, tail, c, front, ob) -> tail < head \/ tail <= c.
Proof.
  intros (W & Lay & _) NF E. pose proof (rb_pick_ok _ _ _ _ _ _ _ W E) as [Pob Ptl Pbk Phd Pcp Pfr]. destruct (pick_layout _ _ _ _ _ _ _ W E (Lay eq_refl) NF) as [(K & _)|(hd & L1 & L2 & _ & _ & _ & _ & Lt)]; [right|auto].
  rewrite map_app in K. cbn [map] in K. unfold geo in K at 2. apply chain_last in K. lia.
Qed.

(** ** The new buffer of SplitOff beyond the end of its array *)
Lemma d_alloc_beyond h b n : d_sealed b = false -> 0 <= s_len (d_data b) < d_next b -> 0 <= n ->
  d_alloc_r h b n = (h, mkD (d_data b) (d_next b) false (fst (d_pick b) ++ [snd (d_pick b)]), Panic).
Proof.
  intros S N Hn. unfold d_alloc_r. rewrite S. cbn [negb assert attempt]. fold (d_pick b). destruct (d_pick b) as [front blk]. cbn [fst snd]. replace (d_next b + n >? s_len (d_data b)) with true by lia.
  unfold d_grow. rewrite make_ok by (Z.div_mod_to_equations; lia). cbn [bind]. unfold reslice. replace (d_next b <=? s_len (d_data b)) with false by lia. rewrite andb_false_r. reflexivity.
Qed.
Lemma d_fetch_beyond b f : d_sealed b = false -> s_len (d_data b) < d_next b -> d_blocks b = f ++ [mkBlock (d_next b) 0 false] ->
  d_fetch_r b = (mkD (d_data b) (d_next b) false (f ++ [mkBlock (d_next b) 0 true]), Panic).
Proof.
  intros S N B. unfold d_fetch_r. rewrite S, B, last_of_snoc, removelast_snoc. cbn [negb assert attempt of_opt bk_completed bk_index bk_size]. unfold reslice. replace (d_next b + 0 <=? s_len (d_data b)) with false by lia. rewrite andb_false_r. reflexivity.
Qed.
Lemma d_split_beyond b : s_len (d_data b) < d_next b -> d_split_off_r b = (mkD (d_data b) (d_next b) true (d_blocks b), Panic).
Proof. intros N. unfold d_split_off_r, reslice. replace (d_next b <=? s_len (d_data b)) with false by lia. rewrite andb_false_r. reflexivity. Qed.

(** ** DirectDataPipeline *)
Lemma hp_write_same h p d : 0 <= hp_size p -> hp_write_r h p d = plain h p (hp_write h p d).
Proof.
  intros H. pose proof (zlen_nonneg d) as Zd. unfold hp_write_r, hp_write. cbv zeta. destruct (s_len (hp_data p) - hp_size p <? zlen d) eqn:L.
  - rewrite make_ok by lia. cbn [bind]. destruct (reslice (hp_data p) 0 (hp_size p)) as [s| | |]; cbn [bind attempt plain]; try reflexivity. destruct (read _ s) as [old| | |]; cbn [bind attempt plain]; try reflexivity.
    set (h1 := h ++ [zeros (Z.to_nat ((hp_size p + zlen d) * 2))]). set (buf := mkSlice (length h) 0 ((hp_size p + zlen d) * 2)). assert (V : valid h1 buf) by (apply make_valid; lia).
    destruct (hcopy h1 buf old) as [h2| | |] eqn:E2; cbn [bind attempt plain]; try reflexivity. pose proof (hcopy_keeps _ _ _ _ _ E2 V) as V2. rewrite reslice_ok by (subst buf; cbn [s_len]; lia). cbn [bind attempt].
    set (dst := mkSlice (s_arr buf) (s_off buf + hp_size p) (s_len buf - hp_size p)). assert (V3 : valid h2 dst) by (apply reslice_valid; [exact V2|subst buf; cbn [s_len]; lia..]). destruct (hcopy_ok h2 dst d V3 ltac:(subst dst buf; cbn [s_len]; lia)) as (h3 & E3 & _). rewrite E3. reflexivity.
  - cbn [bind attempt]. destruct p as [dt sz]. cbn [hp_data hp_size] in *. destruct (reslice dt sz (s_len dt)) as [s| | |]; cbn [bind attempt plain]; try reflexivity. destruct (hcopy h s d); reflexivity.
Qed.
Lemma hp_fetch_same p : hp_fetch_r p = (match hp_fetch p with Ok (p1, s) => (p1, Ok s) | Err => (p, Err) | Panic => (p, Panic) | NoFuel => (p, NoFuel) end).
Proof. unfold hp_fetch_r, hp_fetch. destruct (reslice _ _ _); reflexivity. Qed.
Lemma pp_call_same h p o : 0 <= hp_size p -> pp_call_r h p o = plain h p (pp_call h p o) /\ (let '(_, p1, _) := pp_call_r h p o in 0 <= hp_size p1).
Proof.
  intros H. destruct o as [d| |off| |]; cbn [pp_call_r pp_call].
  - rewrite hp_write_same by exact H. destruct (hp_write h p d) as [[[h1 p1] n]| | |] eqn:E; cbn [plain attempt bind]; split; auto.
    unfold hp_write in E. cbv zeta in E. match type of E with bind ?x _ = _ => destruct x as [[h2 buf]| | |]; try discriminate end. cbn [bind] in E. destruct (reslice _ _ _); try discriminate. cbn [bind] in E. destruct (hcopy _ _ _); try discriminate. cbn [bind] in E.
    injection E as _ <- _. cbn [hp_size]. pose proof (zlen_nonneg d). lia.
  - rewrite hp_fetch_same. destruct (hp_fetch p) as [[p1 s]| | |] eqn:E; cbn [plain attempt bind]; split; auto. unfold hp_fetch in E. destruct (reslice _ _ _); try discriminate. cbn [bind] in E. injection E as <- _. cbn [hp_size]. lia.
  - split; [reflexivity|]. cbn [plain attempt hp_seek hp_size]. lia.
  - split; [reflexivity|exact H].
  - split; [reflexivity|exact H].
Qed.
Lemma pp_history ops : forall h p, 0 <= hp_size p -> recovered pp_call_r h p ops = skipping pp_call h p ops.
Proof.
  induction ops as [|o t IH]; intros h p H; [reflexivity|]. destruct (pp_call_same h p o H) as [E W1]. unfold skipping in *. cbn [recovered]. rewrite <- E. destruct (pp_call_r h p o) as [[h1 p1] x]. rewrite IH by exact W1. reflexivity.
Qed.
Lemma pp_call_ended h p o : ended (pp_call_r h p o) = pp_call h p o.
Proof.
  destruct o as [d| |off| |]; cbn [pp_call_r pp_call]; try apply ended_plain.
  - pose proof (hp_write_ended h p d) as E. destruct (hp_write_r h p d) as [[h1 p1] [x| | |]]; destruct (hp_write h p d) as [[[h2 p2] n]| | |]; cbn in *; try discriminate; congruence.
  - rewrite <- hp_fetch_ended. destruct (hp_fetch_r p) as [p1 [x| | |]]; reflexivity.
Qed.

(** * AvailProofs: Data, AvailableBytes and Alloc of the block buffers. *)
From Verif Require Import Base CollectionsSpec BlockModel BlockSpec HeapProofs DirectProofs SafeSpec SafeProofs RBProofs AvailSpec.

Definition all_data (b : dbuf) : gslice := mkSlice (s_arr (d_data b)) (s_off (d_data b)) (d_next b).
Definition tail_ok (b_next : Z) (open : bool) (p : list block) : Prop :=
  if open then exists k, p = [k] /\ bk_completed k = false /\ 0 <= bk_index k /\ 0 <= bk_size k /\ bk_index k + bk_size k <= b_next else p = [].
Definition data_inv (h : heap) (b : dbuf) (t : tally) : Prop :=
  let '(n, open, log) := t in
  d_wf h b /\ length (d_blocks b) = n /\ read h (all_data b) = Ok log /\ (n = 0%nat -> d_next b = 0) /\
  exists f p, d_blocks b = f ++ p /\ Forall (fun k => bk_completed k = true) f /\ tail_ok (d_next b) open p.

Lemma read_empty h s : valid h s -> read h (mkSlice (s_arr s) (s_off s) 0) = Ok [].
Proof.
  intros V. destruct (valid_read h (mkSlice (s_arr s) (s_off s) 0)) as (l & R & L).
  - pose proof (reslice_valid h s 0 0 V ltac:(lia)) as X. rewrite Z.add_0_r, Z.sub_0_r in X. apply X. unfold valid in V. destruct V as (a & _ & V). lia.
  - cbn [s_len] in L. now rewrite (zlen_zero_nil _ L) in R.
Qed.
Lemma last_done f : Forall (fun k => bk_completed k = true) f -> last_of f = None /\ f = [] \/ exists k, last_of f = Some k /\ bk_completed k = true.
Proof.
  intros F. destruct (snoc_cases f) as [->|(g & k & ->)]; [now left|right]. exists k. split; [apply last_of_snoc|]. apply Forall_app in F as [_ F]. now inversion F.
Qed.

Lemma data_write h b t d : data_inv h b t -> exists h' b', d_write h b d = Ok (h', b') /\ write_post h b d h' b' /\ data_inv h' b' (since t (BWrite d)).
Proof.
  destruct t as [[n open] log]. intros (W & L & R & Z0 & f & p & Eb & F & P). destruct (d_write_ok h b d W) as (h' & b' & E & WP). exists h', b'. split; [exact E|]. split; [exact WP|].
  destruct WP as [W' Nx Ln Dt Bl Vd Fr Kp Nw]. pose proof W as (V & N & _). pose proof (zlen_nonneg d).
  cbn [since]. split; [exact W'|].
  assert (RD : read h' (all_data b') = Ok (log ++ d)).
  { pose proof (proj2 (read_valid _ _ _ R)) as Ll. cbn [all_data s_len] in Ll. eapply read_cat; [unfold all_data; rewrite Nx; reflexivity|lia| |].
    - pose proof (Kp 0 (d_next b) ltac:(lia) ltac:(lia) ltac:(lia)) as K. rewrite !Z.add_0_r in K. rewrite K. exact R.
    - exact Nw. }
  assert (PK : d_pick b = (f, match p with [] => mkBlock (d_next b) 0 false | k :: _ => k end) /\ (open = true -> exists k, p = [k])).
  { unfold d_pick. rewrite Eb. destruct open.
    - destruct P as (k & -> & C & K). rewrite last_of_snoc, C, removelast_snoc. split; [reflexivity|eauto].
    - unfold tail_ok in P. subst p. rewrite app_nil_r. destruct (last_done f F) as [(X & ->)|(k & X & C)]; rewrite X; [now split|]. rewrite C. now split. }
  destruct PK as [PK Op]. rewrite PK in Bl. cbn [fst snd] in Bl.
  split; [|split; [exact RD|split]].
  - rewrite Bl, app_length. cbn [length]. rewrite Eb, app_length in L. destruct open; [destruct (Op eq_refl) as (k & ->); cbn [length] in L; lia|unfold tail_ok in P; subst p; cbn [length] in L; lia].
  - destruct open; [|discriminate]. intros ->. destruct (Op eq_refl) as (k & ->). rewrite Eb, app_length in L. cbn [length] in L. lia.
  - exists f. eexists. split; [exact Bl|]. split; [exact F|]. eexists. split; [reflexivity|]. cbn [bk_completed bk_index bk_size]. rewrite Nx. destruct open; [destruct P as (k & -> & C & K)|unfold tail_ok in P; subst p; cbn]; repeat split; auto; lia.
Qed.

Lemma data_drop h b n open log m f' p' open' : data_inv h b (n, open, log) -> length (f' ++ p') = m -> Forall (fun k => bk_completed k = true) f' ->
  tail_ok (d_next b) open' p' ->
  data_inv h (mkD (d_data b) (if zlen (f' ++ p') =? 0 then 0 else d_next b) false (f' ++ p')) (m, open' && (0 <? m)%nat, if (m =? 0)%nat then [] else log).
Proof.
  intros ((V & N & Sl) & L & R & Z0 & _) Lm F P. assert (Zm : (zlen (f' ++ p') =? 0) = (m =? 0)%nat) by (unfold zlen; rewrite Lm; destruct m; reflexivity). rewrite Zm.
  assert (Om : open' && (0 <? m)%nat = open') by (destruct open'; [|reflexivity]; destruct P as (k & -> & _); rewrite app_length in Lm; cbn [length] in Lm; cbn [andb]; apply Nat.ltb_lt; lia).
  rewrite Om. split; [|split; [exact Lm|split; [|split]]].
  - split; [exact V|]. split; [|reflexivity]. cbn [d_next d_data]. destruct (m =? 0)%nat; lia.
  - unfold all_data. cbn [d_data d_next]. destruct (m =? 0)%nat; [apply read_empty; exact V|exact R].
  - intros ->. reflexivity.
  - cbn [d_blocks d_next]. exists f', p'. split; [reflexivity|]. split; [exact F|]. destruct open'; [|exact P]. unfold tail_ok in P |- *. destruct P as (k & -> & K). exists k. split; [reflexivity|]. replace (m =? 0)%nat with false; [exact K|]. rewrite app_length in Lm. cbn [length] in Lm. destruct m; [lia|reflexivity].
Qed.

Lemma data_step h b t o : data_inv h b t -> let '(h', b') := d_step (h, b) o in data_inv h' b' (since t o).
Proof.
  intros D. destruct o as [d| | | | | |]; unfold d_step; cbn [d_impl fst snd].
  - destruct (data_write h b t d D) as (h' & b' & E & _ & D'). rewrite E. exact D'.
  - destruct t as [[n open] log]. pose proof D as ((V & N & Sl) & L & R & Z0 & f & p & Eb & F & P). unfold d_fetch. rewrite Sl. cbn [negb assert bind]. destruct open.
    + destruct P as (k & -> & C & K). rewrite Eb, last_of_snoc. cbn [of_opt bind]. rewrite C, removelast_snoc. destruct (reslice (d_data b) _ _) as [s| | |] eqn:Rs.
      * cbn [bind]. cbn [since]. split; [repeat split; cbn; auto; lia|]. split; [cbn [d_blocks]; rewrite <- L, Eb, !app_length; reflexivity|]. split; [exact R|]. split; [exact Z0|].
        exists (f ++ [mkBlock (bk_index k) (bk_size k) true]), []. rewrite app_nil_r. split; [reflexivity|]. split; [|reflexivity]. apply Forall_app. split; [exact F|repeat constructor].
      * unfold reslice in Rs. destruct (_ && _) in Rs; discriminate.
      * (* the open block lies inside the written part *) unfold reslice in Rs. rewrite !andb_true_intro in Rs; [discriminate|split; [|apply Z.leb_le]]; [apply andb_true_intro; split; apply Z.leb_le|]; lia.
      * unfold reslice in Rs. destruct (_ && _) in Rs; discriminate.
    + unfold tail_ok in P. subst p. rewrite app_nil_r in Eb. rewrite Eb. destruct (last_done f F) as [(X & _)|(k & X & C)]; rewrite X; cbn [of_opt bind]; [exact D|]. rewrite C. cbn [bind]. exact D.
  - destruct t as [[n open] log]. pose proof D as ((V & N & Sl) & L & R & Z0 & f & p & Eb & F & P). unfold d_pop. rewrite Sl. cbn [negb assert bind]. cbn [since].
    destruct f as [|x f].
    + cbn [app] in Eb. rewrite Eb. assert (Ep : tl p = []) by (destruct open; [destruct P as (k & Pk & _)|unfold tail_ok in P; rename P into Pk]; rewrite Pk; reflexivity). rewrite Ep.
      assert (Hm : Nat.pred n = 0%nat) by (rewrite <- L, Eb; destruct open; [destruct P as (k & Pk & _)|unfold tail_ok in P; rename P into Pk]; rewrite Pk; reflexivity). rewrite Hm.
      pose proof (data_drop h b n open log 0 [] [] false D eq_refl F eq_refl) as X. cbn [app] in X. cbn [Nat.ltb Nat.leb andb] in X |- *. rewrite andb_false_r. exact X.
    + rewrite Eb. cbn [app tl]. apply Forall_cons_iff in F as [_ F]. apply (data_drop h b n open log _ f p open D); auto. rewrite <- L, Eb. reflexivity.
  - destruct t as [[n open] log]. pose proof D as ((V & N & Sl) & L & R & Z0 & f & p & Eb & F & P). unfold d_pop_back. rewrite Sl. cbn [negb assert bind]. cbn [since].
    destruct (snoc_cases (d_blocks b)) as [E0|(g & k & E0)].
    + rewrite E0 in L |- *. cbn. subst n. cbn [length] in *. destruct open; [destruct P as (k & -> & _); rewrite E0 in Eb; symmetry in Eb; now apply snoc_not_nil in Eb|].
      split; [exact (conj V (conj N Sl))|]. split; [rewrite E0; reflexivity|]. split; [|split; [exact Z0|exists [], []; rewrite E0; repeat split; constructor]].
      unfold all_data. rewrite (Z0 eq_refl). apply (read_empty h (d_data b) V).
    + rewrite E0. replace (zlen (g ++ [k]) >? 0) with true by (rewrite zlen_app; change (zlen [k]) with 1; pose proof (zlen_nonneg g); lia). cbn [assert bind]. rewrite removelast_snoc.
      assert (Fg : Forall (fun k => bk_completed k = true) g).
      { destruct open; [destruct P as (k' & -> & _); rewrite E0 in Eb; apply app_inj_tail in Eb as [-> _]; exact F|]. unfold tail_ok in P. subst p. rewrite app_nil_r in Eb. rewrite E0 in Eb. subst f. now apply Forall_app in F as [F _]. }
      pose proof (data_drop h b n open log (Nat.pred n) g [] false D) as X. rewrite app_nil_r in X. apply X; [|exact Fg|reflexivity]. rewrite <- L, E0, app_length. cbn [length]. lia.
  - destruct t as [[n open] log]. exact D.
  - destruct t as [[n open] log]. exact D.
  - destruct t as [[n open] log]. pose proof D as ((V & N & Sl) & _). cbn [since]. split; [repeat split; cbn; auto; lia|]. split; [reflexivity|]. split; [apply read_empty, V|]. split; [reflexivity|]. exists [], []. repeat split. constructor.
Qed.

Lemma data_run ops : forall h b t, data_inv h b t -> let '(h', b') := d_run (h, b) ops in data_inv h' b' (fold_left since ops t).
Proof.
  induction ops as [|o ops IH]; intros h b t D; [exact D|]. cbn [d_run fold_left]. pose proof (data_step h b t o D) as D1. destruct (d_step (h, b) o) as [h1 b1]. apply IH, D1.
Qed.
Lemma data_new h c h0 b0 : d_new h c = Ok (h0, b0) -> data_inv h0 b0 (0%nat, false, []).
Proof.
  intros E. unfold d_new, make, assert in E. destruct (0 <=? c) eqn:C; [|discriminate]. cbn [bind] in E. injection E as <- <-. apply Z.leb_le in C.
  assert (V : valid (h ++ [zeros (Z.to_nat c)]) (mkSlice (length h) 0 c)) by (apply make_valid; lia).
  split; [split; [exact V|split; [cbn; lia|reflexivity]]|]. split; [reflexivity|]. split; [apply (read_empty _ (mkSlice (length h) 0 c)), V|]. split; [reflexivity|]. exists [], []. repeat split. constructor.
Qed.
Lemma data_slice h b n open log : data_inv h b (n, open, log) -> d_data_slice b = Ok (all_data b) /\ read h (all_data b) = Ok log /\ zlen log = d_next b.
Proof.
  intros ((V & N & Sl) & L & R & _). unfold d_data_slice. rewrite reslice_ok by lia. rewrite Z.add_0_r, Z.sub_0_r. split; [reflexivity|]. split; [exact R|]. now apply read_valid in R as [_ R].
Qed.

(** ** Alloc is a Write of what the memory holds *)
Lemma hcopy_id h s l : read h s = Ok l -> hcopy h s l = Ok h.
Proof.
  intros R. pose proof R as R0. unfold read in R. unfold hcopy. destruct (nth_error h (s_arr s)) as [a|] eqn:E; [|discriminate]. cbn [of_opt bind] in R |- *.
  destruct (slice a (s_off s) (s_off s + s_len s)) as [x|] eqn:Sx; [|discriminate]. cbn [of_opt] in R. injection R as ->. apply slice_inv in Sx as (-> & B & C).
  replace (s_off s + s_len s - s_off s) with (s_len s) by lia. rewrite firstn_firstn, Nat.min_id.
  set (m := firstn _ (skipn _ a)). assert (Lm : zlen m = s_len s) by (unfold m, zlen in *; rewrite firstn_length, skipn_length; lia).
  rewrite copy_at_fits by lia. cbn [of_opt bind]. f_equal.
  assert (Ea : firstn (Z.to_nat (s_off s)) a ++ m ++ skipn (Z.to_nat (s_off s + zlen m)) a = a).
  { unfold m at 1. rewrite Lm. rewrite <- (firstn_skipn (Z.to_nat (s_off s)) a) at 4. f_equal. rewrite <- (firstn_skipn (Z.to_nat (s_len s)) (skipn (Z.to_nat (s_off s)) a)) at 2. f_equal.
    rewrite skipn_skipn. f_equal. lia. }
  rewrite Ea. clear -E. revert E. generalize (s_arr s) as i. induction h as [|x h IH]; intros [|i] E; cbn in *; try discriminate; [now injection E as ->|]. f_equal. now apply IH.
Qed.

Lemma hcopy_valid_back h s d h' t : hcopy h s d = Ok h' -> valid h' t -> valid h t.
Proof.
  unfold hcopy. destruct (nth_error h (s_arr s)) as [a|] eqn:E; [|discriminate]. cbn [of_opt bind]. destruct (copy_at a _ _) as [a'|] eqn:C; [|discriminate]. cbn [of_opt bind].
  intros H. assert (h' = set_nth (s_arr s) a' h) by congruence. subst h'. clear H. apply copy_at_length in C. intros (x & Ex & B). destruct (Nat.eq_dec (s_arr s) (s_arr t)) as [Q|Q].
  - rewrite <- Q in Ex. rewrite set_nth_same in Ex by (apply nth_error_Some; congruence). injection Ex as <-. exists a. rewrite <- Q. split; [exact E|lia].
  - rewrite set_nth_other in Ex by exact Q. exists x. auto.
Qed.

Lemma alloc_place h b n h1 b1 s : d_alloc h b n = Ok (h1, b1, s) ->
  s = mkSlice (s_arr (d_data b1)) (s_off (d_data b1) + d_next b) n /\ (if n <=? d_available b then d_data b1 = d_data b /\ h1 = h else s_arr (d_data b1) = length h).
Proof.
  unfold d_alloc, d_available. destruct (assert (negb (d_sealed b))); try discriminate. cbn [bind]. match goal with |- (let '(_, _) := ?x in _) = _ -> _ => destruct x as [front blk] end.
  assert (Re : forall dat s', reslice dat (d_next b) (d_next b + n) = Ok s' -> s' = mkSlice (s_arr dat) (s_off dat + d_next b) n).
  { intros dat s' R. unfold reslice in R. destruct (_ && _) in R; [|discriminate]. injection R as <-. f_equal. lia. }
  destruct (d_next b + n >? s_len (d_data b)) eqn:G.
  - unfold d_grow, make. destruct (assert _); try discriminate. cbn [bind]. destruct (reslice (d_data b) 0 _); try discriminate. cbn [bind]. destruct (read _ _); try discriminate. cbn [bind].
    destruct (hcopy _ _ _) as [h2| | |]; try discriminate. cbn [bind]. destruct (reslice _ _ _) as [s'| | |] eqn:R; try discriminate. cbn [bind]. intros H.
    assert (s' = s /\ b1 = mkD (mkSlice (length h) 0 ((d_next b + n) * 3 / 2)) (d_next b + n) (d_sealed b) (front ++ [mkBlock (bk_index blk) (bk_size blk + n) (bk_completed blk)])) as [<- ->] by (split; congruence).
    cbn [d_data]. split; [now apply Re|]. replace (n <=? s_len (d_data b) - d_next b) with false by lia. reflexivity.
  - cbn [bind]. destruct (reslice _ _ _) as [s'| | |] eqn:R; try discriminate. cbn [bind]. intros H. injection H as <- <- <-. cbn [d_data]. split; [now apply Re|]. replace (n <=? s_len (d_data b) - d_next b) with true by lia. auto.
Qed.
Lemma write_alloc h b d h' b' : d_write h b d = Ok (h', b') -> exists h1 s, d_alloc h b (zlen d) = Ok (h1, b', s) /\ hcopy h1 s d = Ok h'.
Proof.
  unfold d_write. destruct (d_alloc h b (zlen d)) as [[[h1 b1] s]| | |]; try discriminate. cbn [bind]. destruct (hcopy h1 s d) as [h2| | |] eqn:E; try discriminate. cbn [bind]. intros H. injection H as <- <-. eauto.
Qed.

Lemma alloc_as_write h b n : d_wf h b -> 0 <= n -> exists h1 b1 s junk, d_alloc h b n = Ok (h1, b1, s) /\ zlen junk = n /\ read h1 s = Ok junk /\ d_write h b junk = Ok (h1, b1).
Proof.
  intros W Hn. assert (Ln : zlen (zeros (Z.to_nat n)) = n) by (unfold zlen; rewrite zeros_length; lia). destruct (d_write_ok h b (zeros (Z.to_nat n)) W) as (h2 & b2 & E & WP).
  apply write_alloc in E as (h1 & s & Ea & Ec). rewrite Ln in Ea. destruct (alloc_place _ _ _ _ _ _ Ea) as [Es _]. pose proof (wp_new _ _ _ _ _ WP) as Nw. rewrite Ln, <- Es in Nw.
  apply read_valid in Nw as [V _]. apply (hcopy_valid_back _ _ _ _ _ Ec) in V. destruct (valid_read _ _ V) as (junk & R & L). rewrite Es in L. cbn [s_len] in L.
  exists h1, b2, s, junk. split; [exact Ea|]. split; [exact L|]. split; [exact R|]. unfold d_write. rewrite L, Ea. cbn [bind]. now rewrite (hcopy_id _ _ _ R).
Qed.

(** ** Calls that only add *)
Lemma d_run_cons st o ops : d_run st (o :: ops) = d_run (d_step st o) ops.
Proof. reflexivity. Qed.
Lemma adds_run ops : forall h b t, data_inv h b t -> Forall adds ops -> let '(h', b') := d_run (h, b) ops in
  (length h <= length h')%nat /\ d_next b' = d_next b + zlen (written ops) /\
  (if zlen (written ops) <=? d_available b then d_data b' = d_data b else (length h <= s_arr (d_data b'))%nat) /\
  snd (fold_left since ops t) = snd t ++ written ops.
Proof.
  induction ops as [|o ops IH]; intros h b t D A.
  - cbn [d_run fold_left written]. rewrite app_nil_r. change (zlen (@nil Z)) with 0. pose proof D as Dx. destruct t as [[n op] log]. destruct Dx as ((V & N & Sl) & _). unfold d_available.
    split; [lia|]. split; [lia|]. replace (0 <=? s_len (d_data b) - d_next b) with true by lia. auto.
  - apply Forall_cons_iff in A as [Ao A]. rewrite d_run_cons. cbn [fold_left]. pose proof (data_step h b t o D) as D1.
    destruct o as [d| | | | | |]; try contradiction Ao.
    + destruct (data_write h b t d D) as (h1 & b1 & E & WP & _). assert (St : d_step (h, b) (BWrite d) = (h1, b1)) by (unfold d_step; cbn [d_impl fst snd]; now rewrite E). rewrite St in D1 |- *.
      specialize (IH h1 b1 _ D1 A). destruct (d_run (h1, b1) ops) as [h2 b2]. destruct IH as (I1 & I2 & I3 & I4). cbn [written]. rewrite zlen_app.
      pose proof (wp_len _ _ _ _ _ WP) as Ln. pose proof (wp_next _ _ _ _ _ WP) as Nx. apply write_alloc in E as (h3 & s & Ea & Ec). apply alloc_place in Ea as [_ Pl].
      pose proof (zlen_nonneg d). pose proof (zlen_nonneg (written ops)).
      split; [lia|]. split; [lia|]. split; [|rewrite I4; destruct t as [[n op] log]; cbn [since snd]; now rewrite app_assoc].
      unfold d_available in *. destruct (zlen d <=? s_len (d_data b) - d_next b) eqn:G.
      * destruct Pl as [Pl _]. rewrite Pl in I3. destruct (zlen (written ops) <=? s_len (d_data b) - d_next b1) eqn:G2.
        -- replace (_ <=? _) with true by lia. exact I3.
        -- replace (_ <=? _) with false by lia. lia.
      * replace (_ <=? _) with false by lia. destruct (zlen (written ops) <=? s_len (d_data b1) - d_next b1); [rewrite I3|]; lia.
    + assert (St : exists b1, d_step (h, b) BFetch = (h, b1) /\ d_data b1 = d_data b /\ d_next b1 = d_next b).
      { unfold d_step. cbn [d_impl fst snd]. unfold d_fetch. destruct (assert _); cbn [bind]; eauto. destruct (last_of _); cbn [of_opt bind]; eauto. destruct (bk_completed _); cbn [bind]; eauto. destruct (reslice _ _ _); cbn [bind]; eauto. }
      destruct St as (b1 & St & Ed & En). rewrite St in D1 |- *. specialize (IH h b1 _ D1 A). destruct (d_run (h, b1) ops) as [h2 b2]. unfold d_available in *. rewrite Ed, En in IH. cbn [written]. destruct t as [[n op] log]. exact IH.
    + specialize (IH h b _ D1 A). destruct t as [[n op] log]. exact IH.
    + specialize (IH h b _ D1 A). destruct t as [[n op] log]. exact IH.
Qed.

Lemma step_valid h b t o s : data_inv h b t -> valid h s -> valid (fst (d_step (h, b) o)) s.
Proof.
  intros D V. unfold d_step. cbn [fst snd]. destruct o as [d| | | | | |]; cbn [d_impl].
  - destruct (data_write h b t d D) as (h1 & b1 & E & WP & _). rewrite E. cbn [bind fst]. now apply (wp_valid _ _ _ _ _ WP).
  - destruct (d_fetch b) as [[x y]| | |]; exact V.
  - destruct (d_pop b); exact V.
  - destruct (d_pop_back b); exact V.
  - exact V.
  - exact V.
  - exact V.
Qed.
Lemma run_valid ops s : forall h b t, data_inv h b t -> valid h s -> valid (fst (d_run (h, b) ops)) s.
Proof.
  induction ops as [|o ops IH]; intros h b t D V; [exact V|]. cbn [d_run fold_left]. pose proof (step_valid h b t o s D V) as V1. pose proof (data_step h b t o D) as D1. destruct (d_step (h, b) o) as [h1 b1]. exact (IH _ _ _ D1 V1).
Qed.
Lemma read_part h arr off x y z : read h (mkSlice arr off (zlen (x ++ y ++ z))) = Ok (x ++ y ++ z) -> read h (mkSlice arr (off + zlen x) (zlen y)) = Ok y.
Proof.
  unfold read. cbn [s_arr s_off s_len]. destruct (nth_error h arr) as [a|]; [|discriminate]. cbn [of_opt bind]. destruct (slice a _ _) as [w|] eqn:E; [|discriminate]. cbn [of_opt]. intros H. assert (w = x ++ y ++ z) by congruence. subst w. clear H.
  apply slice_inv in E as (E & B & C). rewrite !zlen_app in *. pose proof (zlen_nonneg x). pose proof (zlen_nonneg y). pose proof (zlen_nonneg z). rewrite slice_some by lia. cbn [of_opt]. f_equal.
  replace (off + zlen x + zlen y - (off + zlen x)) with (zlen y) by lia.
  assert (F : firstn (length y) (skipn (length x) (firstn (Z.to_nat (off + (zlen x + (zlen y + zlen z)) - off)) (skipn (Z.to_nat off) a))) = y).
  { rewrite <- E, skipn_app, skipn_all, Nat.sub_diag. cbn [skipn app]. rewrite firstn_app, firstn_all, Nat.sub_diag. cbn [firstn]. apply app_nil_r. }
  rewrite skipn_firstn_comm, firstn_firstn, skipn_skipn, Nat.min_l in F by (unfold zlen in *; lia).
  replace (Z.to_nat (off + zlen x)) with (Z.to_nat off + length x)%nat by (unfold zlen in *; lia). unfold zlen. rewrite Nat2Z.id. exact F.
Qed.

Lemma fill_later h b n op log more d : data_inv h b (n, op, log) -> Forall adds more ->
  exists h1 b1 s junk, d_alloc h b (zlen d) = Ok (h1, b1, s) /\ zlen junk = zlen d /\ read h1 s = Ok junk /\
  let '(h2, b2) := d_run (h1, b1) more in exists h3 ds, hcopy h2 s d = Ok h3 /\ d_data_slice b2 = Ok ds /\
    read h3 ds = Ok (log ++ (if zlen (written more) <=? d_available b1 then d else junk) ++ written more).
Proof.
  intros D A. pose proof (zlen_nonneg d) as Hd. destruct (alloc_as_write h b (zlen d) ltac:(apply D) Hd) as (h1 & b1 & s & junk & Ea & Lj & Rj & Ew). exists h1, b1, s, junk. split; [exact Ea|]. split; [exact Lj|]. split; [exact Rj|].
  destruct (data_write _ _ _ junk D) as (h1' & b1' & Ew' & WP & D1). rewrite Ew in Ew'. injection Ew' as <- <-.
  pose proof (data_run more _ _ _ D1) as D2. pose proof (adds_run more _ _ _ D1 A) as R2. destruct (d_run (h1, b1) more) as [h2 b2] eqn:Rn. destruct R2 as (Ln & Nx & Mv & Lg).
  destruct (fold_left since more (since (n, op, log) (BWrite junk))) as [[n2 op2] log2]. cbn [since snd] in Lg. subst log2.
  destruct (alloc_place _ _ _ _ _ _ Ea) as [Es _]. destruct (data_slice _ _ _ _ _ D2) as (E2 & R2 & L2).
  destruct (read_valid _ _ _ Rj) as [Vs _]. 
  assert (Vs2 : valid h2 s) by (pose proof (run_valid more s _ _ _ D1 Vs) as X; rewrite Rn in X; exact X).
  destruct (hcopy_ok h2 s d Vs2 ltac:(rewrite Es; cbn [s_len]; lia)) as (h3 & E3 & _). exists h3, (all_data b2). split; [exact E3|]. split; [exact E2|].
  destruct (data_slice _ _ _ _ _ D) as (_ & R0 & L0).
  pose proof (wp_next _ _ _ _ _ WP) as N1. rewrite !zlen_app in L2.
  destruct (zlen (written more) <=? d_available b1) eqn:G.
  - assert (Rs : read h2 (mkSlice (s_arr (d_data b2)) (s_off (d_data b2)) (zlen log)) = Ok log /\
      read h2 (mkSlice (s_arr (d_data b2)) (s_off (d_data b2) + zlen log + zlen d) (zlen (written more))) = Ok (written more)).
    { pose proof (zlen_nonneg log). pose proof (zlen_nonneg (written more)). replace (all_data b2) with (mkSlice (s_arr (d_data b2)) (s_off (d_data b2)) (zlen (log ++ junk ++ written more))) in R2 by (unfold all_data; rewrite !zlen_app; f_equal; lia).
      rewrite <- app_assoc in R2. split; [pose proof (read_part h2 _ _ [] log (junk ++ written more) R2) as X; change (zlen (@nil Z)) with 0 in X; now rewrite Z.add_0_r in X|]. pose proof (read_part h2 (s_arr (d_data b2)) (s_off (d_data b2)) (log ++ junk) (written more) []) as X. rewrite app_nil_r, <- app_assoc in X. specialize (X R2).
      rewrite zlen_app, Lj, Z.add_assoc in X. exact X. }
    destruct Rs as [Ra Rc]. subst s. rewrite Mv in Ra, Rc.
    assert (Ap : zlen log = d_next b) by exact L0. rewrite Ap in Ra, Rc.
    pose proof (hcopy_read_same h2 _ d Vs2 ltac:(cbn [s_len]; lia) h3 E3) as Rb. cbn [s_arr s_off s_len] in Rb.
    eapply read_cat; [unfold all_data; rewrite Mv, Nx, N1, Lj, <- Z.add_assoc; reflexivity|destruct D as ((_ & X & _) & _); lia| |].
    + rewrite (hcopy_read_other h2 _ d Vs2 ltac:(cbn [s_len]; lia) h3 _ E3); [exact Ra|]. right. left. cbn [s_arr s_off s_len]. lia.
    + eapply read_cat; [reflexivity|lia|exact Rb|].
      rewrite (hcopy_read_other h2 _ d Vs2 ltac:(cbn [s_len]; lia) h3 _ E3); [exact Rc|]. right. right. cbn [s_arr s_off s_len]. lia.
  - rewrite (hcopy_read_other h2 s d Vs2 ltac:(rewrite Es; cbn [s_len]; lia) h3 _ E3); [rewrite app_assoc; exact R2|]. left. cbn [all_data s_arr]. apply valid_lt in Vs. lia.
Qed.

(** ** The room of a ring *)
Lemma rb_room_pick r head tail c front ob : 0 <= s_len (d_data (rb_d r)) -> rb_pick r = (head, tail, c, front, ob) ->
  rb_room r = if tail <? head then head - tail else Z.max (c - tail) (head - bk_size ob).
Proof.
  intros H. unfold rb_pick, rb_room. destruct (snoc_cases (d_blocks (rb_d r))) as [->|(f & t & ->)].
  - cbn [last_of first_of]. intros E. injection E as <- <- <- <- <-. cbn [bk_size]. cbn [Z.ltb Z.compare]. lia.
  - rewrite last_of_snoc, first_of_snoc. destruct (bk_completed t); intros E; injection E as <- <- <- <- <-; reflexivity.
Qed.
Lemma rb_room_exact h r n : wfs h r -> 0 <= n -> exists h' r' s, rb_alloc h r n = Ok (h', r', s) /\
  (n <= rb_room r -> d_data (rb_d r') = d_data (rb_d r) /\ s_arr s = s_arr (d_data (rb_d r))) /\
  (rb_room r < n -> s_arr (d_data (rb_d r')) = length h /\ s_arr s = length h).
Proof.
  intros W Hn. destruct (rb_alloc_ok h r n W Hn) as (h' & r' & s & E & _). exists h', r', s. split; [exact E|]. rewrite rb_alloc_place in E. unfold rb_place in E.
  destruct (rb_pick r) as [[[[head tail] c] front] ob] eqn:P. destruct W as [W _].
  assert (Hl : 0 <= s_len (d_data (rb_d r))) by (destruct W as ((a & _ & X) & _); cbn [unseal rb_d d_data] in X; lia).
  rewrite (rb_room_pick _ _ _ _ _ _ Hl P). cbv zeta in E.
  assert (Re : forall dat lo hi x, reslice dat lo hi = Ok x -> s_arr x = s_arr dat) by (intros dat lo hi x R; unfold reslice in R; destruct (_ && _) in R; [injection R as <-; reflexivity|discriminate]).
  destruct ((tail <? head) && (head - tail >=? n)) eqn:C1; [|destruct (negb (tail <? head) && (c - tail >=? n)) eqn:C2; [|destruct (negb (tail <? head) && (head >=? bk_size ob + n)) eqn:C3]].
  - cbn [bind] in E. destruct (reslice _ _ _) as [x| | |] eqn:R; try discriminate. cbn [bind] in E. injection E as <- <- <-. cbn [rb_d d_data]. apply Re in R. split; [auto|]. intros Q. exfalso. destruct (tail <? head); lia.
  - cbn [bind] in E. destruct (reslice _ _ _) as [x| | |] eqn:R; try discriminate. cbn [bind] in E. injection E as <- <- <-. cbn [rb_d d_data]. apply Re in R. split; [auto|]. intros Q. exfalso. destruct (tail <? head); lia.
  - destruct (reslice (d_data (rb_d r)) (bk_index ob) _) as [s0| | |]; try discriminate. cbn [bind] in E. destruct (read h s0) as [src| | |]; try discriminate. cbn [bind] in E. destruct (hcopy _ _ _) as [h1| | |]; try discriminate. cbn [bind] in E.
    destruct (reslice (d_data (rb_d r)) (bk_size ob) _) as [x| | |] eqn:R; try discriminate. cbn [bind] in E. injection E as <- <- <-. cbn [rb_d d_data]. apply Re in R. split; [auto|]. intros Q. exfalso. destruct (tail <? head); lia.
  - unfold make in E. destruct (assert _); try discriminate. cbn [bind] in E. destruct (reslice (d_data (rb_d r)) (bk_index ob) _) as [s0| | |]; try discriminate. cbn [bind] in E. destruct (read _ s0) as [src| | |]; try discriminate. cbn [bind] in E. destruct (hcopy _ _ _) as [h1| | |]; try discriminate. cbn [bind] in E.
    destruct (reslice _ (bk_size ob) _) as [x| | |] eqn:R; try discriminate. cbn [bind] in E. apply Re in R. cbn [s_arr] in R. injection E as <- <- <-. cbn [rb_d d_data s_arr]. split; [|auto]. intros Q. exfalso. destruct (tail <? head); lia.
Qed.

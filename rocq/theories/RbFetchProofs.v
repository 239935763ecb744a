(** * RbFetchProofs: the block being written in an RBBlockBuffer, and the memory a Write changes. *)
From Verif Require Import Base CollectionsSpec BlockModel BlockSpec HeapProofs DirectProofs RBProofs SafeSpec SafeProofs AvailProofs RbFetchSpec.

Definition done (l : list block) : Prop := Forall (fun k => bk_completed k = true) l.
Definition open_inv (h : heap) (r : rbuf) (cur : option (list Z)) : Prop :=
  rb_wf h r /\
  exists f, done f /\
  match cur with
  | Some c => exists k, d_blocks (rb_d r) = f ++ [k] /\ bk_completed k = false /\ read h (blk_slice (d_data (rb_d r)) k) = Ok c
  | None => d_blocks (rb_d r) = f
  end.
Definition cur_bytes (cur : option (list Z)) : list Z := match cur with Some c => c | None => [] end.

Lemma read_nothing h s i : valid h s -> 0 <= i <= s_len s -> read h (mkSlice (s_arr s) (s_off s + i) 0) = Ok [].
Proof.
  intros V H. destruct (valid_read h (mkSlice (s_arr s) (s_off s + i) 0)) as (l & R & L).
  - destruct V as (a & E & A & B & C). exists a. cbn. split; [exact E|lia].
  - cbn [s_len] in L. now rewrite (zlen_zero_nil _ L) in R.
Qed.

(** What Alloc starts from. *)
Lemma open_pick h r cur : open_inv h r cur -> exists head tail c front ob, rb_pick r = (head, tail, c, front, ob) /\
  read h (blk_slice (d_data (rb_d r)) ob) = Ok (cur_bytes cur) /\ done front.
Proof.
  intros (W & f & Df & O). destruct (rb_pick r) as [[[[head tail] c] front] ob] eqn:E. exists head, tail, c, front, ob. split; [reflexivity|].
  pose proof (rb_pick_ok _ _ _ _ _ _ _ W E) as [Pob Ptl (B1 & B2 & B3) Phd Pcp Pfr]. pose proof W as (V & _). unfold rb_pick in E.
  assert (Emp : bk_size ob = 0 -> read h (blk_slice (d_data (rb_d r)) ob) = Ok []) by (intros Z0; unfold blk_slice; rewrite Z0; apply read_nothing; auto; lia).
  destruct cur as [cb|]; cbn [cur_bytes].
  - destruct O as (k & Eb & Ck & R). rewrite Eb, last_of_snoc, first_of_snoc, Ck in E. injection E as <- <- <- <- <-. rewrite removelast_snoc. auto.
  - rewrite O in E. destruct (snoc_cases f) as [Ef|(g & k & Ef)]; rewrite Ef in E.
    + cbn [last_of] in E. injection E as <- <- <- <- <-. split; [now apply Emp|constructor].
    + assert (Ck : bk_completed k = true) by (rewrite Ef in Df; apply Forall_app in Df as [_ Dk]; now inversion Dk).
      rewrite last_of_snoc, first_of_snoc, Ck in E. injection E as <- <- <- <- <-. rewrite <- Ef. split; [now apply Emp|exact Df].
Qed.

Lemma open_write h r cur d : open_inv h r cur -> exists h' r', rb_write h r d = Ok (h', r') /\ open_inv h' r' (Some (cur_bytes cur ++ d)).
Proof.
  intros O. destruct (open_pick h r cur O) as (head & tail & c & front & ob & E & R & Df). destruct O as (W & _).
  destruct (rb_write_ok h r d head tail c front ob W E) as (h' & r' & Ew & W' & _ & _ & K & Cs). exists h', r'. split; [exact Ew|]. split; [exact W'|].
  destruct (K _ R) as (k & Lk & Ck & _ & Rk).
  assert (X : exists f, done f /\ exists k', d_blocks (rb_d r') = f ++ [k']).
  { destruct Cs as [_ X _ _ _ _|_ X _ _ _ _ _ _|_ X _ _ _ _ _]; rewrite X; eauto. exists []. split; [constructor|]. eexists. reflexivity. }
  destruct X as (f & Dn & k' & X). exists f. split; [exact Dn|]. rewrite X, last_of_snoc in Lk. assert (k' = k) by congruence. subst k'. eauto.
Qed.

Lemma rb_wf_blocks h r r' : rb_wf h r -> d_data (rb_d r') = d_data (rb_d r) -> d_sealed (rb_d r') = false -> 0 <= rb_capacity r' <= s_len (d_data (rb_d r)) -> 0 <= rb_discard r' ->
  Forall (blk_ok (s_len (d_data (rb_d r)))) (d_blocks (rb_d r')) -> rb_wf h r'.
Proof. intros (V & Sl & C & D & F) Ed Es Ec Ei Ef. unfold rb_wf. rewrite Ed. auto. Qed.

Lemma open_step h r cur o : open_inv h r cur -> let '(h', r', cur') := ring_step (h, r, cur) o in open_inv h' r' cur'.
Proof.
  intros O. pose proof O as (W & f & Df & Oc). pose proof W as (V & Sl & C & D & F). assert (Hl : 0 <= s_len (d_data (rb_d r))) by (destruct V as (a & _ & _ & X & _); exact X).
  unfold ring_step. destruct o as [d| | | | | |]; cbn [rb_impl].
  - destruct (open_write h r cur d O) as (h' & r' & E & O'). rewrite E. cbn [bind open_after]. destruct cur; exact O'.
  - unfold rb_fetch, d_fetch. rewrite Sl. cbn [negb assert bind]. destruct (snoc_cases (d_blocks (rb_d r))) as [Eb|(g & k & Eb)]; rewrite Eb.
    + cbn [last_of of_opt bind]. exact O.
    + rewrite last_of_snoc. cbn [of_opt bind]. destruct (bk_completed k) eqn:Ck.
      * cbn [bind open_after]. split; [destruct r; exact W|]. destruct cur as [cb|]; [destruct Oc as (k' & Eb' & Ck' & _); rewrite Eb' in Eb; apply app_inj_tail in Eb as [_ <-]; congruence|]. exists f. split; [exact Df|exact Oc].
      * rewrite removelast_snoc. destruct (reslice (d_data (rb_d r)) _ _) as [s| | |]; cbn [bind]; try exact O. cbn [open_after]. rewrite Eb in F. apply Forall_app in F as [Ff Fk].
        assert (f = g) by (destruct cur as [cb|]; [destruct Oc as (k' & Eb' & _); rewrite Eb' in Eb; now apply app_inj_tail in Eb as [<- _]|exfalso; rewrite Oc in Eb; rewrite Eb in Df; apply Forall_app in Df as [_ Dk]; inversion Dk; congruence]). subst g. split.
        -- eapply rb_wf_blocks; [exact W|reflexivity|reflexivity|exact C|exact D|]. cbn [rb_d d_blocks]. apply Forall_app. split; [exact Ff|]. inversion Fk; subst. constructor; [assumption|constructor].
        -- exists (f ++ [mkBlock (bk_index k) (bk_size k) true]). split; [|reflexivity]. apply Forall_app. split; [exact Df|]. constructor; [reflexivity|constructor].
  - unfold rb_pop. rewrite Sl. cbn [negb assert bind]. destruct (rb_discard r >? 0) eqn:Dg.
    + cbn [bind open_after]. change (rb_size (mkRB (rb_d r) (rb_capacity r) (rb_discard r - 1))) with (rb_size r). split; [eapply rb_wf_blocks; [exact W|..]; cbn; auto; lia|]. cbn [rb_d].
      destruct (rb_size r =? 0) eqn:Z0; [|eauto]. exists []. split; [constructor|]. apply Z.eqb_eq in Z0. unfold rb_size, d_size in Z0. now apply zlen_zero_nil in Z0.
    + unfold d_pop. rewrite Sl. cbn [negb assert bind]. destruct (d_blocks (rb_d r)) as [|b0 bs] eqn:Eb0; [split; [eapply rb_wf_blocks; [exact W|..]; cbn; auto; lia|exists []; split; [constructor|reflexivity]]|]. cbn [bind tl open_after]. unfold rb_size, d_size. cbn [rb_d d_blocks d_data].
      inversion F as [|? ? F0 Fb]; subst.
      split; [eapply rb_wf_blocks; [exact W|reflexivity|reflexivity| |exact D|exact Fb]; cbn [rb_capacity]; repeat match goal with |- context [if ?x then _ else _] => destruct x end; lia|]. cbn [rb_d d_blocks d_data].
      destruct (zlen bs =? 0) eqn:Z0; [exists []; split; [constructor|]; apply Z.eqb_eq in Z0; now apply zlen_zero_nil in Z0|].
      destruct cur as [cb|].
      * destruct Oc as (k & Eb & X). destruct f as [|x f]; [injection Eb as -> ->; discriminate|]. injection Eb as -> ->. inversion Df; subst. exists f. eauto.
      * subst f. inversion Df; subst. exists bs. auto.
  - unfold rb_pop_back, d_pop_back. rewrite Sl. cbn [negb assert bind]. destruct (snoc_cases (d_blocks (rb_d r))) as [Eb|(g & k & Eb)]; rewrite Eb.
    + cbn. exact O.
    + replace (zlen (g ++ [k]) >? 0) with true by (rewrite zlen_app; change (zlen [k]) with 1; pose proof (zlen_nonneg g); lia). cbn [assert bind]. rewrite removelast_snoc. cbn [open_after].
      rewrite Eb in F. apply Forall_app in F as [Ff _]. split; [eapply rb_wf_blocks; [exact W|..]; cbn; auto|]. cbn [rb_d d_blocks]. exists g. split; [|reflexivity].
      destruct cur as [cb|]; [destruct Oc as (k' & Eb' & _); rewrite Eb' in Eb; now apply app_inj_tail in Eb as [<- _]|]. rewrite Oc in Eb. rewrite Eb in Df. now apply Forall_app in Df as [Dg _].
  - exact O.
  - exact O.
  - cbn [open_after]. split; [|exists []; split; [constructor|reflexivity]]. eapply rb_wf_blocks; [exact W|..]; cbn; auto; lia.
Qed.

Lemma open_run ops : forall h r cur, open_inv h r cur -> let '(h', r', cur') := ring_run (h, r, cur) ops in open_inv h' r' cur'.
Proof.
  induction ops as [|o ops IH]; intros h r cur O; [exact O|]. cbn [ring_run fold_left]. pose proof (open_step h r cur o O) as X. destruct (ring_step (h, r, cur) o) as [[h1 r1] c1]. exact (IH _ _ _ X).
Qed.

Lemma open_state h r cur : open_inv h r cur ->
  rb_pending r = zlen (cur_bytes cur) /\
  match cur with
  | Some c => exists r2 s, rb_fetch r = Ok (r2, Some s) /\ read h s = Ok c
  | None => if rb_size r =? 0 then rb_fetch r = Panic else rb_fetch r = Ok (r, None)
  end.
Proof.
  intros (W & f & Df & O). pose proof W as (V & Sl & C & D & F). unfold rb_pending, d_pending, rb_fetch, d_fetch, rb_size, d_size. rewrite Sl. cbn [negb assert bind]. destruct cur as [c|]; cbn [cur_bytes].
  - destruct O as (k & Eb & Ck & R). rewrite Eb, last_of_snoc. cbn [of_opt bind]. rewrite Ck. split; [apply read_valid in R as [_ L]; cbn in L; lia|].
    rewrite Eb in F. apply Forall_app in F as [_ Fk]. inversion Fk as [|? ? (B1 & B2 & B3) _]; subst. unfold reslice.
    replace ((0 <=? bk_index k) && (bk_index k <=? bk_index k + bk_size k) && (bk_index k + bk_size k <=? s_len (d_data (rb_d r)))) with true by (symmetry; rewrite !andb_true_iff, !Z.leb_le; lia).
    cbn [bind]. eexists _, _. split; [reflexivity|]. unfold blk_slice in R. replace (bk_index k + bk_size k - bk_index k) with (bk_size k) by lia. exact R.
  - rewrite O. destruct (snoc_cases f) as [Ef|(g & k & Ef)]; rewrite Ef.
    + split; reflexivity.
    + assert (Ck : bk_completed k = true) by (rewrite Ef in Df; apply Forall_app in Df as [_ Dk]; now inversion Dk). rewrite last_of_snoc. cbn [of_opt bind]. rewrite !Ck. split; [reflexivity|].
      replace (zlen (g ++ [k]) =? 0) with false by (rewrite zlen_app; change (zlen [k]) with 1; pose proof (zlen_nonneg g); lia). destruct r. reflexivity.
Qed.

(** ** The memory a Write changes *)

Lemma target_pick h r cur head tail c front ob d : rb_wf h r -> rb_pick r = (head, tail, c, front, ob) -> read h (blk_slice (d_data (rb_d r)) ob) = Ok cur ->
  write_target r cur d =
    (if tail <? head then (if tail + zlen d <=? head then Put tail d else Grow)
     else if tail + zlen d <=? c then Put tail d
     else if bk_size ob + zlen d <=? head then Put 0 (cur ++ d)
     else Grow).
Proof.
  intros W E R. pose proof (zlen_nonneg d). assert (Lc : zlen cur = bk_size ob) by (apply read_valid in R as [_ L]; exact L).
  pose proof W as ((a & _ & _ & Hl & _) & _). unfold write_target. rewrite Lc. unfold rb_pick in E. destruct (snoc_cases (d_blocks (rb_d r))) as [Eb|(f & t & Eb)]; rewrite Eb in *.
  - cbn [last_of] in E. injection E as <- <- <- <- <-. cbn [first_of bk_size]. change (0 <? 0) with false. cbn iota. rewrite Z.add_0_l. destruct (zlen d <=? _) eqn:X; [reflexivity|]. apply Z.leb_gt in X. replace (zlen d <=? 0) with false by (symmetry; apply Z.leb_gt; lia). reflexivity.
  - rewrite last_of_snoc, first_of_snoc in *. destruct (bk_completed t); injection E as <- <- <- <- <-; reflexivity.
Qed.

Lemma read_sub h arr off a i j : read h (mkSlice arr off (zlen a)) = Ok a -> 0 <= i -> 0 <= j -> i + j <= zlen a ->
  read h (mkSlice arr (off + i) j) = Ok (firstn (Z.to_nat j) (skipn (Z.to_nat i) a)).
Proof.
  intros R Hi Hj Hl. unfold zlen in Hl. assert (L : a = firstn (Z.to_nat i) a ++ firstn (Z.to_nat j) (skipn (Z.to_nat i) a) ++ skipn (Z.to_nat j) (skipn (Z.to_nat i) a)) by now rewrite firstn_skipn, firstn_skipn.
  rewrite L in R at 1 2. apply read_part in R. unfold zlen in R. rewrite !firstn_length, skipn_length in R.
  replace (Z.of_nat (Nat.min (Z.to_nat i) (length a))) with i in R by lia. replace (Z.of_nat (Nat.min (Z.to_nat j) (length a - Z.to_nat i))) with j in R by lia. exact R.
Qed.

(** An array in which only one part was written. *)
Lemma read_overlay h h' s a lo b : read h s = Ok a -> 0 <= lo -> lo + zlen b <= zlen a ->
  (forall t, apart t (mkSlice (s_arr s) (s_off s + lo) (zlen b)) -> read h' t = read h t) ->
  read h' (mkSlice (s_arr s) (s_off s + lo) (zlen b)) = Ok b -> read h' s = Ok (overlay a lo b).
Proof.
  intros R Hlo Hb K N. pose proof (zlen_nonneg b). assert (Ls : zlen a = s_len s) by (apply read_valid in R as [_ L]; exact L). destruct s as [arr off len]. cbn [s_arr s_off s_len] in *. subst len.
  unfold overlay. eapply (read_cat h' _ arr off lo (zlen a - lo)); [f_equal; lia|exact Hlo| |].
  - rewrite K by (right; left; cbn; lia). pose proof (read_sub h arr off a 0 lo R ltac:(lia) Hlo ltac:(lia)) as X. rewrite Z.add_0_r in X. exact X.
  - eapply (read_cat h' _ arr (off + lo) (zlen b) (zlen a - lo - zlen b)); [f_equal; lia|lia|exact N|].
    rewrite K by (right; right; cbn; lia). replace (off + lo + zlen b) with (off + (lo + zlen b)) by lia. rewrite (read_sub h arr off a _ _ R) by lia. f_equal.
    replace (Z.to_nat (lo + zlen b)) with (Z.to_nat lo + length b)%nat by (unfold zlen; lia). apply firstn_all2. rewrite skipn_length. unfold zlen. lia.
Qed.

Lemma write_effect h r cur d a : open_inv h r cur -> read h (d_data (rb_d r)) = Ok a -> exists h' r', rb_write h r d = Ok (h', r') /\
  match write_target r (cur_bytes cur) d with
  | Put lo b => d_data (rb_d r') = d_data (rb_d r) /\ 0 <= lo /\ lo + zlen b <= zlen a /\
      read h' (d_data (rb_d r)) = Ok (overlay a lo b) /\
      forall t, apart t (mkSlice (s_arr (d_data (rb_d r))) (s_off (d_data (rb_d r)) + lo) (zlen b)) -> read h' t = read h t
  | Grow => s_arr (d_data (rb_d r')) = length h /\ (forall t, (s_arr t < length h)%nat -> read h' t = read h t) /\
      exists rest, read h' (d_data (rb_d r')) = Ok (cur_bytes cur ++ d ++ rest)
  end.
Proof.
  intros O Ra. destruct (open_pick h r cur O) as (head & tail & c & front & ob & E & R & Df). destruct O as (W & _). rewrite (target_pick h r _ _ _ _ _ _ d W E R).
  pose proof (rb_pick_ok _ _ _ _ _ _ _ W E) as [Pob Ptl (B1 & B2 & B3) Phd Pcp Pfr].
  destruct (rb_write_ok h r d head tail c front ob W E) as (h' & r' & Ew & W' & _ & _ & K & Cs). exists h', r'. split; [exact Ew|]. destruct (K _ R) as (k & Lk & _ & Sk & Rk). clear K.
  assert (Lc : zlen (cur_bytes cur) = bk_size ob) by (apply read_valid in R as [_ L]; exact L). assert (La : zlen a = s_len (d_data (rb_d r))) by (apply read_valid in Ra as [_ L]; exact L).
  pose proof (zlen_nonneg d) as Hn. destruct Cs as [Ed Eb Ec Ei Hw K|Ed Eb Ec Ei H1 H2 H3 K|Ea Eb Ec Ei K H1 H2].
  - replace (if tail <? head then _ else _) with (Put tail d).
    2: { destruct Hw as [[A B]|[A B]]; [replace (tail <? head) with true by (symmetry; apply Z.ltb_lt; lia); replace (tail + zlen d <=? head) with true by (symmetry; apply Z.leb_le; lia); reflexivity|].
         replace (tail <? head) with false by (symmetry; apply Z.ltb_ge; lia). replace (tail + zlen d <=? c) with true by (symmetry; apply Z.leb_le; lia). reflexivity. }
    split; [exact Ed|]. split; [lia|]. split; [lia|]. split; [|exact K]. apply (read_overlay h); auto; try lia.
    rewrite Eb, last_of_snoc in Lk. injection Lk as <-. rewrite Ed in Rk. unfold blk_slice in Rk. cbn [bk_index bk_size] in Rk.
    rewrite <- Lc in Rk. rewrite <- zlen_app in Rk. pose proof (read_part h' (s_arr (d_data (rb_d r))) (s_off (d_data (rb_d r)) + bk_index ob) (cur_bytes cur) d []) as X. rewrite app_nil_r in X. specialize (X Rk). rewrite Lc in X. replace (s_off (d_data (rb_d r)) + tail) with (s_off (d_data (rb_d r)) + bk_index ob + bk_size ob) by lia. exact X.
  - replace (tail <? head) with false by (symmetry; apply Z.ltb_ge; lia). replace (tail + zlen d <=? c) with false by (symmetry; apply Z.leb_gt; lia). replace (bk_size ob + zlen d <=? head) with true by (symmetry; apply Z.leb_le; lia).
    assert (Lb : zlen (cur_bytes cur ++ d) = bk_size ob + zlen d) by (rewrite zlen_app; lia).
    split; [exact Ed|]. split; [lia|]. split; [lia|]. rewrite Z.add_0_r, Lb. split; [|exact K]. apply (read_overlay h); rewrite ?Lb, ?Z.add_0_r; auto; try lia.
    rewrite Eb, last_of_snoc in Lk. injection Lk as <-. rewrite Ed in Rk. unfold blk_slice in Rk. cbn [bk_index bk_size] in Rk. now rewrite Z.add_0_r in Rk.
  - replace (if tail <? head then _ else _) with Grow.
    2: { destruct H2 as [[A B]|(A & B & C)]; [replace (tail <? head) with true by (symmetry; apply Z.ltb_lt; lia); replace (tail + zlen d <=? head) with false by (symmetry; apply Z.leb_gt; lia); reflexivity|].
         replace (tail <? head) with false by (symmetry; apply Z.ltb_ge; lia). replace (tail + zlen d <=? c) with false by (symmetry; apply Z.leb_gt; lia). replace (bk_size ob + zlen d <=? head) with false by (symmetry; apply Z.leb_gt; lia). reflexivity. }
    split; [exact Ea|]. split; [exact K|]. rewrite Eb in Lk. cbn [last_of] in Lk. injection Lk as <-. pose proof W' as (V' & _). destruct (valid_read _ _ V') as (l & Rl & Ll).
    unfold blk_slice in Rk. cbn [bk_index bk_size] in Rk. rewrite Z.add_0_r in Rk.
    assert (X : read h' (mkSlice (s_arr (d_data (rb_d r'))) (s_off (d_data (rb_d r'))) (zlen l)) = Ok l) by (rewrite Ll; destruct (d_data (rb_d r')); exact Rl).
    pose proof (read_sub h' _ _ l 0 (bk_size ob + zlen d) X ltac:(lia) ltac:(lia) ltac:(lia)) as Y. rewrite Z.add_0_r, Rk in Y. cbn [skipn Z.to_nat] in Y. assert (Y' : firstn (Z.to_nat (bk_size ob + zlen d)) l = cur_bytes cur ++ d) by congruence.
    exists (skipn (Z.to_nat (bk_size ob + zlen d)) l). rewrite app_assoc, <- Y', firstn_skipn. exact Rl.
Qed.

Lemma open_new h c h0 r0 : rb_new h c = Ok (h0, r0) -> open_inv h0 r0 None.
Proof.
  intros E. assert (Hc : 0 <= c). { unfold rb_new, d_new in E. destruct (Z_le_dec 0 c) as [Hc|Hc]; [exact Hc|]. unfold make in E. replace (0 <=? c) with false in E by (symmetry; apply Z.leb_gt; lia). discriminate. }
  destruct (rb_new_inv false h c Hc) as (h1 & r1 & E1 & (W & _)). assert (h1 = h0 /\ r1 = r0) as [-> ->] by (split; congruence).
  split; [exact W|]. exists []. split; [constructor|]. unfold rb_new, d_new in E. destruct (make h c) as [[h2 s2]| | |]; try discriminate. cbn [bind] in E. now injection E as <- <-.
Qed.

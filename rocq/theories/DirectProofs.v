(** * DirectProofs: DirectBlockBuffer refines the FIFO of blocks, and never touches memory it handed out. *)
From Verif Require Import Base CollectionsSpec BlockModel BlockSpec HeapProofs.

(** The free part of the buffer's memory. *)
Definition d_free (b : dbuf) : gslice :=
  mkSlice (s_arr (d_data b)) (s_off (d_data b) + d_next b) (s_len (d_data b) - d_next b).

Definition d_wf (h : heap) (b : dbuf) : Prop :=
  valid h (d_data b) /\ 0 <= d_next b <= s_len (d_data b) /\ d_sealed b = false.

(** front of the queue and block that Alloc works on *)
Definition d_pick (b : dbuf) : list block * block :=
  match last_of (d_blocks b) with
  | None => (d_blocks b, mkBlock (d_next b) 0 false)
  | Some t => if bk_completed t then (d_blocks b, mkBlock (d_next b) 0 false) else (removelast (d_blocks b), t)
  end.

Record write_post (h : heap) (b : dbuf) (d : list Z) (h' : heap) (b' : dbuf) : Prop := {
  wp_wf : d_wf h' b';
  wp_next : d_next b' = d_next b + zlen d;
  wp_len : (length h <= length h')%nat;
  wp_data : d_data b' = d_data b \/ (length h <= s_arr (d_data b'))%nat;
  wp_blocks : d_blocks b' = fst (d_pick b) ++
      [mkBlock (bk_index (snd (d_pick b))) (bk_size (snd (d_pick b)) + zlen d) (bk_completed (snd (d_pick b)))];
  wp_valid : forall t, valid h t -> valid h' t;
  wp_frame : forall t, (s_arr t < length h)%nat -> apart t (d_free b) -> read h' t = read h t;
  wp_kept : forall i n, 0 <= i -> 0 <= n -> i + n <= d_next b ->
      read h' (mkSlice (s_arr (d_data b')) (s_off (d_data b') + i) n) = read h (mkSlice (s_arr (d_data b)) (s_off (d_data b) + i) n);
  wp_new : read h' (mkSlice (s_arr (d_data b')) (s_off (d_data b') + d_next b) (zlen d)) = Ok d }.

Lemma apart_sub t arr off len off' len' : apart t (mkSlice arr off len) -> off <= off' -> off' + len' <= off + len ->
  apart t (mkSlice arr off' len').
Proof. unfold apart. cbn [s_arr s_off s_len]. intuition lia. Qed.

Lemma d_write_ok h b d : d_wf h b -> exists h' b', d_write h b d = Ok (h', b') /\ write_post h b d h' b'.
Proof.
  intros (V & N & S). unfold d_write, d_alloc. rewrite S. cbn [negb assert bind].
  fold (d_pick b). destruct (d_pick b) as [front blk] eqn:P.
  pose proof (zlen_nonneg d) as Hd.
  destruct (d_next b + zlen d >? s_len (d_data b)) eqn:G.
  - (* growth *)
    set (c := (d_next b + zlen d) * 3 / 2).
    assert (Hc : d_next b + zlen d <= c) by (subst c; Z.div_mod_to_equations; lia).
    unfold d_grow. rewrite make_ok by lia. cbn [bind]. rewrite reslice_ok by lia. cbn [bind].
    set (h1 := h ++ [zeros (Z.to_nat c)]).
    assert (V1 : valid h1 (mkSlice (length h) 0 c)) by (apply make_valid; lia).
    pose proof (reslice_valid h _ 0 (d_next b) V ltac:(lia) ltac:(lia)) as V2.
    destruct (valid_read h _ V2) as (old & R & L). cbn [s_len] in L.
    assert (R1 : read h1 (mkSlice (s_arr (d_data b)) (s_off (d_data b) + 0) (d_next b - 0)) = Ok old).
    { unfold h1. rewrite read_app; [exact R|]. apply (valid_lt _ _ V2). }
    rewrite R1. cbn [bind].
    destruct (hcopy_ok h1 _ old V1 ltac:(cbn [s_len]; lia)) as (h2 & E2 & L2 & _ & O2). rewrite E2. cbn [bind].
    assert (V3 : valid h2 (mkSlice (length h) 0 c)) by (apply (hcopy_valid h1 (mkSlice (length h) 0 c) old V1 ltac:(cbn [s_len]; lia) h2); auto).
    rewrite reslice_ok by (cbn [s_len]; lia). cbn [bind s_arr s_off s_len].
    pose proof (reslice_valid h2 _ (d_next b) (d_next b + zlen d) V3 ltac:(lia) ltac:(cbn [s_len]; lia)) as V4.
    cbn [s_arr s_off s_len] in V4.
    destruct (hcopy_ok h2 _ d V4 ltac:(cbn [s_len]; lia)) as (h3 & E3 & L3 & _ & O3). rewrite E3. cbn [bind s_arr] in *.
    do 2 eexists. split; [reflexivity|].
    assert (Vt : forall t, valid h t -> valid h3 t).
    { intros t Ht. eapply (hcopy_valid h2 _ d V4); [cbn [s_len]; lia|exact E3|].
      eapply (hcopy_valid h1 _ old V1); [cbn [s_len]; lia|exact E2|]. now apply valid_app. }
    assert (LL : length h1 = Datatypes.S (length h)) by (unfold h1; rewrite app_length; cbn; lia).
    constructor; cbn [d_data d_next d_blocks d_sealed fst snd s_arr s_off s_len].
    + split; [|split; [cbn [s_len d_data d_next]; lia|auto]].
      eapply (hcopy_valid h2 _ d V4); [cbn [s_len]; lia|exact E3|]. exact V3.
    + reflexivity.
    + lia.
    + right. lia.
    + rewrite P. reflexivity.
    + exact Vt.
    + intros t Ht A. unfold read. rewrite O3 by lia. rewrite O2 by lia. unfold h1. rewrite nth_error_app1 by lia. reflexivity.
    + intros i n Hi Hn Hin.
      rewrite (hcopy_read_other h2 _ d V4 ltac:(cbn [s_len]; lia) h3 _ E3) by (unfold apart; cbn [s_arr s_off s_len]; lia).
      pose proof (hcopy_read_same h1 _ old V1 ltac:(cbn [s_len]; lia) h2 E2) as Q. cbn [s_arr s_off] in Q.
      unfold read in Q, R. cbn [s_arr s_off s_len] in Q, R. unfold read. cbn [s_arr s_off s_len].
      destruct (nth_error h2 (length h)) as [a2|]; cbn [of_opt bind] in *; [|discriminate].
      destruct (nth_error h (s_arr (d_data b))) as [a1|]; cbn [of_opt bind] in *; [|discriminate].
      destruct (slice a2 0 (0 + zlen old)) as [o2|] eqn:S2; cbn [of_opt] in Q; [|discriminate].
      destruct (slice a1 _ _) as [o1|] eqn:S1; cbn [of_opt] in R; [|discriminate].
      injection Q as ->. injection R as ->.
      apply slice_inv in S1 as (E1' & B1 & B1'). apply slice_inv in S2 as (E2' & B2 & B2').
      rewrite !slice_some by lia. cbn [of_opt]. f_equal.
      replace (skipn (Z.to_nat (0 + i)) a2) with (skipn (Z.to_nat i) (skipn (Z.to_nat 0) a2)) by (rewrite skipn_skipn; f_equal; lia).
      replace (skipn (Z.to_nat (s_off (d_data b) + i)) a1) with (skipn (Z.to_nat i) (skipn (Z.to_nat (s_off (d_data b) + 0)) a1)) by (rewrite skipn_skipn; f_equal; lia).
      assert (K : forall (m : list Z) k, (k = length old) -> firstn (Z.to_nat n) (skipn (Z.to_nat i) m) = firstn (Z.to_nat n) (skipn (Z.to_nat i) (firstn k m))).
      { intros m k ->. rewrite skipn_firstn_comm, firstn_firstn. f_equal. unfold zlen in *. lia. }
      replace (0 + i + n - (0 + i)) with n by lia. replace (s_off (d_data b) + i + n - (s_off (d_data b) + i)) with n by lia.
      rewrite (K _ _ eq_refl), (K (skipn _ a1) _ eq_refl).
      replace (length old) with (Z.to_nat (0 + zlen old - 0)) at 1 by (unfold zlen; lia). rewrite <- E2'.
      replace (length old) with (Z.to_nat (s_off (d_data b) + 0 + (d_next b - 0) - (s_off (d_data b) + 0))) by (unfold zlen in *; lia).
      rewrite <- E1'. reflexivity.
    + pose proof (hcopy_read_same h2 _ d V4 ltac:(cbn [s_len]; lia) h3 E3) as Q. exact Q.
  - cbn [bind]. rewrite reslice_ok by lia. cbn [bind].
    pose proof (reslice_valid h _ (d_next b) (d_next b + zlen d) V ltac:(lia) ltac:(lia)) as V4.
    destruct (hcopy_ok h _ d V4 ltac:(cbn [s_len]; lia)) as (h3 & E3 & L3 & _ & O3). rewrite E3. cbn [bind s_arr] in *.
    do 2 eexists. split; [reflexivity|].
    constructor; cbn [d_data d_next d_blocks d_sealed fst snd s_arr s_off s_len].
    + split; [|split; [cbn [s_len d_data d_next]; lia|auto]].
      eapply (hcopy_valid h _ d V4); [cbn [s_len]; lia|exact E3|]. exact V.
    + reflexivity.
    + lia.
    + now left.
    + rewrite P. reflexivity.
    + intros t. apply (hcopy_valid h _ d V4 ltac:(cbn [s_len]; lia) h3 t E3).
    + intros t Ht A. apply (hcopy_read_other h _ d V4 ltac:(cbn [s_len]; lia) h3 _ E3). cbn [s_arr s_off].
      eapply apart_sub; [exact A|..]; lia.
    + intros i n Hi Hn Hin. apply (hcopy_read_other h _ d V4 ltac:(cbn [s_len]; lia) h3 _ E3). unfold apart. cbn [s_arr s_off s_len]. lia.
    + apply (hcopy_read_same h _ d V4 ltac:(cbn [s_len]; lia) h3 E3).
Qed.

(** The specification on queues seen from the end. *)
Lemma pending_snoc q c o : pending_of (q ++ [(c, o)]) = match o with None => Some c | Some _ => None end.
Proof. unfold pending_of. rewrite last_of_snoc. now destruct o. Qed.
Lemma spec_fetch_done q c s r : bb_spec (q ++ [(c, Some s)]) r BFetch = (q ++ [(c, Some s)], Ok (BBytes None)).
Proof.
  unfold bb_spec, gblock in *. pose proof (pending_snoc q c (Some s)) as P. destruct (q ++ [(c, Some s)]) eqn:X; [now apply snoc_not_nil in X|].
  unfold gblock in *. now rewrite P.
Qed.
Lemma spec_fetch_pend q c r : bb_spec (q ++ [(c, None)]) r BFetch = (q ++ [(c, r)], Ok (BBytes (Some c))).
Proof.
  unfold bb_spec, gblock in *. pose proof (pending_snoc q c None) as P. pose proof (removelast_snoc q (c, @None gslice)) as R.
  destruct (q ++ [(c, None)]) eqn:X; [now apply snoc_not_nil in X|]. now rewrite P, R.
Qed.
Lemma spec_pop_back q g r : bb_spec (q ++ [g]) r BPopBack = (q, Ok BUnit).
Proof.
  unfold bb_spec. pose proof (removelast_snoc q g) as R. destruct (q ++ [g]) eqn:X; [now apply snoc_not_nil in X|]. now rewrite R.
Qed.

(* ---------------------------------------------------------------------------------------- *)
Definition d_done (h : heap) (b : dbuf) (k : block) (g : gblock) : Prop :=
  bk_completed k = true /\ exists c s, g = (c, Some s) /\ read h s = Ok c /\ apart s (d_free b).

Definition d_pend (h : heap) (b : dbuf) (k : block) (g : gblock) : Prop :=
  bk_completed k = false /\ exists c, g = (c, None) /\ zlen c = bk_size k /\ 0 <= bk_index k /\ bk_index k + bk_size k = d_next b /\
  read h (mkSlice (s_arr (d_data b)) (s_off (d_data b) + bk_index k) (bk_size k)) = Ok c.

Definition d_inv (h : heap) (b : dbuf) (q : list gblock) : Prop :=
  d_wf h b /\ exists fb fq pb pq, d_blocks b = fb ++ pb /\ q = fq ++ pq /\ Forall2 (d_done h b) fb fq /\
    ((pb = [] /\ pq = []) \/ exists k g, pb = [k] /\ pq = [g] /\ d_pend h b k g).

Lemma d_inv_held h b q : d_inv h b q -> held_intact h q.
Proof.
  intros (_ & fb & fq & pb & pq & _ & -> & F & P) c s HI. apply in_app_or in HI as [HI|HI].
  - induction F as [|x y fb fq H F IH]; [destruct HI|]. destruct HI as [->|HI]; [|auto].
    destruct H as (_ & c' & s' & E & R & _). now injection E as <- <-.
  - destruct P as [(_ & ->)|(k & g & _ & -> & _ & c' & -> & _)]; [destruct HI|]. destruct HI as [HI|[]]. discriminate.
Qed.

Lemma Forall2_zlen {A B} (R : A -> B -> Prop) l m : Forall2 R l m -> zlen l = zlen m.
Proof. induction 1 as [|x y l m H F IH]; [reflexivity|]. rewrite !zlen_cons. now rewrite IH. Qed.

(** A block that ends up last in the done part is completed. *)
Lemma d_done_last h b fb fq : Forall2 (d_done h b) fb fq ->
  (fb = [] /\ fq = []) \/ exists f k fq' c s, fb = f ++ [k] /\ fq = fq' ++ [(c, Some s)] /\ bk_completed k = true /\ Forall2 (d_done h b) f fq' /\ d_done h b k (c, Some s).
Proof.
  intros F. destruct (snoc_cases fb) as [->|(f & k & ->)].
  - inversion F; auto.
  - apply Forall2_snoc_inv in F as (m' & y & -> & F & D). pose proof D as (C & c & s & -> & _). right. exists f, k, m', c, s. repeat split; auto; destruct D; auto.
Qed.

Lemma d_inv_drop h b fb fq pb pq : d_wf h b -> Forall2 (d_done h b) fb fq ->
  ((pb = [] /\ pq = []) \/ exists k g, pb = [k] /\ pq = [g] /\ d_pend h b k g) ->
  d_inv h (mkD (d_data b) (if zlen (fb ++ pb) =? 0 then 0 else d_next b) false (fb ++ pb)) (fq ++ pq).
Proof.
  intros (V & N & S) F P. split.
  - split; [exact V|]. split; [|reflexivity]. cbn [d_next d_data]. destruct (zlen (fb ++ pb) =? 0); lia.
  - exists fb, fq, pb, pq. cbn [d_blocks]. split; [reflexivity|]. split; [reflexivity|].
    destruct (zlen (fb ++ pb) =? 0) eqn:Z0.
    + assert (E : fb ++ pb = []) by (apply zlen_zero_nil; lia). apply app_eq_nil in E as [-> ->]. inversion F; subst.
      split; [constructor|]. destruct P as [(_ & ->)|(k & g & ? & _)]; [auto|discriminate].
    + split; [exact F|exact P].
Qed.

Lemma d_step_sim h b q o : d_inv h b q ->
  let '((h', b', q'), (out, spec)) := co_step d_impl h b q o in d_inv h' b' q' /\ out = spec.
Proof.
  intros I. pose proof I as (W & fb & fq & pb & pq & Eb & Eq & F & P). pose proof W as (V & N & S).
  destruct o as [d| | | | | |]; unfold co_step, d_impl.
  - (* Write *)
    destruct (d_write_ok h b d W) as (h' & b' & E & [W' Nx Ln Dt Bl Vd Fr Kp Nw]). rewrite E. cbn [bind raw_slice].
    assert (FD : Forall2 (d_done h' b') fb fq).
    { clear - F W Fr Dt Nx W' Vd Ln. induction F as [|x y fb fq H F IH]; constructor; auto.
      destruct H as (C & c & s & -> & R & A). split; [exact C|]. exists c, s.
      pose proof (proj1 (read_valid _ _ _ R)) as Vs. pose proof (valid_lt _ _ Vs) as Ls.
      split; [reflexivity|]. rewrite Fr by auto. split; [exact R|].
      destruct Dt as [Dt|Dt].
      - unfold d_free in *. rewrite Dt, Nx. eapply apart_sub; [exact A|..]; pose proof (zlen_nonneg d); lia.
      - left. unfold d_free. cbn [s_arr]. lia. }
    destruct P as [(-> & ->)|(k & g & -> & -> & Cp & c & -> & Lc & Ix & In & Rd)].
    + rewrite app_nil_r in *. subst q.
      assert (Pk : d_pick b = (fb, mkBlock (d_next b) 0 false)).
      { unfold d_pick. rewrite Eb. destruct (d_done_last _ _ _ _ F) as [(-> & ->)|(f & k & fq' & c & s & -> & -> & C & _)]; [reflexivity|].
        rewrite last_of_snoc, C. reflexivity. }
      assert (Pq : pending_of fq = None).
      { unfold pending_of. destruct (d_done_last _ _ _ _ F) as [(-> & ->)|(f & k & fq' & c & s & -> & -> & C & _)]; [reflexivity|].
        now rewrite last_of_snoc. }
      unfold bb_spec. rewrite Pq. split; [|reflexivity]. split; [exact W'|].
      exists fb, fq, [mkBlock (d_next b) (zlen d) false], [(d, None)].
      rewrite Bl, Pk. cbn [fst snd bk_index bk_size bk_completed]. split; [reflexivity|]. split; [reflexivity|]. split; [exact FD|].
      right. do 2 eexists. split; [reflexivity|]. split; [reflexivity|]. split; [reflexivity|]. exists d. cbn [bk_index bk_size]. repeat split; auto; try lia.
    + assert (Pk : d_pick b = (fb, k)) by (unfold d_pick; rewrite Eb, last_of_snoc, Cp, removelast_snoc; reflexivity).
      assert (Pq : pending_of q = Some c) by (unfold pending_of; now rewrite Eq, last_of_snoc).
      unfold bb_spec. rewrite Pq, Eq, removelast_snoc. split; [|reflexivity]. split; [exact W'|].
      exists fb, fq, [mkBlock (bk_index k) (bk_size k + zlen d) false], [(c ++ d, None)].
      rewrite Bl, Pk. cbn [fst snd]. rewrite Cp. split; [reflexivity|]. split; [reflexivity|]. split; [exact FD|].
      right. do 2 eexists. split; [reflexivity|]. split; [reflexivity|]. split; [reflexivity|]. exists (c ++ d). cbn [bk_index bk_size].
      split; [reflexivity|]. rewrite zlen_app. repeat split; auto; try lia.
      eapply read_cat; [reflexivity|pose proof (zlen_nonneg c); lia| |].
      * rewrite Kp by (pose proof (zlen_nonneg c); lia). exact Rd.
      * rewrite <- Nw. f_equal. f_equal. lia.
  - (* Fetch *)
    unfold d_fetch. rewrite S. cbn [negb assert bind].
    destruct P as [(-> & ->)|(k & g & -> & -> & Cp & c & -> & Lc & Ix & In & Rd)].
    + rewrite app_nil_r in *. subst q. rewrite Eb.
      destruct (d_done_last _ _ _ _ F) as [(-> & ->)|(f & k & fq' & c & s & -> & -> & C & F' & D)].
      * cbn. split; [|reflexivity]. exact I.
      * rewrite last_of_snoc. cbn [of_opt bind]. rewrite C. cbn [bind raw_slice observe]. rewrite spec_fetch_done. split; [exact I|reflexivity].
    + rewrite Eb, last_of_snoc. cbn [of_opt bind]. rewrite Cp.
      pose proof (zlen_nonneg c). rewrite reslice_ok by lia. cbn [bind raw_slice observe].
      replace (bk_index k + bk_size k - bk_index k) with (bk_size k) by lia. rewrite Rd. cbn [bind].
      rewrite Eq, spec_fetch_pend, removelast_snoc.
      split; [|reflexivity]. split; [repeat split; cbn [d_data d_next]; auto; lia|].
      exists (fb ++ [mkBlock (bk_index k) (bk_size k) true]), (fq ++ [(c, Some (mkSlice (s_arr (d_data b)) (s_off (d_data b) + bk_index k) (bk_size k)))]), [], [].
      cbn [d_blocks]. rewrite !app_nil_r. split; [reflexivity|]. split; [reflexivity|]. split; [|auto].
      apply Forall2_snoc; [exact F|]. split; [reflexivity|]. do 2 eexists. split; [reflexivity|]. split; [exact Rd|].
      unfold apart, d_free. cbn [s_arr s_off s_len d_data d_next]. lia.
  - (* Pop *)
    unfold d_pop. rewrite S. cbn [negb assert bind raw_slice bb_spec observe]. split; [|reflexivity].
    destruct F as [|x y fb fq D F].
    + cbn [app] in *. destruct P as [(-> & ->)|(k & g & -> & -> & D)]; rewrite Eb, Eq in *; cbn [tl];
        apply (d_inv_drop h b [] [] [] []); auto.
    + rewrite Eb, Eq. cbn [app tl]. now apply d_inv_drop.
  - (* PopBack *)
    unfold d_pop_back. rewrite S. cbn [negb assert bind].
    destruct P as [(-> & ->)|(k & g & -> & -> & D)].
    + rewrite app_nil_r in *. rewrite Eb, Eq.
      destruct (d_done_last _ _ _ _ F) as [(-> & ->)|(f & k & fq' & c & s & -> & -> & C & F' & D)].
      * cbn. split; [|reflexivity]. rewrite <- Eq. exact I.
      * replace (zlen (f ++ [k]) >? 0) with true by (rewrite zlen_app; change (zlen [k]) with 1; pose proof (zlen_nonneg f); lia).
        cbn [assert bind raw_slice]. rewrite spec_pop_back, removelast_snoc. split; [|reflexivity].
        pose proof (d_inv_drop h b f fq' [] [] W F') as G. rewrite !app_nil_r in G. apply G. auto.
    + rewrite Eb, Eq.
      replace (zlen (fb ++ [k]) >? 0) with true by (rewrite zlen_app; change (zlen [k]) with 1; pose proof (zlen_nonneg fb); lia).
      cbn [assert bind raw_slice]. rewrite spec_pop_back, removelast_snoc. split; [|reflexivity].
      pose proof (d_inv_drop h b fb fq [] [] W F) as G. rewrite !app_nil_r in G. apply G. auto.
  - (* PendingBlockSize *)
    cbn [bind raw_slice bb_spec observe]. split; [exact I|]. do 2 f_equal. unfold d_pending, pending_of. rewrite Eb, Eq.
    destruct P as [(-> & ->)|(k & g & -> & -> & Cp & c & -> & Lc & _)].
    + rewrite !app_nil_r in *.
      destruct (d_done_last _ _ _ _ F) as [(-> & ->)|(f & k & fq' & c & s & -> & -> & C & F' & D)]; [reflexivity|].
      now rewrite !last_of_snoc, C.
    + rewrite !last_of_snoc, Cp. now rewrite Lc.
  - (* Size *)
    cbn [bind raw_slice bb_spec observe]. split; [exact I|]. do 2 f_equal. unfold d_size. rewrite Eb, Eq, !zlen_app, (Forall2_zlen _ _ _ F).
    destruct P as [(-> & ->)|(k & g & -> & -> & _)]; reflexivity.
  - (* Clear *)
    cbn [bind raw_slice bb_spec observe]. split; [|reflexivity]. split.
    + split; [exact V|]. split; [cbn [d_clear d_data d_next]; lia|reflexivity].
    + exists [], [], [], []. cbn. auto 6.
Qed.

Lemma d_run_sim ops : forall h b q, d_inv h b q ->
  let '((h', b', q'), outs) := co_run d_impl h b q ops in
  d_inv h' b' q' /\ Forall (fun p => fst p = snd p) outs.
Proof.
  induction ops as [|o ops IH]; intros h b q I; cbn [co_run]; [split; auto|].
  pose proof (d_step_sim h b q o I) as H. destruct (co_step d_impl h b q o) as [[[h1 b1] q1] [o1 o2]]. destruct H as [I1 E].
  specialize (IH h1 b1 q1 I1). destruct (co_run d_impl h1 b1 q1 ops) as [[[h' b'] q'] outs]. destruct IH as [I' F].
  split; [exact I'|]. constructor; auto.
Qed.

Lemma d_new_inv h c : 0 <= c -> exists h' b, d_new h c = Ok (h', b) /\ d_inv h' b [] /\ (forall t, (s_arr t < length h)%nat -> read h' t = read h t).
Proof.
  intros H. unfold d_new. rewrite make_ok by lia. cbn [bind]. do 2 eexists. split; [reflexivity|]. split.
  - split; [split; [apply make_valid; lia|split; [cbn; lia|reflexivity]]|]. exists [], [], [], []. cbn. auto 6.
  - intros t Ht. now apply read_app.
Qed.

(* ---------------------------------------------------------------------------------------- *)
(** ** Frame: whatever a buffer does, it only writes to the memory it was given or allocated itself. *)

Definition d_fits (h0 : heap) (mem : gslice) (b : dbuf) : Prop :=
  (length h0 <= s_arr (d_data b))%nat \/ d_data b = mem.

Lemma d_free_in_data b t : 0 <= d_next b <= s_len (d_data b) -> apart t (d_data b) -> apart t (d_free b).
Proof. unfold apart, d_free. cbn [s_arr s_off s_len]. intuition lia. Qed.

Definition d_wf' (h : heap) (b : dbuf) : Prop := valid h (d_data b) /\ 0 <= d_next b.

Lemma d_write_frame h b d h' b' : d_wf' h b -> d_write h b d = Ok (h', b') ->
  d_wf' h' b' /\ (length h <= length h')%nat /\ (d_data b' = d_data b \/ (length h <= s_arr (d_data b'))%nat) /\
  (forall t, (s_arr t < length h)%nat -> apart t (d_data b) -> read h' t = read h t).
Proof.
  intros (V & N) E. destruct (d_sealed b) eqn:S; [unfold d_write, d_alloc in E; rewrite S in E; discriminate|].
  destruct (Z_le_dec (d_next b) (s_len (d_data b))) as [Hn|Hn].
  - destruct (d_write_ok h b d) as (h1 & b1 & E1 & [W' Nx Ln Dt Bl Vd Fr Kp Nw]); [repeat split; auto|].
    rewrite E1 in E. injection E as <- <-. destruct W' as (V' & N' & _). repeat split; auto; [lia|].
    intros t Ht A. apply Fr; auto. apply d_free_in_data; auto.
  - exfalso. unfold d_write, d_alloc in E. rewrite S in E. cbn [negb assert bind] in E. fold (d_pick b) in E.
    destruct (d_pick b). pose proof (zlen_nonneg d). replace (d_next b + zlen d >? s_len (d_data b)) with true in E by lia.
    unfold d_grow in E. rewrite make_ok in E by (Z.div_mod_to_equations; lia). cbn [bind] in E.
    unfold reslice in E at 1. replace ((0 <=? 0) && (0 <=? d_next b) && (d_next b <=? s_len (d_data b))) with false in E by lia.
    discriminate.
Qed.

Lemma d_impl_frame h b o h' b' r : d_wf' h b -> d_impl h b o = Ok (h', b', r) ->
  d_wf' h' b' /\ (length h <= length h')%nat /\ (d_data b' = d_data b \/ (length h <= s_arr (d_data b'))%nat) /\
  (forall t, (s_arr t < length h)%nat -> apart t (d_data b) -> read h' t = read h t).
Proof.
  intros W E. pose proof W as (V & N). destruct o; cbn [d_impl] in E.
  - destruct (d_write h b d) as [[h1 b1]| | |] eqn:X; try discriminate. cbn [bind] in E. injection E as <- <- <-.
    eapply d_write_frame; eauto.
  - unfold d_fetch in E. destruct (d_sealed b); [discriminate|]. cbn [negb assert bind] in E.
    destruct (last_of (d_blocks b)); [|discriminate]. cbn [of_opt bind] in E. destruct (bk_completed b0).
    + injection E as <- <- <-. repeat split; auto.
    + destruct (reslice _ _ _); try discriminate. cbn [bind] in E. injection E as <- <- <-. repeat split; auto.
  - unfold d_pop in E. destruct (d_sealed b); [discriminate|]. cbn [negb assert bind] in E. injection E as <- <- <-.
    repeat split; auto. cbn [d_next]. destruct (_ =? _); lia.
  - unfold d_pop_back in E. destruct (d_sealed b); [discriminate|]. cbn [negb assert bind] in E.
    destruct (zlen (d_blocks b) >? 0); [|discriminate]. cbn [assert bind] in E. injection E as <- <- <-.
    repeat split; auto. cbn [d_next]. destruct (_ =? _); lia.
  - injection E as <- <- <-. repeat split; auto.
  - injection E as <- <- <-. repeat split; auto.
  - injection E as <- <- <-. repeat split; auto. cbn. lia.
Qed.

Lemma d_run_frame ops : forall h b q h' b' q' outs mem h0,
  d_wf' h b -> (length h0 <= length h)%nat -> d_fits h0 mem b ->
  co_run d_impl h b q ops = ((h', b', q'), outs) ->
  forall t, (s_arr t < length h0)%nat -> apart t mem -> read h' t = read h t.
Proof.
  induction ops as [|o ops IH]; intros h b q h' b' q' outs mem h0 W L F E t Ht A; cbn [co_run] in E.
  - injection E as <- <- <- <-. reflexivity.
  - unfold co_step in E. destruct (d_impl h b o) as [[[h1 b1] r]| | |] eqn:X.
    + destruct (bb_spec q (raw_slice r) o) as [q1 so]. destruct (co_run d_impl h1 b1 q1 ops) as [st os] eqn:Y. injection E as -> <-.
      destruct (d_impl_frame _ _ _ _ _ _ W X) as (W1 & L1 & D1 & F1).
      rewrite (IH _ _ _ _ _ _ _ mem h0 W1 ltac:(lia)) with (2 := Y); auto.
      * apply F1; [lia|]. destruct F as [F|F]; [left; lia|now rewrite F].
      * destruct D1 as [D1|D1]; [unfold d_fits; rewrite D1; exact F|left; lia].
    + destruct (bb_spec q None o) as [q1 so]. destruct (co_run d_impl h b q1 ops) as [st os] eqn:Y. injection E as -> <-. eapply IH; eauto.
    + destruct (bb_spec q None o) as [q1 so]. destruct (co_run d_impl h b q1 ops) as [st os] eqn:Y. injection E as -> <-. eapply IH; eauto.
    + destruct (bb_spec q None o) as [q1 so]. destruct (co_run d_impl h b q1 ops) as [st os] eqn:Y. injection E as -> <-. eapply IH; eauto.
Qed.

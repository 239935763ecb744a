(** * JoinProofs: byte streams put one behind the other. *)
From Verif Require Import Base BufioModel RingProofs NaluModel NaluSpec NaluProofs SplitProofs SplitExact AvccProofs AnnexbProofs StretchSpec StretchProofs.
From Coq Require Import List.
Import ListNotations.
Local Open Scope list_scope.

(** Bytes that end neither in a zero byte nor in a bare start code. *)
Definition closed_end (a : list Z) : Prop := last a 1 <> 0 /\ ~ pat a (zlen a - 3).

Lemma idx_last (a : list Z) : a <> [] -> idx a (zlen a - 1) = Some (last a 1).
Proof. destruct a as [|y a _] using rev_ind; [congruence|]. intros _. rewrite zlen_app. change (zlen [y]) with 1. replace (zlen a + 1 - 1) with (zlen a) by lia. now rewrite idx_app_mid, last_last. Qed.
Lemma join_before a four c r j : closed_end a -> sc_at (a ++ sc four ++ c :: r) j -> j < zlen a + sc_len four - 3 -> sc_at a j.
Proof.
  intros [La Pa] [(P0 & P1 & P2) _] Hj. pose proof (idx_inv _ _ _ P0) as B0.
  assert (Nz : forall i, idx (a ++ sc four ++ c :: r) i = Some 0 -> i <> zlen a - 1).
  { intros i E ->. destruct a as [|y a']; [apply idx_inv in E; change (zlen (@nil Z)) with 0 in E; lia|]. rewrite idx_app_l in E by lia. rewrite idx_last in E by discriminate. congruence. }
  pose proof (Nz _ P0). pose proof (Nz _ P1). destruct (Z.lt_ge_cases j (zlen a)) as [L|L].
  - assert (j + 2 < zlen a) by lia. rewrite idx_app_l in P0, P1, P2 by lia. assert (Pj : pat a j) by (repeat split; assumption).
    destruct (Z.eq_dec (j + 3) (zlen a)) as [E|N]; [exfalso; apply Pa; now replace (zlen a - 3) with j by lia|]. split; [exact Pj|lia].
  - destruct four; cbn [sc_len] in Hj; [|lia]. assert (j = zlen a) by lia. subst j. rewrite idx_app_r in P2 by lia. replace (zlen a + 2 - zlen a) with 2 in P2 by lia. discriminate P2.
Qed.
Lemma join_here a four c r : sc_at (a ++ sc four ++ c :: r) (zlen a + sc_len four - 3).
Proof.
  replace (zlen a + sc_len four - 3) with (zlen a + (sc_len four - 3)) by lia. apply (sc_at_shift a (sc four ++ c :: r)). apply sc_at_here.
Qed.
Lemma join_miss a four c r : closed_end a -> (forall k, ~ sc_at a k) -> first_sc (a ++ sc four ++ c :: r) (zlen a + sc_len four - 3) /\ sc_len_at (a ++ sc four ++ c :: r) (zlen a + sc_len four - 3) = sc_len four.
Proof.
  intros Ca N. split.
  - split; [apply join_here|]. intros j Hj S. exact (N j (join_before _ _ _ _ _ Ca S Hj)).
  - unfold sc_len_at. destruct four; cbn [sc_len].
    + replace (zlen a + 4 - 3 - 1) with (zlen a) by lia. cbn [sc app]. now rewrite idx_app_mid.
    + replace (zlen a + 3 - 3 - 1) with (zlen a - 1) by lia. destruct a as [|y a']; [reflexivity|]. rewrite idx_app_l by lia. rewrite idx_last by discriminate. destruct Ca as [La _]. now destruct (last (y :: a') 1).
Qed.
Lemma join_hit a b k : first_sc a k -> first_sc (a ++ b) k /\ sc_len_at (a ++ b) k = sc_len_at a k.
Proof.
  intros [[(P0 & P1 & P2) L] M]. pose proof (idx_inv _ _ _ P0) as B0. pose proof (zlen_nonneg b). split.
  - split.
    + split; [|rewrite zlen_app; lia]. repeat split; rewrite idx_app_l by lia; assumption.
    + intros j Hj [(Q0 & Q1 & Q2) _]. pose proof (idx_inv _ _ _ Q0). apply (M j Hj). rewrite idx_app_l in Q0, Q1, Q2 by lia. split; [repeat split; assumption|lia].
  - unfold sc_len_at. now rewrite idx_app_l by lia.
Qed.
Lemma closed_suffix a b : b <> [] -> closed_end (a ++ b) -> closed_end b.
Proof.
  intros Nb [L P]. split.
  - intros E. apply L. destruct b as [|y b _] using rev_ind; [congruence|]. rewrite last_last in E. rewrite app_assoc, last_last. exact E.
  - intros (P0 & P1 & P2). apply P. pose proof (idx_inv _ _ _ P0). rewrite zlen_app. unfold pat. pose proof (zlen_nonneg a). rewrite !idx_app_r by lia.
    replace (zlen a + zlen b - 3 - zlen a) with (zlen b - 3) by lia. replace (zlen a + zlen b - 3 + 1 - zlen a) with (zlen b - 3 + 1) by lia. replace (zlen a + zlen b - 3 + 2 - zlen a) with (zlen b - 3 + 2) by lia. repeat split; assumption.
Qed.

(** ** The units found *)
Lemma strip0_app r b : strip0 r <> [] -> strip0 (r ++ b) = strip0 r ++ b.
Proof. intros N. destruct (strip0_split r) as (z & E & F & H). rewrite E at 1. rewrite <- app_assoc. apply strip0_zeros; [exact F|]. destruct (strip0 r); [congruence|exact H]. Qed.
Lemma strip0_closed r : r <> [] -> closed_end r -> strip0 r <> [] /\ closed_end (strip0 r).
Proof.
  intros N C. destruct (strip0_split r) as (z & E & F & H). assert (Ns : strip0 r <> []).
  { intros X. rewrite X, app_nil_r in E. subst z. destruct C as [L _]. apply L. destruct r as [|y r _] using rev_ind; [congruence|]. rewrite last_last. apply Forall_app in F as [_ F]. now apply Forall_inv in F. }
  split; [exact Ns|]. rewrite E in C. exact (closed_suffix _ _ Ns C).
Qed.
Lemma stretch_join four c m us2 : stretch (c :: m) us2 -> forall r us1, stretch r us1 -> r <> [] -> closed_end r -> stretch (r ++ sc four ++ c :: m) (us1 ++ us2).
Proof.
  intros S2 r us1 S1. induction S1 as [r E|r N M|r k us F S1 IH]; intros Nr Cr; destruct (strip0_closed r Nr Cr) as [Ns Cs].
  - congruence.
  - cbn [app]. destruct (join_miss (strip0 r) four c m Cs M) as [Fj Lj]. rewrite <- (strip0_app r _ Ns) in Fj, Lj. pose proof (zlen_nonneg (strip0 r)).
    replace (strip0 r) with (firstn (Z.to_nat (zlen (strip0 r) + sc_len four - 3 + 3 - sc_len_at (strip0 (r ++ sc four ++ c :: m)) (zlen (strip0 r) + sc_len four - 3))) (strip0 (r ++ sc four ++ c :: m))) at 1.
    + apply St_next; [exact Fj|]. rewrite strip0_app by exact Ns. replace (skipn _ _) with (c :: m); [exact S2|]. rewrite app_assoc. replace (zlen (strip0 r) + sc_len four - 3 + 3) with (zlen (strip0 r ++ sc four)) by (rewrite zlen_app, zlen_sc; lia).
      unfold zlen. rewrite Nat2Z.id, skipn_app, skipn_all, Nat.sub_diag. reflexivity.
    + rewrite Lj, strip0_app by exact Ns. replace (Z.to_nat (zlen (strip0 r) + sc_len four - 3 + 3 - sc_len four)) with (length (strip0 r)) by (unfold zlen; lia). rewrite firstn_app, firstn_all, Nat.sub_diag. cbn [firstn]. apply app_nil_r.
  - destruct (join_hit (strip0 r) (sc four ++ c :: m) k F) as [Fj Lj]. pose proof F as [[(P0 & _) Lk] _]. apply idx_inv in P0. rewrite <- (strip0_app r _ Ns) in Fj, Lj. cbn [app].
    assert (L3 : 3 <= sc_len_at (strip0 r) k) by (unfold sc_len_at; destruct (idx (strip0 r) (k - 1)) as [[| |]|]; lia).
    replace (firstn (Z.to_nat (k + 3 - sc_len_at (strip0 r) k)) (strip0 r)) with (firstn (Z.to_nat (k + 3 - sc_len_at (strip0 (r ++ sc four ++ c :: m)) k)) (strip0 (r ++ sc four ++ c :: m))).
    + apply St_next; [exact Fj|]. rewrite strip0_app by exact Ns. rewrite skipn_app. replace (Z.to_nat (k + 3) - length (strip0 r))%nat with 0%nat by (unfold zlen in *; lia). cbn [skipn].
      assert (Nk : skipn (Z.to_nat (k + 3)) (strip0 r) <> []) by (intros X; apply (f_equal (@length Z)) in X; rewrite skipn_length in X; cbn [length] in X; unfold zlen in *; lia).
      apply IH; [exact Nk|]. eapply closed_suffix; [exact Nk|]. rewrite firstn_skipn. exact Cs.
    + rewrite Lj, strip0_app by exact Ns. rewrite firstn_app. replace (_ - length (strip0 r))%nat with 0%nat by (unfold zlen in *; lia). cbn [firstn]. apply app_nil_r.
Qed.
Lemma found_start four c m us : found_units (sc four ++ c :: m) us <-> stretch (c :: m) us.
Proof.
  destruct (join_miss [] four c m) as [F L]; [split; [cbn; lia|]; intros (P & _); apply idx_inv in P; cbn in P; lia|intros k [(P & _) _]; apply idx_inv in P; cbn in P; lia|]. cbn [app] in F, L. change (zlen (@nil Z)) with 0 in *.
  assert (E : skipn (Z.to_nat (0 + sc_len four - 3 + 3)) (sc four ++ c :: m) = c :: m) by (destruct four; reflexivity). split.
  - intros [[N _]|(k & Fk & S)]; [destruct (N _ (proj1 F))|]. rewrite (first_sc_unique _ _ _ Fk F), E in S. exact S.
  - intros S. right. exists (0 + sc_len four - 3). split; [exact F|]. now rewrite E.
Qed.
Lemma found_join a us1 four c m us2 : closed_end a -> found_units a us1 -> found_units (sc four ++ c :: m) us2 -> found_units (a ++ sc four ++ c :: m) (us1 ++ us2).
Proof.
  intros Ca F1 F2. apply found_start in F2. destruct F1 as [[N ->]|(k & Fk & S)].
  - right. destruct (join_miss a four c m Ca N) as [F _]. exists (zlen a + sc_len four - 3). split; [exact F|]. replace (skipn _ _) with (c :: m); [exact F2|]. rewrite app_assoc. replace (zlen a + sc_len four - 3 + 3) with (zlen (a ++ sc four)) by (rewrite zlen_app, zlen_sc; lia).
    unfold zlen. rewrite Nat2Z.id, skipn_app, skipn_all, Nat.sub_diag. reflexivity.
  - right. exists k. destruct (join_hit a (sc four ++ c :: m) k Fk) as [Fj _]. split; [exact Fj|]. pose proof Fk as [[(P0 & _) Lk] _]. apply idx_inv in P0. rewrite skipn_app. replace (Z.to_nat (k + 3) - length a)%nat with 0%nat by (unfold zlen in *; lia). cbn [skipn].
    assert (Nk : skipn (Z.to_nat (k + 3)) a <> []) by (intros X; apply (f_equal (@length Z)) in X; rewrite skipn_length in X; cbn [length] in X; unfold zlen in *; lia).
    apply stretch_join; auto. eapply closed_suffix; [exact Nk|]. rewrite firstn_skipn. exact Ca.
Qed.

(** ** The pieces *)
Lemma fsc2_hit p k : bytes_ok p -> first_sc p k -> find_start_code2 p = Ok (k + 3 - sc_len_at p k).
Proof. intros B F. unfold find_start_code2. rewrite (fsc_hit p k B F). cbn [bind]. destruct F as [[(P & _) _] _]. apply idx_inv in P. now replace (k + 3 <? 0) with false by lia. Qed.
Lemma fsc2_miss p : bytes_ok p -> (forall k, ~ sc_at p k) -> find_start_code2 p = Ok (-1).
Proof. intros B N. unfold find_start_code2. now rewrite (fsc_miss p B N). Qed.
Lemma loop_pre f : forall pre d, split_nalu_loop f (pre ++ d) (zlen pre) = split_nalu_loop f d 0.
Proof.
  assert (G : forall f pre d o, 0 <= o -> split_nalu_loop f (pre ++ d) (zlen pre + o) = split_nalu_loop f d o).
  { clear. induction f as [|f IH]; intros pre d o Ho; cbn [split_nalu_loop]; [reflexivity|].
    assert (S : forall i, 0 <= i -> slice_from (pre ++ d) (zlen pre + i) = slice_from d i).
    { intros i Hi. unfold slice_from, slice. rewrite zlen_app. pose proof (zlen_nonneg pre). replace ((0 <=? zlen pre + i) && (zlen pre + i <=? zlen pre + zlen d) && (zlen pre + zlen d <=? zlen pre + zlen d)) with ((0 <=? i) && (i <=? zlen d) && (zlen d <=? zlen d)) by lia.
      destruct (_ && _); [|reflexivity]. f_equal. replace (zlen pre + zlen d - (zlen pre + i)) with (zlen d - i) by lia. f_equal. rewrite skipn_app. rewrite skipn_all2 by (unfold zlen in *; lia). cbn [app]. f_equal. unfold zlen in *. lia. }
    assert (S' : forall i j, 0 <= i -> slice (pre ++ d) (zlen pre + i) (zlen pre + j) = slice d i j).
    { intros i j Hi. unfold slice. rewrite zlen_app. pose proof (zlen_nonneg pre). replace ((0 <=? zlen pre + i) && (zlen pre + i <=? zlen pre + j) && (zlen pre + j <=? zlen pre + zlen d)) with ((0 <=? i) && (i <=? j) && (j <=? zlen d)) by lia.
      destruct (_ && _); [|reflexivity]. f_equal. replace (zlen pre + j - (zlen pre + i)) with (j - i) by lia. f_equal. rewrite skipn_app. rewrite skipn_all2 by (unfold zlen in *; lia). cbn [app]. f_equal. unfold zlen in *. lia. }
    rewrite <- !Z.add_assoc, !S by lia. destruct (of_opt (slice_from d (o + 3))) as [q| | |]; cbn [bind]; try reflexivity. destruct (find_start_code2 q) as [n| | |]; cbn [bind]; try reflexivity. destruct (n >? -1) eqn:Hn; [|reflexivity].
    cbv zeta. rewrite <- !Z.add_assoc, S' by lia. destruct (of_opt _) as [pc| | |]; cbn [bind]; try reflexivity. now rewrite IH by lia. }
  intros pre d. replace (zlen pre) with (zlen pre + 0) by lia. now apply G.
Qed.
Lemma slice_from3 (d : list Z) : 3 <= zlen d -> slice_from d (0 + 3) = Some (skipn 3 d).
Proof. intros L. unfold slice_from, slice. replace (_ && _) with true by lia. f_equal. apply firstn_all2. rewrite skipn_length. unfold zlen in *. lia. Qed.
Lemma bytes_skipn n (d : list Z) : bytes_ok d -> bytes_ok (skipn n d).
Proof. intros B. rewrite <- (firstn_skipn n d) in B. unfold bytes_ok in *. now apply Forall_app in B. Qed.
Lemma loop_miss f d : bytes_ok d -> 3 <= zlen d -> (forall k, ~ sc_at (skipn 3 d) k) -> split_nalu_loop (S f) d 0 = Ok [d].
Proof.
  intros B L N. cbn [split_nalu_loop]. rewrite (slice_from3 d L). cbn [of_opt bind]. rewrite (fsc2_miss _ (bytes_skipn 3 d B) N). cbn [bind]. change (-1 >? -1) with false. cbv iota.
  replace (slice_from d 0) with (Some d); [reflexivity|]. unfold slice_from, slice. replace (_ && _) with true by lia. cbn [skipn Z.to_nat]. rewrite firstn_all2 by (unfold zlen; lia). reflexivity.
Qed.
Lemma sc_len_at_bound p k : sc_at p k -> 3 <= sc_len_at p k <= k + 3.
Proof. intros [(P & _) _]. apply idx_inv in P. unfold sc_len_at. destruct (idx p (k - 1)) as [[| |]|] eqn:E; try lia. apply idx_inv in E. lia. Qed.
Lemma loop_hit f d k : bytes_ok d -> 3 <= zlen d -> first_sc (skipn 3 d) k -> let n := Z.to_nat (k + 6 - sc_len_at (skipn 3 d) k) in
  split_nalu_loop (S f) d 0 = (rest <- split_nalu_loop f (skipn n d) 0;; Ok (firstn n d :: rest)) /\ (3 <= n)%nat /\ (n + 4 <= length d)%nat.
Proof.
  intros B L F n. pose proof (sc_len_at_bound _ _ (proj1 F)) as Bk. pose proof (proj2 (proj1 F)) as Lk. cbn beta in Lk. unfold zlen in Lk. rewrite skipn_length in Lk. assert (Hn : (3 <= n)%nat /\ (n + 4 <= length d)%nat) by (unfold n, zlen in *; lia). split; [|exact Hn].
  cbn [split_nalu_loop]. rewrite (slice_from3 d L). cbn [of_opt bind]. rewrite (fsc2_hit _ k (bytes_skipn 3 d B) F). cbn [bind]. replace (_ >? -1) with true by lia. cbv zeta.
  replace (0 + (k + 3 - sc_len_at (skipn 3 d) k + 3)) with (Z.of_nat n) by (unfold n; lia).
  replace (slice d 0 (Z.of_nat n)) with (Some (firstn n d)).
  - cbn [of_opt bind]. rewrite <- (firstn_skipn n d) at 1. replace (Z.of_nat n) with (zlen (firstn n d)) by (unfold zlen; rewrite firstn_length; lia). now rewrite loop_pre.
  - unfold slice. replace (_ && _) with true by (unfold zlen; lia). cbn [skipn Z.to_nat]. f_equal. f_equal. lia.
Qed.
Lemma hit_or_miss q : bytes_ok q -> (exists k, first_sc q k) \/ (forall k, ~ sc_at q k).
Proof. intros B. destruct (fsc_spec q B) as [(k & F & _)|[N _]]; eauto. Qed.
Lemma loop_fuel : forall f g d, bytes_ok d -> 3 <= zlen d -> (length d < f)%nat -> (length d < g)%nat -> split_nalu_loop f d 0 = split_nalu_loop g d 0.
Proof.
  induction f as [|f IH]; intros [|g] d B L Hf Hg; try lia. destruct (hit_or_miss (skipn 3 d) (bytes_skipn 3 d B)) as [[k F]|N].
  - destruct (loop_hit f d k B L F) as (E1 & N1 & N2). destruct (loop_hit g d k B L F) as (E2 & _). rewrite E1, E2. rewrite (IH g); [reflexivity|now apply bytes_skipn| | |]; unfold zlen; rewrite skipn_length; lia.
  - now rewrite !loop_miss.
Qed.
Lemma closed_nil : closed_end [].
Proof. split; [cbn; lia|]. intros (P & _). apply idx_inv in P. cbn in P. lia. Qed.
Lemma closed_tail a n : closed_end a -> closed_end (skipn n a).
Proof. intros C. destruct (skipn n a) eqn:E; [apply closed_nil|]. rewrite <- E. apply (closed_suffix (firstn n a)); [congruence|]. now rewrite firstn_skipn. Qed.
Lemma loop_join four c m : bytes_ok (sc four ++ c :: m) -> forall f a, bytes_ok a -> closed_end a -> 3 <= zlen a -> (length (a ++ sc four ++ c :: m) < f)%nat ->
  split_nalu_loop f (a ++ sc four ++ c :: m) 0 = (p <- split_nalu_loop f a 0;; q <- split_nalu_loop f (sc four ++ c :: m) 0;; Ok (p ++ q)).
Proof.
  set (b := sc four ++ c :: m). intros Bb. assert (Lb : 4 <= zlen b) by (unfold b; rewrite zlen_app, zlen_sc, zlen_cons; pose proof (zlen_nonneg m); destruct four; cbn [sc_len]; lia).
  induction f as [|f IH]; intros a Ba Ca La Hf; [lia|]. rewrite app_length in Hf. assert (Bab : bytes_ok (a ++ b)) by (unfold bytes_ok in *; now apply Forall_app).
  assert (Eq : skipn 3 (a ++ b) = skipn 3 a ++ b) by (rewrite skipn_app; replace (3 - length a)%nat with 0%nat by (unfold zlen in *; lia); reflexivity).
  assert (Lab : 3 <= zlen (a ++ b)) by (rewrite zlen_app; lia).
  destruct (hit_or_miss (skipn 3 a) (bytes_skipn 3 a Ba)) as [[k F]|N].
  - destruct (join_hit _ b _ F) as [Fj Lj]. rewrite <- Eq in Fj, Lj. destruct (loop_hit f (a ++ b) k Bab Lab Fj) as (E1 & N1 & _). destruct (loop_hit f a k Ba La F) as (E2 & _ & N2). rewrite E1, E2. rewrite Lj in *. set (n := Z.to_nat (k + 6 - sc_len_at (skipn 3 a) k)) in *.
    rewrite skipn_app, firstn_app. replace (n - length a)%nat with 0%nat by lia. cbn [skipn firstn]. rewrite app_nil_r. unfold zlen in Lb. rewrite IH; [|now apply bytes_skipn|now apply closed_tail|unfold zlen; rewrite skipn_length; lia|rewrite app_length, skipn_length; lia].
    rewrite (loop_fuel (S f) f b) by (try assumption; unfold zlen in *; lia). destruct (split_nalu_loop f (skipn n a) 0) as [p| | |]; cbn [bind]; try reflexivity. destruct (split_nalu_loop f b 0) as [q| | |]; reflexivity.
  - destruct (join_miss (skipn 3 a) four c m (closed_tail a 3 Ca) N) as [Fj Lj]. fold b in Fj, Lj. rewrite <- Eq in Fj, Lj. destruct (loop_hit f (a ++ b) _ Bab Lab Fj) as (E1 & _). rewrite E1, Lj. replace (Z.to_nat _) with (length a) by (unfold zlen in *; rewrite skipn_length; lia).
    rewrite skipn_app, firstn_app, skipn_all, firstn_all, Nat.sub_diag. cbn [skipn firstn app]. rewrite app_nil_r, (loop_miss f a Ba La N). cbn [bind]. unfold zlen in La. rewrite (loop_fuel (S f) f b) by (try assumption; unfold zlen in *; lia). reflexivity.
Qed.
Lemma split_join a four c m : bytes_ok a -> bytes_ok (sc four ++ c :: m) -> closed_end a -> 3 <= zlen a ->
  split_nalu (a ++ sc four ++ c :: m) = (p <- split_nalu a;; q <- split_nalu (sc four ++ c :: m);; Ok (p ++ q)).
Proof.
  intros Ba Bb Ca La. unfold split_nalu. assert (3 <= zlen (sc four ++ c :: m)) by (rewrite zlen_app, zlen_sc, zlen_cons; pose proof (zlen_nonneg m); destruct four; cbn [sc_len]; lia).
  rewrite (loop_join four c m Bb _ a Ba Ca La) by lia. rewrite (loop_fuel _ (S (length a)) a) by (try assumption; rewrite ?app_length; lia). rewrite (loop_fuel _ (S (length (sc four ++ c :: m))) (sc four ++ c :: m)) by (try assumption; rewrite ?app_length; lia). reflexivity.
Qed.

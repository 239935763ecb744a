(** * StaleProofs: negative indices of LinkedList follow the next pointer of the last node. *)
From Verif Require Import Base CollectionsModel CollectionsSpec BitSpec RingProofs LinkedListProofs.

Lemma in_skipn_S {B} (x : B) k l : In x (skipn (S k) l) -> In x (skipn k l).
Proof. revert l. induction k as [|k IH]; intros [|y l] H; cbn in *; auto. Qed.

Section Stale.
Context {A : Type}.

(** The next pointer of the last node. *)
Definition tail_ptr (s : linked_list A) : option nat :=
  match ll_last s with None => None | Some p => match nth_error (ll_heap s) p with Some n => n_next n | None => None end end.
Definition stale_rep (s : linked_list A) (ps : list nat) (st : option A) : Prop :=
  match st with
  | None => tail_ptr s = None
  | Some a => ps <> [] /\ exists p n, tail_ptr s = Some p /\ ~ In p ps /\ nth_error (ll_heap s) p = Some n /\ n_data n = a
  end.

Lemma walk_all s ps l i : ll_rep s ps l -> i < 0 -> forall k j, (k = length ps - j)%nat -> (j < length ps)%nat ->
  ll_walk (ll_heap s) k (Z.of_nat j) i (nth_error ps (j - 1)) (nth_error ps j) = Ok (ll_last s, tail_ptr s).
Proof.
  intros [Ln Sz Nd Nn Fi La] Hi. induction k as [|k IH]; intros j Hk Hj; [lia|]. cbn [ll_walk]. replace (Z.of_nat j =? i) with false by lia.
  destruct (nth_error_lt ps j) as [p Hp]; [lia|]. destruct (Nn j p Hp) as (n & H1 & H2 & H3). rewrite Hp. cbn [deref]. rewrite H1. cbn [of_opt bind].
  destruct (Nat.eq_dec (S j) (length ps)) as [E|E].
  - assert (k = 0)%nat as -> by lia. cbn [ll_walk]. unfold tail_ptr. rewrite La. replace (length ps - 1)%nat with j by lia. rewrite Hp, H1. reflexivity.
  - destruct (nth_error_lt ps (S j)) as [q Hq]; [lia|]. rewrite (H3 q Hq). specialize (IH (S j) ltac:(lia) ltac:(lia)). replace (S j - 1)%nat with j in IH by lia. rewrite Hp, Hq in IH.
    rewrite Nat2Z.inj_succ in IH. exact IH.
Qed.

Lemma walk_neg s ps l i : ll_rep s ps l -> i < 0 -> ll_walk (ll_heap s) (Z.to_nat (ll_size s)) 0 i (ll_first s) (ll_first s) = Ok (ll_last s, tail_ptr s).
Proof.
  intros R Hi. pose proof R as [Ln Sz Nd Nn Fi La]. rewrite Sz, Fi. unfold zlen. rewrite Nat2Z.id. destruct ps as [|p ps].
  - destruct l; [|discriminate]. cbn. unfold tail_ptr. rewrite La. reflexivity.
  - rewrite <- Ln. exact (walk_all s (p :: ps) l i R Hi (length (p :: ps)) 0%nat ltac:(lia) ltac:(cbn; lia)).
Qed.

Lemma get_neg s ps l st i : ll_rep s ps l -> stale_rep s ps st -> i < 0 -> ll_get s i = match st with Some a => Ok a | None => Panic end.
Proof.
  intros R T Hi. pose proof R as [Ln Sz Nd Nn Fi La]. unfold ll_get, assert. pose proof (zlen_nonneg l). replace (i <? ll_size s) with true by lia. cbn [bind].
  rewrite (walk_neg s ps l i R Hi). cbn [bind]. destruct st as [a|]; [destruct T as (_ & p & n & -> & _ & E & <-)|rewrite T; reflexivity]. cbn [deref]. rewrite E. reflexivity.
Qed.

(** A negative Remove: panics, or hands out the stale element again and forgets the last one. *)
Lemma remove_neg s ps l st i : ll_rep s ps l -> stale_rep s ps st -> i < 0 ->
  match st with
  | None => ll_remove s i = Panic
  | Some a => exists s', ll_remove s i = Ok (a, s') /\ ll_size s' = zlen l - 1
  end.
Proof.
  intros R T Hi. pose proof R as [Ln Sz Nd Nn Fi La]. unfold ll_remove, assert. pose proof (zlen_nonneg l). replace (i <? ll_size s) with true by lia. cbn [bind].
  destruct st as [a|]; rewrite (walk_neg s ps l i R Hi); cbn [bind].
  - destruct T as (Ne & p & n & -> & Np & E & <-).
    assert (P1 : forall j, ptr_eqb (Some p) (nth_error ps j) = false).
    { intros j. destruct (nth_error ps j) as [q|] eqn:Q; [|reflexivity]. cbn. apply Nat.eqb_neq. intros ->. apply Np. now apply nth_error_In in Q. }
    rewrite Fi, La, !P1. cbn [deref]. rewrite E. cbn [of_opt bind]. destruct (nth_error_lt ps (length ps - 1)) as [q Hq]; [destruct ps; [congruence|cbn; lia]|].
    destruct (Nn _ _ Hq) as (m & M1 & _). rewrite Hq. cbn [set_next]. rewrite M1. cbn [bind]. assert (q <> p) by (intros ->; apply Np; now apply nth_error_In in Hq).
    rewrite set_nth_other by lia. rewrite E. cbn [of_opt bind]. rewrite Sz. eexists. split; [reflexivity|]. destruct (_ =? 0); reflexivity.
  - red in T. rewrite T. rewrite Fi. destruct ps as [|p ps]; [reflexivity|]. cbn [nth_error ptr_eqb]. rewrite La. destruct (nth_error_lt (p :: ps) (length (p :: ps) - 1)) as [q Hq]; [cbn; lia|]. rewrite Hq. reflexivity.
Qed.

Lemma add_stale s ps l a : ll_rep s ps l -> exists s' ps', ll_add s a = Ok s' /\ ll_rep s' ps' (l ++ [a]) /\ stale_rep s' ps' None.
Proof.
  intros R. destruct (ll_add_rep s ps l a R) as (s' & ps' & E & R'). exists s', ps'. split; [exact E|]. split; [exact R'|]. pose proof R as [Ln Sz Nd Nn Fi La]. cbn [stale_rep]. revert E. unfold ll_add.
  destruct (ll_last s) as [q|] eqn:Lq.
  - assert (exists m, nth_error (ll_heap s) q = Some m) as (m & M).
    { symmetry in La. destruct (Nn _ _ La) as (m & M & _). eauto. }
    assert (q < length (ll_heap s))%nat by (apply nth_error_Some; congruence). cbn [set_next]. rewrite nth_error_app1 by lia. rewrite M. cbn [bind]. intros [= <-]. unfold tail_ptr. cbn [ll_last ll_heap].
    rewrite set_nth_other by lia. rewrite nth_error_app2, Nat.sub_diag by lia. reflexivity.
  - intros [= <-]. unfold tail_ptr. cbn [ll_last ll_heap]. rewrite nth_error_app2, Nat.sub_diag by lia. reflexivity.
Qed.

Lemma in_remove_nth {B} (x : B) k ps : In x (remove_nth k ps) -> In x ps.
Proof. unfold remove_nth. rewrite in_app_iff. rewrite <- (firstn_skipn k ps) at 3. rewrite in_app_iff. intros [H|H]; [auto|right]. apply (in_skipn_S x k ps) in H. exact H. Qed.

Lemma remove_stale s ps l st i a s' : ll_rep s ps l -> stale_rep s ps st -> 0 <= i -> idx l i = Some a -> ll_remove s i = Ok (a, s') ->
  stale_rep s' (remove_nth (Z.to_nat i) ps) (if zlen l =? 1 then None else if i =? zlen l - 1 then Some a else st).
Proof.
  intros R T Hi Ha. pose proof R as [Ln Sz Nd Nn Fi La]. pose proof (idx_inv _ _ _ Ha) as Hr.
  unfold ll_remove, assert. rewrite Sz at 1. replace (i <? zlen l) with true by lia. cbn [bind].
  rewrite (ll_walk_start s ps l) by (auto; lia). cbn [bind]. rewrite Sz. unfold zlen in *. set (k := Z.to_nat i) in *. assert (Hk : (k < length ps)%nat) by (unfold k; lia).
  destruct (nth_error_lt ps k Hk) as [p Hp]. destruct (Nn k p Hp) as (n & H1 & H2 & H3). rewrite Fi, ptr_eqb_nth by (auto; lia).
  assert (Rp := remove_nth_length ps k ltac:(lia)). pose proof (remove_nth_NoDup ps k ltac:(lia) Nd) as Nr.
  destruct (Nat.eqb_spec k 0) as [K0|K0].
  - rewrite K0 in *. rewrite Hp. cbn [deref]. rewrite H1. cbn [of_opt bind]. cbn [deref]. rewrite H1. cbn [of_opt bind]. intros [= _ <-].
    destruct (Z.eqb_spec (Z.of_nat (length l) - 1) 0) as [Z0|Z0].
    + replace (Z.of_nat (length l) =? 1) with true by lia. reflexivity.
    + replace (Z.of_nat (length l) =? 1) with false by lia. replace (i =? Z.of_nat (length l) - 1) with false by lia.
      destruct st as [b|]; [|exact T]. destruct T as (Ne & q & m & T1 & T2 & T3 & T4). split; [intros X; rewrite X in Rp; cbn in Rp; lia|]. exists q, m. split; [exact T1|]. split; [intros I; apply T2; now apply in_remove_nth in I|]. auto.
  - rewrite La, ptr_eqb_nth by (auto; lia). replace (Z.of_nat (length l) =? 1) with false by lia. replace (Z.of_nat (length l) - 1 =? 0) with false by lia. destruct (Nat.eqb_spec k (length ps - 1)) as [K1|K1].
    + cbn [bind]. rewrite Hp. cbn [deref]. rewrite H1. cbn [of_opt bind]. intros [= Ea <-]. replace (i =? Z.of_nat (length l) - 1) with true by lia.
      destruct (nth_error_lt ps (k - 1)) as [pp Hpp]; [lia|]. destruct (Nn _ pp Hpp) as (np & P1 & P2 & P3). replace (S (k - 1)) with k in P3 by lia.
      split; [intros X; rewrite X in Rp; cbn in Rp; lia|]. exists p, n. unfold tail_ptr. cbn [ll_last ll_heap]. rewrite Hpp, P1. split; [auto|]. split; [|auto].
      intros I. apply In_nth_error in I as (j & J). rewrite nth_error_remove in J by lia. destruct (Nat.ltb_spec j k).
      * assert (j = k) by (eapply LinkedListProofs.NoDup_nth; [exact Nd| |]; eassumption). lia.
      * assert (S j = k) by (eapply LinkedListProofs.NoDup_nth; [exact Nd| |]; eassumption). lia.
    + rewrite Hp. cbn [deref]. rewrite H1. cbn [of_opt bind]. destruct (nth_error_lt ps (k - 1)) as [pp Hpp]; [lia|]. destruct (Nn _ pp Hpp) as (np & P1 & P2 & P3).
      cbn [set_next]. rewrite Hpp. cbn [set_next]. rewrite P1. cbn [bind deref].
      assert (Npp : pp <> p) by (intros ->; assert (k - 1 = k)%nat by (eapply LinkedListProofs.NoDup_nth; [exact Nd| |]; eassumption); lia).
      rewrite set_nth_other by lia. rewrite H1. cbn [of_opt bind]. intros [= _ <-]. replace (i =? Z.of_nat (length l) - 1) with false by lia.
      destruct (nth_error_lt ps (length ps - 1)) as [q Hq]; [lia|]. assert (Nq : q <> pp) by (intros ->; assert (k - 1 = length ps - 1)%nat by (eapply LinkedListProofs.NoDup_nth; [exact Nd| |]; eassumption); lia).
      assert (Et : forall f la z, tail_ptr (mkLL (set_nth pp (mkNode (n_data np) (n_next n)) (ll_heap s)) f la z) = match la with None => None | Some w => match nth_error (set_nth pp (mkNode (n_data np) (n_next n)) (ll_heap s)) w with Some x => n_next x | None => None end end) by reflexivity.
      assert (E2 : tail_ptr s = match nth_error (ll_heap s) q with Some x => n_next x | None => None end) by (unfold tail_ptr; rewrite La, Hq; reflexivity).
      destruct st as [b|]; cbn [stale_rep ll_heap].
      * destruct T as (Ne & v & m & T1 & T2 & T3 & T4). split; [intros X; rewrite X in Rp; cbn in Rp; lia|]. exists v, m. rewrite Et, Hq, set_nth_other by lia. rewrite <- E2. split; [exact T1|]. split; [intros I; apply T2; now apply in_remove_nth in I|].
        split; [|exact T4]. rewrite set_nth_other; [exact T3|]. intros ->. apply T2. now apply nth_error_In in Hpp.
      * rewrite Et, Hq, set_nth_other by lia. rewrite <- E2. exact T.
Qed.

Definition stale_rel (s : linked_list A) (x : list A * option A) : Prop := exists ps, ll_rep s ps (fst x) /\ stale_rep s ps (snd x).

Lemma stale_step_sim s x o : stale_rel s x -> (match o with LRemove i => 0 <= i | _ => True end) ->
  stale_rel (fst (ll_step s o)) (fst (stale_spec x o)) /\ snd (ll_step s o) = snd (stale_spec x o).
Proof.
  destruct x as [l st]. intros (ps & R & T) Ho. cbn [fst snd] in *. destruct o as [a|i|i|]; cbn [ll_step stale_spec].
  - destruct (add_stale s ps l a R) as (s' & ps' & E & R' & T'). rewrite E. cbn [keep fst snd]. split; [exists ps'; auto|reflexivity].
  - destruct (idx l i) as [a|] eqn:E.
    + destruct (ll_remove_rep s ps l i a R Ho E) as (s' & E2 & R'). rewrite E2. cbn [keep fst snd opt_res]. split; [|reflexivity]. eexists. split; [exact R'|]. cbn [snd]. eapply remove_stale; eauto.
    + assert (zlen l <= i). { destruct (Z.lt_ge_cases i (zlen l)) as [L|L]; [|exact L]. destruct (idx_some l i) as [x Hx]; [lia|congruence]. }
      unfold ll_remove, assert. rewrite (lr_size _ _ _ R). replace (i <? zlen l) with false by lia. cbn [bind keep fst snd opt_res]. split; [|reflexivity]. exists ps. auto.
  - destruct (Z.ltb_spec i 0) as [N|N].
    + rewrite (get_neg s ps l st i R T N). destruct st; cbn [keep fst snd]; (split; [exists ps; auto|reflexivity]).
    + rewrite (ll_get_rep s ps l i R N). destruct (idx l i); cbn [keep fst snd opt_res]; (split; [exists ps; auto|reflexivity]).
  - cbn [fst snd]. rewrite (lr_size _ _ _ R). split; [exists ps; auto|reflexivity].
Qed.
End Stale.

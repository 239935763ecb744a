(** * LinkedListProofs: LinkedList refines a plain list. *)
From Verif Require Import Base CollectionsModel CollectionsSpec BitSpec RingProofs.

Definition ll_step {A} (l : linked_list A) (o : ll_op A) : linked_list A * res (cout A) :=
  match o with
  | LAdd a => keep l (fun l' => l') (fun _ => OUnit) (ll_add l a)
  | LRemove i => keep l snd (fun x => OElem (fst x)) (ll_remove l i)
  | LGet i => keep l (fun _ => l) OElem (ll_get l i)
  | LSize => (l, Ok (ONum (ll_size l)))
  end.

Section LL.
Context {A : Type}.

(** [ps] are the addresses of the live nodes in order. Only the links between consecutive live nodes
    matter: the last node may keep a stale next pointer. *)
Record ll_rep (s : linked_list A) (ps : list nat) (l : list A) : Prop := {
  lr_len : length ps = length l;
  lr_size : ll_size s = zlen l;
  lr_nodup : NoDup ps;
  lr_nodes : forall i p, nth_error ps i = Some p ->
     exists n, nth_error (ll_heap s) p = Some n /\ nth_error l i = Some (n_data n) /\
               (forall q, nth_error ps (S i) = Some q -> n_next n = Some q);
  lr_first : ll_first s = nth_error ps 0;
  lr_last : ll_last s = nth_error ps (length ps - 1) }.

Lemma ll_new_rep : ll_rep (@ll_new A) [] [].
Proof.
  constructor; try reflexivity; [constructor|]. intros i p H. destruct i; discriminate.
Qed.

Lemma NoDup_nth {B} (ps : list B) i j p : NoDup ps -> nth_error ps i = Some p -> nth_error ps j = Some p -> i = j.
Proof.
  intros N H1 H2. rewrite NoDup_nth_error in N. apply N; [apply nth_error_Some; congruence|congruence].
Qed.

Lemma nth_error_lt {B} (l : list B) i : (i < length l)%nat -> exists x, nth_error l i = Some x.
Proof. intros H. destruct (nth_error l i) eqn:E; [eauto|]. apply nth_error_None in E. lia. Qed.

Lemma nth_error_snoc {B} (l : list B) x i :
  nth_error (l ++ [x]) i = if (i <? length l)%nat then nth_error l i else if (i =? length l)%nat then Some x else None.
Proof.
  destruct (i <? length l)%nat eqn:E.
  - apply nth_error_app1. lia.
  - rewrite nth_error_app2 by lia. destruct (i =? length l)%nat eqn:E2.
    + replace (i - length l)%nat with 0%nat by lia. reflexivity.
    + apply nth_error_None. cbn. lia.
Qed.

Lemma ll_add_rep s ps l a : ll_rep s ps l ->
  exists s' ps', ll_add s a = Ok s' /\ ll_rep s' ps' (l ++ [a]).
Proof.
  intros [Ln Sz Nd Nn Fi La]. unfold ll_add.
  assert (Bound : forall p, In p ps -> (p < length (ll_heap s))%nat).
  { intros p Hp. apply In_nth_error in Hp as [i Hi]. destruct (Nn i p Hi) as (n & H1 & _). apply nth_error_Some. congruence. }
  assert (Nd' : NoDup (ps ++ [length (ll_heap s)])).
  { apply NoDup_rev in Nd. rewrite <- (rev_involutive (ps ++ _)). apply NoDup_rev. rewrite rev_app_distr. cbn [rev app].
    constructor; [|exact Nd]. intros Hin. apply in_rev in Hin. apply Bound in Hin. lia. }
  destruct ps as [|p0 ps0].
  - rewrite La. cbn [nth_error length]. cbn in Ln. assert (l = []) as -> by (destruct l; [auto|discriminate]).
    do 2 eexists. split; [reflexivity|]. instantiate (1 := [length (ll_heap s)]).
    constructor; cbn [ll_heap ll_first ll_last ll_size app]; auto.
    + rewrite Sz. reflexivity.
    + intros i p H. destruct i as [|i]; [|destruct i; discriminate]. cbn in H. injection H as <-.
      eexists. rewrite nth_error_app2, Nat.sub_diag by lia. split; [reflexivity|]. split; [reflexivity|]. intros q Q; discriminate.
  - set (ps := p0 :: ps0) in *.
    destruct (nth_error_lt ps (length ps - 1)) as [pl Hpl]; [cbn; lia|]. rewrite La, Hpl.
    destruct (Nn _ _ Hpl) as (nl & Hnl & Hdl & _).
    assert (Bl : (pl < length (ll_heap s))%nat) by (apply Bound; eapply nth_error_In; eauto).
    unfold set_next. rewrite nth_error_app1 by lia. rewrite Hnl. cbn [bind].
    do 2 eexists. split; [reflexivity|]. instantiate (1 := ps ++ [length (ll_heap s)]).
    constructor; cbn [ll_heap ll_first ll_last ll_size].
    + rewrite !app_length, Ln. reflexivity.
    + rewrite Sz, zlen_app. reflexivity.
    + exact Nd'.
    + intros i p H. rewrite nth_error_snoc in H. destruct (i <? length ps)%nat eqn:E.
      * destruct (Nn i p H) as (n & H1 & H2 & H3). destruct (Nat.eq_dec p pl) as [->|Np].
        -- assert (i = length ps - 1)%nat by (eapply NoDup_nth; [exact Nd| |]; eassumption). subst i.
           eexists. rewrite set_nth_same by (rewrite app_length; cbn; lia). split; [reflexivity|]. cbn [n_data n_next].
           split; [rewrite nth_error_app1 by lia; exact Hdl|].
           intros q Q. rewrite nth_error_snoc in Q. destruct (_ <? _)%nat eqn:E2 in Q; [lia|]. destruct (_ =? _)%nat in Q; [congruence|discriminate].
        -- exists n. rewrite set_nth_other by lia. rewrite nth_error_app1 by (apply nth_error_Some; congruence). split; [exact H1|].
           split; [rewrite nth_error_app1 by lia; exact H2|].
           intros q Q. rewrite nth_error_snoc in Q. destruct (S i <? length ps)%nat eqn:E2; [auto|].
           exfalso. apply Np. assert (i = length ps - 1)%nat by lia. subst i. congruence.
      * destruct (i =? length ps)%nat eqn:E2; [|discriminate]. injection H as <-.
        eexists. rewrite set_nth_other by lia. rewrite nth_error_app2, Nat.sub_diag by lia. split; [reflexivity|]. cbn [n_data n_next].
        split; [rewrite nth_error_app2 by lia; replace (i - length l)%nat with 0%nat by lia; reflexivity|].
        intros q Q. rewrite nth_error_snoc in Q. destruct (_ <? _)%nat eqn:E3 in Q; [lia|]. destruct (_ =? _)%nat eqn:E4 in Q; [lia|discriminate].
    + rewrite Fi. reflexivity.
    + rewrite app_length. cbn [length]. rewrite nth_error_snoc. destruct (_ <? _)%nat eqn:E; [lia|]. destruct (_ =? _)%nat eqn:E2; [reflexivity|lia].
Qed.

Lemma ll_walk_rep s ps l i : ll_rep s ps l -> (i < length ps)%nat ->
  forall k j, (j <= i)%nat -> (k = length ps - j)%nat ->
  ll_walk (ll_heap s) k (Z.of_nat j) (Z.of_nat i) (nth_error ps (j - 1)) (nth_error ps j) =
  Ok (nth_error ps (i - 1), nth_error ps i).
Proof.
  intros [Ln Sz Nd Nn Fi La] Hi. induction k as [|k IH]; intros j Hj Hk; [lia|].
  cbn [ll_walk]. destruct (Z.of_nat j =? Z.of_nat i) eqn:E.
  - replace j with i by lia. reflexivity.
  - destruct (nth_error_lt ps j) as [p Hp]; [lia|]. destruct (Nn j p Hp) as (n & H1 & H2 & H3).
    rewrite Hp. cbn [deref]. rewrite H1. cbn [of_opt bind].
    destruct (nth_error_lt ps (S j)) as [q Hq]; [lia|]. rewrite (H3 q Hq).
    specialize (IH (S j) ltac:(lia) ltac:(lia)). replace (S j - 1)%nat with j in IH by lia. rewrite Hp, Hq in IH.
    rewrite Nat2Z.inj_succ in IH. exact IH.
Qed.

Lemma ll_walk_start s ps l i : ll_rep s ps l -> 0 <= i < zlen l ->
  ll_walk (ll_heap s) (Z.to_nat (ll_size s)) 0 i (ll_first s) (ll_first s) =
  Ok (nth_error ps (Z.to_nat i - 1), nth_error ps (Z.to_nat i)).
Proof.
  intros R Hi. pose proof R as [Ln Sz Nd Nn Fi La]. rewrite Sz, Fi. unfold zlen in *. rewrite Nat2Z.id.
  pose proof (ll_walk_rep s ps l (Z.to_nat i) R ltac:(lia) (length l) 0%nat ltac:(lia) ltac:(lia)) as W.
  rewrite Z2Nat.id in W by lia. exact W.
Qed.

Lemma ll_get_rep s ps l i : ll_rep s ps l -> 0 <= i ->
  ll_get s i = match idx l i with Some a => Ok a | None => Panic end.
Proof.
  intros R Hi. pose proof R as [Ln Sz Nd Nn Fi La]. unfold ll_get, assert. rewrite Sz.
  destruct (i <? zlen l) eqn:E; cbn [bind].
  - rewrite <- Sz. rewrite (ll_walk_start s ps l) by (auto; lia). cbn [bind].
    unfold zlen in E. destruct (nth_error_lt ps (Z.to_nat i)) as [p Hp]; [lia|].
    destruct (Nn _ p Hp) as (n & H1 & H2 & _). rewrite Hp. cbn [deref]. rewrite H1. cbn [of_opt bind].
    unfold idx. destruct (i <? 0) eqn:E2; [lia|]. rewrite H2. reflexivity.
  - rewrite idx_none by lia. reflexivity.
Qed.

Lemma nth_error_remove {B} (l : list B) i j : (i < length l)%nat ->
  nth_error (remove_nth i l) j = if (j <? i)%nat then nth_error l j else nth_error l (S j).
Proof.
  intros H. unfold remove_nth. destruct (j <? i)%nat eqn:E.
  - rewrite nth_error_app1 by (rewrite firstn_length; lia). rewrite <- (firstn_skipn i l) at 2.
    rewrite nth_error_app1; [reflexivity|rewrite firstn_length; lia].
  - rewrite nth_error_app2 by (rewrite firstn_length; lia). rewrite firstn_length.
    rewrite nth_error_skipn. f_equal. lia.
Qed.
Lemma remove_nth_length {B} (l : list B) i : (i < length l)%nat -> length (remove_nth i l) = (length l - 1)%nat.
Proof. intros H. unfold remove_nth. rewrite app_length, firstn_length, skipn_length. lia. Qed.

Lemma remove_nth_NoDup {B} (l : list B) i : (i < length l)%nat -> NoDup l -> NoDup (remove_nth i l).
Proof.
  intros H N. rewrite NoDup_nth_error in *. intros a b Ha E. rewrite remove_nth_length in Ha by lia.
  rewrite !nth_error_remove in E by lia.
  destruct (a <? i)%nat eqn:E1, (b <? i)%nat eqn:E2; apply N in E; lia.
Qed.

Lemma ptr_eqb_nth ps i j : NoDup ps -> (i < length ps)%nat -> (j < length ps)%nat ->
  ptr_eqb (nth_error ps i) (nth_error ps j) = (i =? j)%nat.
Proof.
  intros N Hi Hj. destruct (nth_error_lt ps i Hi) as [p Hp], (nth_error_lt ps j Hj) as [q Hq]. rewrite Hp, Hq. cbn.
  destruct (i =? j)%nat eqn:E.
  - assert (i = j) by lia. subst. rewrite Hp in Hq. injection Hq as ->. apply Nat.eqb_refl.
  - apply Nat.eqb_neq. intros ->. assert (i = j) by (eapply NoDup_nth; [exact N| |]; eassumption). lia.
Qed.

Lemma ll_remove_rep s ps l i a : ll_rep s ps l -> 0 <= i -> idx l i = Some a ->
  exists s', ll_remove s i = Ok (a, s') /\ ll_rep s' (remove_nth (Z.to_nat i) ps) (remove_nth (Z.to_nat i) l).
Proof.
  intros R Hi Ha. pose proof R as [Ln Sz Nd Nn Fi La]. pose proof (idx_inv _ _ _ Ha) as Hr.
  unfold ll_remove, assert. rewrite Sz. replace (i <? zlen l) with true by lia. cbn [bind].
  rewrite <- Sz. rewrite (ll_walk_start s ps l) by (auto; lia). cbn [bind]. rewrite Sz.
  unfold zlen in Hr. set (k := Z.to_nat i) in *. assert (Hk : (k < length ps)%nat) by (unfold k; lia).
  destruct (nth_error_lt ps k Hk) as [p Hp]. destruct (Nn k p Hp) as (n & H1 & H2 & H3).
  assert (Ea : n_data n = a).
  { unfold idx in Ha. destruct (i <? 0) in Ha; [discriminate|]. fold k in Ha. congruence. }
  assert (Rl := remove_nth_length l k ltac:(lia)). assert (Rp := remove_nth_length ps k ltac:(lia)).
  assert (Nr := remove_nth_NoDup ps k ltac:(lia) Nd).
  rewrite Fi, ptr_eqb_nth by (auto; lia).
  (* the resulting list is empty iff l is a singleton *)
  destruct (k =? 0)%nat eqn:K0.
  - (* first *)
    assert (k = 0%nat) by lia. rewrite H in *. rewrite Hp. cbn [deref]. rewrite H1. cbn [of_opt bind]. cbn [deref]. rewrite H1. cbn [of_opt bind].
    rewrite Ea. eexists. split; [reflexivity|].
    destruct (zlen l - 1 =? 0) eqn:Z0; unfold zlen in Z0.
    + assert (El : remove_nth 0 l = []) by (apply length_zero_iff_nil; lia).
      assert (Ep : remove_nth 0 ps = []) by (apply length_zero_iff_nil; lia).
      rewrite El, Ep. constructor; cbn [ll_heap ll_first ll_last ll_size length]; auto.
      * unfold zlen. cbn [length]. lia.
      * constructor.
      * intros j q Q. destruct j; discriminate.
    + constructor; cbn [ll_heap ll_first ll_last ll_size].
      * lia.
      * unfold zlen. lia.
      * exact Nr.
      * intros j q Q. rewrite nth_error_remove in Q by lia. cbn [Nat.ltb Nat.leb] in Q.
        destruct (Nn (S j) q Q) as (m & M1 & M2 & M3). exists m. split; [exact M1|]. rewrite !nth_error_remove by lia. cbn [Nat.ltb Nat.leb].
        split; [exact M2|exact M3].
      * rewrite nth_error_remove by lia. cbn [Nat.ltb Nat.leb]. destruct (nth_error_lt ps 1) as [q Hq]; [lia|]. rewrite Hq. auto.
      * rewrite La, Rp, nth_error_remove by lia. cbn [Nat.ltb Nat.leb]. f_equal. lia.
  - rewrite La, ptr_eqb_nth by (auto; lia). destruct (k =? length ps - 1)%nat eqn:K1.
    + (* last *)
      cbn [bind]. rewrite Hp. cbn [deref]. rewrite H1. cbn [of_opt bind]. rewrite Ea.
      replace (zlen l - 1 =? 0) with false by (unfold zlen; lia).
      eexists. split; [reflexivity|].
      constructor; cbn [ll_heap ll_first ll_last ll_size].
      * lia.
      * unfold zlen. lia.
      * exact Nr.
      * intros j q Q. assert (Hj : (j < length (remove_nth k ps))%nat) by (apply nth_error_Some; congruence).
        rewrite nth_error_remove in Q by lia. destruct (j <? k)%nat eqn:Ej; [|lia].
        destruct (Nn j q Q) as (m & M1 & M2 & M3). exists m. split; [exact M1|]. rewrite !nth_error_remove by lia. rewrite Ej. split; [exact M2|].
        intros r Hr2. destruct (S j <? k)%nat eqn:Ej2; [auto|].
        exfalso. assert ((S (S j) < length ps)%nat) by (apply nth_error_Some; congruence). lia.
      * rewrite nth_error_remove by lia. destruct (0 <? k)%nat eqn:Q; [reflexivity|lia].
      * rewrite Rp, nth_error_remove by lia. destruct (_ <? _)%nat eqn:Q; [f_equal; lia|lia].
    + (* middle *)
      rewrite Hp. cbn [deref]. rewrite H1. cbn [of_opt bind].
      destruct (nth_error_lt ps (k - 1)) as [pp Hpp]; [lia|]. destruct (Nn _ pp Hpp) as (np & P1 & P2 & P3).
      destruct (nth_error_lt ps (S k)) as [pn Hpn]; [lia|]. rewrite (H3 pn Hpn).
      unfold set_next. rewrite Hpp, P1. cbn [bind]. cbn [deref].
      assert (Npp : pp <> p) by (intros ->; assert (k - 1 = k)%nat by (eapply NoDup_nth; [exact Nd| |]; eassumption); lia).
      rewrite set_nth_other by lia. rewrite H1. cbn [of_opt bind]. rewrite Ea.
      replace (zlen l - 1 =? 0) with false by (unfold zlen; lia).
      eexists. split; [reflexivity|].
      assert (Bpp : (pp < length (ll_heap s))%nat) by (apply nth_error_Some; congruence).
      constructor; cbn [ll_heap ll_first ll_last ll_size].
      * lia.
      * unfold zlen. lia.
      * exact Nr.
      * intros j q Q. rewrite !nth_error_remove in * by lia.
        assert (SJ : forall r, (if (S j <? k)%nat then nth_error ps (S j) else nth_error ps (S (S j))) = Some r ->
           (if (j <? k)%nat then nth_error ps j else nth_error ps (S j)) = Some q -> True) by auto. clear SJ.
        destruct (j <? k)%nat eqn:Ej.
        -- destruct (Nn j q Q) as (m & M1 & M2 & M3). destruct (Nat.eq_dec q pp) as [->|Nq].
           ++ assert (j = k - 1)%nat by (eapply NoDup_nth; [exact Nd| |]; eassumption). subst j.
              eexists. rewrite set_nth_same by lia. split; [reflexivity|]. cbn [n_data n_next].
              split; [exact P2|]. intros r Hr2. destruct (S (k - 1) <? k)%nat eqn:Ej2; [lia|].
              replace (S (S (k - 1))) with (S k) in Hr2 by lia. congruence.
           ++ exists m. rewrite set_nth_other by lia. split; [exact M1|]. split; [exact M2|].
              intros r Hr2. destruct (S j <? k)%nat eqn:Ej2; [auto|].
              exfalso. apply Nq. assert (j = k - 1)%nat by lia. subst j. congruence.
        -- destruct (Nn (S j) q Q) as (m & M1 & M2 & M3). destruct (Nat.eq_dec q pp) as [->|Nq].
           ++ assert (S j = k - 1)%nat by (eapply NoDup_nth; [exact Nd| |]; eassumption). lia.
           ++ exists m. rewrite set_nth_other by lia. split; [exact M1|]. split; [exact M2|].
              intros r Hr2. destruct (S j <? k)%nat eqn:Ej2; [lia|auto].
      * rewrite nth_error_remove by lia. destruct (0 <? k)%nat eqn:Q; [reflexivity|lia].
      * rewrite Rp, nth_error_remove by lia. destruct (_ <? _)%nat eqn:Q; [lia|f_equal; lia].
Qed.

Definition ll_rel (s : linked_list A) (l : list A) : Prop := exists ps, ll_rep s ps l.

Definition ll_op_ok (o : ll_op A) : Prop :=
  match o with LRemove i | LGet i => 0 <= i | _ => True end.

Lemma remove_nth_out {B} (l : list B) i : (length l <= i)%nat -> remove_nth i l = l.
Proof. intros H. unfold remove_nth. rewrite firstn_all2, skipn_all2, app_nil_r by lia. reflexivity. Qed.

Lemma ll_step_sim s l o : ll_rel s l -> ll_op_ok o ->
  ll_rel (fst (ll_step s o)) (fst (ll_spec l o)) /\ snd (ll_step s o) = snd (ll_spec l o).
Proof.
  intros [ps R] Ho. destruct o as [a|i|i|]; cbn [ll_step ll_spec ll_op_ok] in *.
  - destruct (ll_add_rep s ps l a R) as (s' & ps' & E & R'). rewrite E. cbn [keep fst snd]. split; [exists ps'; exact R'|reflexivity].
  - destruct (idx l i) as [a|] eqn:E.
    + destruct (ll_remove_rep s ps l i a R Ho E) as (s' & E2 & R'). rewrite E2. cbn [keep fst snd opt_res]. split; [eexists; exact R'|reflexivity].
    + assert (zlen l <= i). { destruct (Z.lt_ge_cases i (zlen l)) as [L|L]; [|exact L]. destruct (idx_some l i) as [x Hx]; [lia|congruence]. }
      unfold ll_remove, assert. rewrite (lr_size _ _ _ R). replace (i <? zlen l) with false by lia. cbn [bind keep fst snd opt_res].
      split; [|reflexivity]. exists ps. rewrite remove_nth_out by (unfold zlen in *; lia). exact R.
  - rewrite (ll_get_rep s ps l i R Ho). destruct (idx l i); cbn [keep fst snd opt_res]; (split; [exists ps; exact R|reflexivity]).
  - cbn [fst snd]. rewrite (lr_size _ _ _ R). split; [exists ps; exact R|reflexivity].
Qed.
End LL.

(** * ChainProofs: LinkedList under arbitrary indices refines ChainSpec. *)
From Verif Require Import Base CollectionsModel CollectionsSpec BitSpec RingProofs LinkedListProofs ChainSpec.
Open Scope Z_scope.

Section Chain.
Context {A : Type}.
Implicit Types (h : list (node A)) (p q e : option nat) (cs : list nat) (l : list A).

(** The nodes [cs] with the data [l] are linked from [p] on; behind them comes [e]. *)
Fixpoint linked h p cs l e : Prop :=
  match cs, l with
  | [], [] => p = e
  | c :: cs', x :: l' => p = Some c /\ exists nx, nth_error h c = Some (mkNode x nx) /\ linked h nx cs' l' e
  | _, _ => False
  end.
Lemma linked_len h cs : forall p l e, linked h p cs l e -> length cs = length l.
Proof. induction cs as [|c cs IH]; intros p [|x l] e H; cbn in *; try tauto. destruct H as (_ & nx & _ & H). f_equal. eauto. Qed.
Lemma linked_app h c1 : forall p l1 c2 l2 e, length c1 = length l1 -> (linked h p (c1 ++ c2) (l1 ++ l2) e <-> exists q, linked h p c1 l1 q /\ linked h q c2 l2 e).
Proof.
  induction c1 as [|c c1 IH]; intros p [|x l1] c2 l2 e L; cbn in L; try discriminate; cbn [app linked].
  - split; [intros H; exists p; auto|intros (q & <- & H); exact H].
  - split.
    + intros (-> & nx & N & H). apply IH in H as (q & H1 & H2); [|lia]. exists q. split; [|exact H2]. split; [reflexivity|]. eauto.
    + intros (q & (-> & nx & N & H1) & H2). split; [reflexivity|]. exists nx. split; [exact N|]. apply IH; [lia|]. eauto.
Qed.
Lemma linked_frame h h' cs : forall p l e, (forall c, In c cs -> nth_error h' c = nth_error h c) -> linked h p cs l e -> linked h' p cs l e.
Proof. induction cs as [|c cs IH]; intros p [|x l] e F H; cbn in *; try tauto. destruct H as (-> & nx & N & H). split; [reflexivity|]. exists nx. rewrite F by auto. split; [exact N|]. apply IH; auto. Qed.
Lemma linked_in h cs : forall p l e c, linked h p cs l e -> In c cs -> (c < length h)%nat.
Proof. induction cs as [|d cs IH]; intros p [|x l] e c H I; cbn in *; try tauto. destruct H as (_ & nx & N & H). destruct I as [->|I]; [apply nth_error_Some; congruence|eauto]. Qed.
Lemma linked_head h p cs l e : linked h p cs l e -> cs <> [] -> p = nth_error cs 0.
Proof. destruct cs as [|c cs]; [congruence|]. destruct l; cbn; [tauto|]. intros (-> & _) _. reflexivity. Qed.
Lemma linked_nth h cs : forall p l e j c x, linked h p cs l e -> nth_error cs j = Some c -> nth_error l j = Some x -> exists nx, nth_error h c = Some (mkNode x nx).
Proof. induction cs as [|d cs IH]; intros p [|y l] e [|j] c x H C X; cbn in *; try tauto; try discriminate; destruct H as (_ & nx & N & H); [exists nx; congruence|eauto]. Qed.

(** The walk of Get and Remove makes [m] steps. *)
Lemma walk_linked h i cs : forall m k j prev p l, linked h p cs l None -> (m <= length cs)%nat -> (k = m /\ (i < j \/ j + Z.of_nat m <= i) \/ (m < k)%nat /\ i = j + Z.of_nat m) ->
  ll_walk h k j i prev p = Ok (match m with O => prev | S m' => nth_error cs m' end, nth_error cs m).
Proof.
  induction cs as [|c cs IH]; intros m k j prev p l H L K.
  - assert (m = O) as -> by (cbn in L; lia). destruct l; [|destruct H]. cbn in H. subst p. destruct k as [|k]; cbn [ll_walk]; [reflexivity|]. replace (j =? i) with true by lia. reflexivity.
  - destruct l as [|x l]; [destruct H|]. destruct H as (-> & nx & N & H). destruct m as [|m].
    + destruct k as [|k]; cbn [ll_walk]; [reflexivity|]. replace (j =? i) with true by lia. reflexivity.
    + destruct k as [|k]; [lia|]. cbn [ll_walk]. replace (j =? i) with false by lia. cbn [deref]. rewrite N. cbn [of_opt bind n_next].
      rewrite (IH m k (j + 1) (Some c) nx l H ltac:(cbn in L; lia) ltac:(lia)). destruct m; reflexivity.
Qed.

(** The state of a list: all linked nodes. *)
Record chain_rep (s : linked_list A) cs (x : chain A) : Prop := {
  cr_linked : linked (ll_heap s) (ll_first s) cs (ch_list x ++ ch_hidden x ++ ch_stale x) None;
  cr_nodup : NoDup cs;
  cr_size : ll_size s = zlen (ch_list x);
  cr_last : ll_last s = nth_error cs (length (ch_list x) + length (ch_hidden x) - 1);
  cr_empty : ch_list x = [] -> cs = [] }.
Definition chain_rel s x : Prop := exists cs, chain_rep s cs x.

Lemma chain_rel_new : chain_rel ll_new chain_new.
Proof. exists []. split; cbn; auto. constructor. Qed.
Lemma settle_rep s cs x : (ch_list x <> [] -> chain_rep s cs x) -> chain_rel (if zlen (ch_list x) =? 0 then mkLL (ll_heap s) None None (zlen (ch_list x)) else s) (settle x).
Proof.
  intros R. unfold settle. destruct (Z.eqb_spec (zlen (ch_list x)) 0) as [E|E].
  - exists []. rewrite E. split; cbn; auto. constructor.
  - exists cs. apply R. intros N. rewrite N in E. now apply E.
Qed.

Lemma ptr_nth cs i j : NoDup cs -> (i < length cs)%nat -> ptr_eqb (nth_error cs i) (nth_error cs j) = (i =? j)%nat.
Proof.
  intros N L. destruct (nth_error_lt cs i L) as [a Ea]. destruct (nth_error cs j) as [b|] eqn:Eb; rewrite Ea; cbn [ptr_eqb].
  - destruct (Nat.eqb_spec a b) as [->|D], (Nat.eqb_spec i j) as [->|E]; auto; [|congruence]. destruct E. now apply (LinkedListProofs.NoDup_nth cs i j b).
  - apply nth_error_None in Eb. destruct (Nat.eqb_spec i j); [lia|reflexivity].
Qed.

Lemma nodup_middle {B} (a b : list B) x : NoDup (a ++ x :: b) -> ~ In x a /\ ~ In x b /\ NoDup (a ++ b).
Proof. intros N. pose proof (NoDup_remove_2 _ _ _ N) as M. rewrite in_app_iff in M. split; [tauto|]. split; [tauto|]. now apply NoDup_remove_1 in N. Qed.

(** A node behind the first is unlinked. *)
Lemma linked_cut h p c1 a b c2 l1 x y l2 : linked h p (c1 ++ a :: b :: c2) (l1 ++ x :: y :: l2) None -> length c1 = length l1 -> NoDup (c1 ++ a :: b :: c2) ->
  exists nb, nth_error h b = Some (mkNode y nb) /\ (exists na, nth_error h a = Some (mkNode x na)) /\ linked (set_nth a (mkNode x nb) h) p (c1 ++ a :: c2) (l1 ++ x :: l2) None.
Proof.
  intros H L N. apply linked_app in H as (q & H1 & -> & na & Na & -> & nb & Nb & H2); [|exact L]. exists nb. split; [exact Nb|]. split; [eauto|].
  apply nodup_middle in N as (N1 & N2 & _). apply linked_app; [exact L|]. exists (Some a). split; [eapply linked_frame; [|exact H1]; intros c I; apply set_nth_other; congruence|].
  split; [reflexivity|]. exists nb. split; [apply set_nth_same; apply nth_error_Some; congruence|]. eapply linked_frame; [|exact H2]. intros c I. apply set_nth_other. intros ->. apply N2. now right.
Qed.

Lemma split_nth {B} (l : list B) : forall n, (n < length l)%nat -> exists x, nth_error l n = Some x /\ l = firstn n l ++ x :: skipn (S n) l.
Proof. induction l as [|y l IH]; intros [|n] L; cbn in L; try lia; [exists y; auto|]. destruct (IH n ltac:(lia)) as (x & E & S'). exists x. split; [exact E|]. cbn [firstn skipn app]. f_equal. exact S'. Qed.
Lemma split_two {B} (l : list B) : forall m, (S m < length l)%nat -> exists x y, nth_error l m = Some x /\ nth_error l (S m) = Some y /\ l = firstn m l ++ x :: y :: skipn (S (S m)) l.
Proof. induction l as [|z l IH]; intros [|m] L; cbn in L; try lia. - destruct l as [|y l]; [cbn in L; lia|]. exists z, y. auto. - destruct (IH m ltac:(lia)) as (x & y & E1 & E2 & S'). exists x, y. split; [exact E1|]. split; [exact E2|]. cbn [firstn skipn app]. f_equal. exact S'. Qed.

Lemma firstn_snoc {B} (l : list B) : forall m x, nth_error l m = Some x -> firstn (S m) l = firstn m l ++ [x].
Proof. induction l as [|y l IH]; intros [|m] x E; try discriminate; [injection E as ->; reflexivity|]. cbn [nth_error] in E. cbn [firstn app]. f_equal. now apply IH. Qed.

(** Remove, on all linked nodes: the walk reached node [m]. *)
Lemma remove_at s cs L z i m lp : linked (ll_heap s) (ll_first s) cs L None -> NoDup cs -> ll_size s = z -> ll_last s = nth_error cs lp -> (lp < length cs)%nat -> i < z ->
  (m < length cs)%nat -> (m = Z.to_nat z /\ i < 0 \/ i = Z.of_nat m) ->
  exists x s', nth_error L m = Some x /\ ll_remove s i = Ok (x, if z - 1 =? 0 then mkLL (ll_heap s') None None (z - 1) else s') /\ ll_size s' = z - 1 /\
  let keep := (m =? lp)%nat && negb (m =? 0)%nat in
  linked (ll_heap s') (ll_first s') (if keep then cs else remove_nth m cs) (if keep then L else remove_nth m L) None /\
  ll_last s' = if keep then nth_error cs (m - 1) else nth_error cs lp.
Proof.
  intros H N Z La Lp I M K. pose proof (linked_len _ _ _ _ _ H) as Len. destruct (nth_error_lt L m ltac:(lia)) as [x Ex]. destruct (nth_error_lt cs m M) as [c Ec].
  destruct (linked_nth _ _ _ _ _ _ _ _ H Ec Ex) as [nx Nx]. exists x. unfold ll_remove, assert. rewrite Z. replace (i <? z) with true by lia. cbn [bind].
  rewrite (walk_linked (ll_heap s) i cs m (Z.to_nat z) 0 (ll_first s) (ll_first s) L H) by lia. cbn [bind]. assert (Ef : ll_first s = nth_error cs 0) by (eapply linked_head; [exact H|intros ->; cbn in M; lia]). replace (ptr_eqb (nth_error cs m) (ll_first s)) with (m =? 0)%nat by (rewrite Ef, ptr_nth; auto). rewrite La, ptr_nth by (auto; lia).
  destruct (Nat.eqb_spec m 0) as [->|M0].
  - destruct cs as [|c0 cs]; [cbn in M; lia|]. destruct L as [|x0 L]; [destruct H|]. destruct H as (Ef' & n0 & N0 & H). rewrite Ef'. cbn [deref]. rewrite N0. cbn [of_opt bind nth_error deref n_next n_data]. rewrite N0. cbn [of_opt bind n_data].
    exists (mkLL (ll_heap s) n0 (nth_error (c0 :: cs) lp) (z - 1)). split; [exact Ex|]. cbn in Ex. split; [assert (x0 = x) as -> by congruence; reflexivity|]. split; [reflexivity|]. rewrite andb_false_r. cbn [ll_heap ll_first ll_last remove_nth firstn skipn app]. auto.
  - cbn [negb]. rewrite andb_true_r. destruct m as [|m]; [congruence|]. destruct (Nat.eqb_spec (S m) lp) as [<-|D].
    + cbn [bind]. rewrite Ec. cbn [deref]. rewrite Nx. cbn [of_opt bind n_data]. exists (mkLL (ll_heap s) (ll_first s) (nth_error cs m) (z - 1)). split; [exact Ex|]. split; [reflexivity|]. split; [reflexivity|]. cbn [ll_heap ll_first ll_last]. split; [exact H|]. f_equal. lia.
    + destruct (split_two cs m M) as (a & b & Ea & Eb & Sc). destruct (split_two L m ltac:(lia)) as (xa & xb & Exa & Exb & Sl). assert (b = c) as -> by congruence. assert (xb = x) as -> by congruence.
      pose proof H as H'. pose proof N as N'. rewrite Sc, Sl in H'. rewrite Sc in N'. destruct (linked_cut _ _ _ _ _ _ _ _ _ _ H' ltac:(rewrite !firstn_length; lia) N') as (nb & Nb & (na & Na) & H2).
      rewrite Ec, Ea. cbn [deref]. rewrite Nb. cbn [of_opt bind set_next n_next]. rewrite Na. cbn [bind n_data]. assert (a <> c). { intros ->. assert (m = S m); [|lia]. now apply (LinkedListProofs.NoDup_nth cs m (S m) c). }
      cbn [deref]. rewrite set_nth_other by auto. rewrite Nb. cbn [of_opt bind n_data]. exists (mkLL (set_nth a (mkNode xa nb) (ll_heap s)) (ll_first s) (nth_error cs lp) (z - 1)). split; [exact Ex|]. split; [reflexivity|]. split; [reflexivity|]. cbn [ll_heap ll_first ll_last].
      split; [|reflexivity]. unfold remove_nth.
      rewrite (firstn_snoc cs m a Ea), (firstn_snoc L m xa Exa), <- !app_assoc. exact H2.
Qed.

Lemma NoDup_app_l {B} (a b : list B) : NoDup (a ++ b) -> NoDup a.
Proof. induction a as [|x a IH]; intros N; [constructor|]. cbn in N. apply NoDup_cons_iff in N as [N1 N2]. constructor; [|auto]. intros I. apply N1. apply in_or_app. now left. Qed.
Lemma NoDup_app_snoc {B} (a : list B) x : NoDup a -> ~ In x a -> NoDup (a ++ [x]).
Proof. intros N I. apply (NoDup_Add (a := x) (l := a)); [|now split]. rewrite <- (app_nil_r a) at 1. apply Add_app. Qed.
Lemma list_eq_nil {B} (l : list B) : l = [] \/ l <> [].
Proof. destruct l; [now left|right; congruence]. Qed.
Lemma hide_join (l : list A) : l <> [] -> removelast l ++ (match last_of l with Some x => [x] | None => [] end) = l /\ exists x, last_of l = Some x.
Proof.
  induction l as [|x l IH]; [congruence|]. intros _. destruct l as [|y l]; [split; [reflexivity|now exists x]|]. destruct IH as [E [z Ez]]; [congruence|].
  change (last_of (x :: y :: l)) with (last_of (y :: l)). change (removelast (x :: y :: l)) with (x :: removelast (y :: l)). split; [cbn [app]; now rewrite E|now exists z].
Qed.
Lemma removelast_len {B} (l : list B) : l <> [] -> S (length (removelast l)) = length l.
Proof. destruct l as [|x l]; [congruence|]. intros N. rewrite (app_removelast_last x N) at 2. rewrite app_length. cbn [length]. lia. Qed.
Lemma remove_nth_app {B} (a b : list B) m : (m < length a)%nat -> remove_nth m (a ++ b) = remove_nth m a ++ b.
Proof. intros L. unfold remove_nth. rewrite firstn_app, skipn_app. replace (m - length a)%nat with O by lia. replace (S m - length a)%nat with O by lia. cbn [firstn skipn]. now rewrite app_nil_r, <- app_assoc. Qed.
Lemma remove_nth_mid {B} (a b : list B) x : remove_nth (length a) (a ++ x :: b) = a ++ b.
Proof. unfold remove_nth. rewrite firstn_app, firstn_all, Nat.sub_diag, firstn_O, app_nil_r. f_equal. rewrite skipn_app, skipn_all2 by lia. replace (S (length a) - length a)%nat with 1%nat by lia. reflexivity. Qed.
Lemma remove_last {B} (a : list B) x : nth_error a (length a - 1) = Some x -> a = remove_nth (length a - 1) a ++ [x].
Proof.
  intros E. assert (a <> []) by (intros ->; discriminate). destruct (split_nth a (length a - 1)) as (y & Ey & Sa); [destruct a; [congruence|cbn; lia]|]. assert (y = x) as -> by congruence.
  unfold remove_nth. rewrite (skipn_all2 (n := S (length a - 1))) by (destruct a; cbn in *; lia). rewrite (skipn_all2 (n := S (length a - 1))) in Sa by (destruct a; cbn in *; lia). now rewrite app_nil_r.
Qed.

Lemma chain_remove s x i : chain_rel s x -> chain_rel (fst (ll_step s (LRemove i))) (fst (chain_spec x (LRemove i))) /\ snd (ll_step s (LRemove i)) = snd (chain_spec x (LRemove i)).
Proof.
  destruct x as [l h t]. intros (cs & R). pose proof R as [Rl Rn Rs Ra Re]. cbn [ch_list ch_hidden ch_stale] in *. pose proof (linked_len _ _ _ _ _ Rl) as Len. rewrite !app_length in Len. cbn [ll_step chain_spec].
  assert (Stay : forall r : res (A * linked_list A), r = Panic -> chain_rel (fst (keep s snd (fun y => OElem (fst y)) r)) (mkChain l h t) /\ snd (keep s snd (fun y => OElem (fst y)) r) = Panic) by (intros r ->; cbn [keep fst snd]; split; [exists cs; exact R|reflexivity]).
  destruct (Z.ltb_spec i 0) as [Hi|Hi].
  - assert (Enter : i <? ll_size s = true) by (rewrite Rs; pose proof (zlen_nonneg l); lia).
    destruct (list_eq_nil l) as [->|Nl].
    + apply Stay. rewrite (Re eq_refl) in *. destruct (h ++ t) eqn:Eh; [|destruct Rl]. cbn in Rl. unfold ll_remove, assert. rewrite Enter. cbn [bind]. rewrite Rs, Rl. reflexivity.
    + assert (Pos : (0 < length l)%nat) by (destruct l; [congruence|cbn; lia]).
      assert (Far : (length l < length cs)%nat -> exists x s', nth_error (l ++ h ++ t) (length l) = Some x /\ ll_remove s i = Ok (x, if zlen l - 1 =? 0 then mkLL (ll_heap s') None None (zlen l - 1) else s') /\ ll_size s' = zlen l - 1 /\
        let kp := (length h =? 1)%nat in linked (ll_heap s') (ll_first s') (if kp then cs else remove_nth (length l) cs) (if kp then l ++ h ++ t else remove_nth (length l) (l ++ h ++ t)) None /\
        ll_last s' = if kp then nth_error cs (length l - 1) else nth_error cs (length l + length h - 1)).
      { intros L. destruct (remove_at s cs _ (zlen l) i (length l) (length l + length h - 1)%nat Rl Rn Rs Ra) as (x & s' & Q1 & Q2 & Q3 & Q4); try (unfold zlen; lia).
        exists x, s'. split; [exact Q1|]. split; [exact Q2|]. split; [exact Q3|]. cbv zeta in *. replace ((length l =? length l + length h - 1)%nat && negb (length l =? 0)%nat) with (length h =? 1)%nat in Q4 by lia. exact Q4. }
      assert (Done : forall (x : A) s' (h' t' : list A) cs', zlen l - 1 = zlen (removelast l) -> ll_size s' = zlen l - 1 -> linked (ll_heap s') (ll_first s') cs' (l ++ h' ++ t') None -> NoDup cs' -> ll_last s' = nth_error cs' (length l + length h' - 1) ->
        ll_remove s i = Ok (x, if zlen l - 1 =? 0 then mkLL (ll_heap s') None None (zlen l - 1) else s') ->
        chain_rel (fst (keep s snd (fun y => OElem (fst y)) (ll_remove s i))) (settle (hide l h' t')) /\ snd (keep s snd (fun y => OElem (fst y)) (ll_remove s i)) = Ok (OElem x)).
      { intros x s' h' t' cs' Z1 Z2 K N La ->. cbn [keep fst snd]. split; [|reflexivity]. rewrite Z1. change (removelast l) with (ch_list (hide l h' t')). apply settle_rep with (cs := cs'). intros Nr. destruct (hide_join l Nl) as (J & y & Ey).
        split; unfold hide; cbn [ch_list ch_hidden ch_stale]; auto.
        - rewrite Ey in J |- *. rewrite <- app_assoc, (app_assoc (removelast l)), J. exact K.
        - congruence.
        - rewrite La, Ey. f_equal. pose proof (removelast_len l Nl). cbn [app length]. lia.
        - intros E. unfold hide in Nr. cbn [ch_list] in Nr. congruence. }
      assert (Zr : zlen l - 1 = zlen (removelast l)) by (pose proof (removelast_len l Nl); unfold zlen; lia).
      destruct l as [|l0 l']; [congruence|]. set (l := l0 :: l') in *. destruct h as [|x [|y h']].
      * destruct t as [|x t'].
        -- apply Stay. cbn [length] in *. destruct (nth_error_lt cs 0 ltac:(lia)) as [c0 E0]. destruct (nth_error_lt cs (length l + 0 - 1) ltac:(lia)) as [c1 E1].
           unfold ll_remove, assert. rewrite Enter. cbn [bind]. rewrite (walk_linked (ll_heap s) i cs (length l) (Z.to_nat (ll_size s)) 0 _ _ _ Rl) by (rewrite ?Rs; unfold zlen; lia). cbn [bind].
           replace (nth_error cs (length l)) with (@None nat) by (symmetry; apply nth_error_None; lia). rewrite (linked_head _ _ _ _ _ Rl) by (intros ->; discriminate). rewrite E0, Ra, E1. reflexivity.
        -- destruct Far as (x' & s' & Q1 & Q2 & Q3 & Q4 & Q5); [cbn [length] in Len; lia|]. cbn [length Nat.eqb app] in Q1, Q4, Q5. rewrite nth_error_app2, Nat.sub_diag in Q1 by lia. injection Q1 as <-. rewrite remove_nth_mid in Q4.
           apply (Done x s' [] t' _ Zr Q3 Q4); [apply remove_nth_NoDup; [cbn [length] in Len; lia|exact Rn]| |exact Q2]. rewrite nth_error_remove by (cbn [length] in Len; lia). replace (_ <? length l)%nat with true by (cbn [length]; lia). exact Q5.
      * destruct Far as (x' & s' & Q1 & Q2 & Q3 & Q4 & Q5); [cbn [length] in Len; lia|]. cbn [length Nat.eqb app] in Q1, Q4, Q5. rewrite nth_error_app2, Nat.sub_diag in Q1 by lia. injection Q1 as <-.
        apply (Done x s' [] (x :: t) cs Zr Q3 Q4 Rn); [|exact Q2]. rewrite Q5. f_equal. cbn [length]. lia.
      * destruct Far as (x' & s' & Q1 & Q2 & Q3 & Q4 & Q5); [cbn [length] in Len; lia|]. cbn [length Nat.eqb app] in Q1, Q4, Q5. rewrite nth_error_app2, Nat.sub_diag in Q1 by lia. injection Q1 as <-. rewrite remove_nth_mid in Q4.
        apply (Done x s' (y :: h') t _ Zr Q3 Q4); [apply remove_nth_NoDup; [cbn [length] in Len; lia|exact Rn]| |exact Q2]. rewrite nth_error_remove by (cbn [length] in Len; lia). replace (_ <? length l)%nat with false by (cbn [length]; lia). rewrite Q5. f_equal. cbn [length]. lia.
  - destruct (idx l i) as [x|] eqn:Ex.
    + pose proof (idx_inv _ _ _ Ex) as Hr. assert (Exn : nth_error l (Z.to_nat i) = Some x) by (unfold idx in Ex; destruct (i <? 0); [discriminate|exact Ex]). unfold zlen in Hr.
      destruct (remove_at s cs _ (zlen l) i (Z.to_nat i) (length l + length h - 1)%nat Rl Rn Rs Ra) as (x' & s' & Q1 & Q2 & Q3 & Q4 & Q5); try (unfold zlen; lia).
      rewrite nth_error_app1 in Q1 by lia. assert (x' = x) as -> by congruence. rewrite Q2. cbn [keep fst snd]. split; [|reflexivity].
      set (x1 := mkChain (remove_nth (Z.to_nat i) l) h (if (i =? zlen l - 1) && (zlen h =? 0) then x :: t else t)). assert (Zr : zlen l - 1 = zlen (ch_list x1)) by (cbn [ch_list x1]; unfold zlen; rewrite remove_nth_length by lia; lia).
      rewrite Zr. apply settle_rep with (cs := if (i =? zlen l - 1) && (zlen h =? 0) then cs else remove_nth (Z.to_nat i) cs). intros Nr. assert (2 <= zlen l) by (destruct (ch_list x1) as [|u r]; [congruence|]; rewrite zlen_cons in Zr; pose proof (zlen_nonneg r); lia). unfold zlen in *.
      replace ((Z.to_nat i =? length l + length h - 1)%nat && negb (Z.to_nat i =? 0)%nat) with ((i =? Z.of_nat (length l) - 1) && (Z.of_nat (length h) =? 0)) in * by lia.
      destruct ((i =? Z.of_nat (length l) - 1) && (Z.of_nat (length h) =? 0)) eqn:Kp.
      * assert (h = []) as Eh by (destruct h; [reflexivity|cbn [length] in Kp; lia]). split; [|exact Rn|unfold zlen; rewrite Q3; exact Zr| |]; cbn [ch_list ch_hidden ch_stale x1].
        -- rewrite Eh in *. cbn [app] in *. replace (Z.to_nat i) with (length l - 1)%nat in * by lia. change (x :: t) with ([x] ++ t). rewrite app_assoc, <- (remove_last l x Exn). exact Q4.
        -- rewrite Q5, remove_nth_length by lia. f_equal. rewrite Eh. cbn [length]. lia.
        -- intros E. cbn [ch_list x1] in Nr. congruence.
      * split; [| |unfold zlen; rewrite Q3; exact Zr| |]; cbn [ch_list ch_hidden ch_stale x1].
        -- rewrite remove_nth_app in Q4 by lia. exact Q4.
        -- apply remove_nth_NoDup; [lia|exact Rn].
        -- rewrite Q5, remove_nth_length, nth_error_remove by lia. replace (_ <? Z.to_nat i)%nat with false by lia. f_equal. lia.
        -- intros E. cbn [ch_list x1] in Nr. congruence.
    + apply Stay. unfold ll_remove, assert. assert (zlen l <= i). { destruct (Z.lt_ge_cases i (zlen l)) as [L|L]; [|exact L]. destruct (idx_some l i) as [y Hy]; [lia|congruence]. } rewrite Rs. replace (i <? zlen l) with false by lia. reflexivity.
Qed.

Lemma chain_get s x i : chain_rel s x -> ll_get s i = match (if i <? 0 then match ch_list x with [] => None | _ => first_of (ch_hidden x ++ ch_stale x) end else idx (ch_list x) i) with Some a => Ok a | None => Panic end.
Proof.
  destruct x as [l h t]. intros (cs & R). pose proof R as [Rl Rn Rs Ra Re]. cbn [ch_list ch_hidden ch_stale] in *. pose proof (linked_len _ _ _ _ _ Rl) as Len. rewrite !app_length in Len. unfold ll_get, assert. rewrite Rs.
  assert (Look : forall m, (m <= length cs)%nat -> (m = Z.to_nat (zlen l) /\ i < 0 \/ (m < Z.to_nat (zlen l))%nat /\ i = Z.of_nat m) ->
    ('(_, off) <- ll_walk (ll_heap s) (Z.to_nat (zlen l)) 0 i (ll_first s) (ll_first s);; n <- deref (ll_heap s) off;; Ok (n_data n)) = match nth_error (l ++ h ++ t) m with Some a => Ok a | None => Panic end).
  { intros m L K. rewrite (walk_linked (ll_heap s) i cs m _ 0 _ _ _ Rl L) by lia. cbn [bind]. destruct (nth_error (l ++ h ++ t) m) as [a|] eqn:Ea.
    - destruct (nth_error_lt cs m) as [c Ec]; [assert (m < length (l ++ h ++ t))%nat by (apply nth_error_Some; congruence); rewrite !app_length in *; lia|]. destruct (linked_nth _ _ _ _ _ _ _ _ Rl Ec Ea) as [nx Nx]. rewrite Ec. cbn [deref]. now rewrite Nx.
    - replace (nth_error cs m) with (@None nat); [reflexivity|]. symmetry. apply nth_error_None. apply nth_error_None in Ea. rewrite !app_length in Ea. lia. }
  pose proof (zlen_nonneg l). destruct (Z.ltb_spec i 0) as [Hi|Hi].
  - replace (i <? zlen l) with true by lia. cbn [bind]. rewrite (Look (length l)) by (unfold zlen; lia). destruct l as [|y l].
    + rewrite (Re eq_refl) in Len. destruct h, t; try discriminate. reflexivity.
    + rewrite nth_error_app2, Nat.sub_diag by lia. destruct (h ++ t); reflexivity.
  - destruct (Z.ltb_spec i (zlen l)) as [L|L]; cbn [bind].
    + unfold zlen in L. rewrite (Look (Z.to_nat i)) by (unfold zlen; lia). rewrite nth_error_app1 by lia. unfold idx. replace (i <? 0) with false by lia. reflexivity.
    + rewrite idx_none by lia. reflexivity.
Qed.

Lemma chain_add s x a : chain_rel s x -> exists s', ll_add s a = Ok s' /\ chain_rel s' (fst (chain_spec x (LAdd a))).
Proof.
  destruct x as [l h t]. intros (cs & R). pose proof R as [Rl Rn Rs Ra Re]. cbn [ch_list ch_hidden ch_stale] in *. pose proof (linked_len _ _ _ _ _ Rl) as Len. rewrite !app_length in Len. cbn [chain_spec fst].
  assert (Lx : length (l ++ h ++ [a]) = S (length l + length h)) by (rewrite !app_length; cbn; lia).
  assert (L1 : length (firstn (S (length l)) (l ++ h ++ [a])) = S (length l)) by (rewrite firstn_length; lia). assert (L2 : length (skipn (S (length l)) (l ++ h ++ [a])) = length h) by (rewrite skipn_length; lia).
  assert (Join : firstn (S (length l)) (l ++ h ++ [a]) ++ skipn (S (length l)) (l ++ h ++ [a]) ++ [] = l ++ h ++ [a]) by (rewrite app_nil_r; apply firstn_skipn).
  unfold ll_add. destruct (list_eq_nil l) as [->|Nl].
  - pose proof (Re eq_refl) as ->. destruct h, t; try discriminate. cbn in Ra. rewrite Ra. eexists. split; [reflexivity|]. exists [length (ll_heap s)]. split; cbn; auto.
    + split; [reflexivity|]. exists None. split; [|reflexivity]. rewrite nth_error_app2, Nat.sub_diag by lia. reflexivity.
    + repeat constructor. intros [].
    + rewrite Rs. reflexivity.
    + discriminate.
  - set (lp := (length l + length h - 1)%nat) in *. assert (0 < length l)%nat by (destruct l; [congruence|cbn; lia]).
    destruct (nth_error_lt cs lp ltac:(lia)) as [c Ec]. rewrite Ra, Ec. destruct (nth_error_lt (l ++ h ++ t) lp) as [y Ey]; [rewrite !app_length; lia|]. destruct (linked_nth _ _ _ _ _ _ _ _ Rl Ec Ey) as [nx Nx].
    assert (Cb : (c < length (ll_heap s))%nat) by (apply nth_error_Some; congruence). cbn [set_next]. rewrite nth_error_app1, Nx by lia. cbn [bind n_data]. eexists. split; [reflexivity|].
    exists (firstn (S lp) cs ++ [length (ll_heap s)]). assert (Lf : length (firstn (S lp) cs) = S lp) by (rewrite firstn_length; lia).
    assert (El : l ++ h ++ [a] = firstn (S lp) (l ++ h ++ t) ++ [a]). { rewrite !app_assoc. f_equal. rewrite firstn_app, firstn_all2 by (rewrite app_length; lia). replace (S lp - _)%nat with O by (rewrite app_length; lia). now rewrite firstn_O, app_nil_r. }
    split; cbn [ch_list ch_hidden ch_stale ll_heap ll_first ll_last ll_size].
    + rewrite Join, El, (firstn_snoc cs lp c Ec), (firstn_snoc _ lp y Ey), <- !app_assoc. cbn [app].
      destruct (split_nth cs lp ltac:(lia)) as (c' & Ec' & Sc). destruct (split_nth (l ++ h ++ t) lp) as (y' & Ey' & Sl); [rewrite !app_length; lia|]. assert (c' = c) as -> by congruence. assert (y' = y) as -> by congruence.
      rewrite Sc, Sl in Rl. rewrite Sc in Rn. apply nodup_middle in Rn as (N1 & N2 & _). assert (Lq : length (firstn lp cs) = length (firstn lp (l ++ h ++ t))) by (rewrite !firstn_length, !app_length; lia).
      apply linked_app in Rl as (q & H1 & -> & H2); [|exact Lq]. apply linked_app; [exact Lq|]. exists (Some c). split.
      * eapply linked_frame; [|exact H1]. intros d I. pose proof (linked_in _ _ _ _ _ _ H1 I). rewrite set_nth_other by congruence. rewrite nth_error_app1 by lia. reflexivity.
      * split; [reflexivity|]. exists (Some (length (ll_heap s))). split; [apply set_nth_same; rewrite app_length; lia|]. split; [reflexivity|]. exists None. split; [|reflexivity]. rewrite set_nth_other by lia. rewrite nth_error_app2, Nat.sub_diag by lia. reflexivity.
    + apply NoDup_app_snoc.
      * rewrite <- (firstn_skipn (S lp) cs) in Rn. now apply NoDup_app_l in Rn.
      * intros I. assert (In (length (ll_heap s)) cs) as J by (rewrite <- (firstn_skipn (S lp) cs); apply in_or_app; now left). pose proof (linked_in _ _ _ _ _ _ Rl J). lia.
    + unfold zlen. rewrite L1, Rs. unfold zlen. lia.
    + rewrite L1, L2. rewrite nth_error_app2 by lia. replace (S (length l) + length h - 1 - length (firstn (S lp) cs))%nat with O by lia. reflexivity.
    + intros E. rewrite E in L1. discriminate.
Qed.

Lemma chain_step_sim s x o : chain_rel s x -> chain_rel (fst (ll_step s o)) (fst (chain_spec x o)) /\ snd (ll_step s o) = snd (chain_spec x o).
Proof.
  intros R. destruct o as [a|i|i|]; [| |destruct x as [l h t]|destruct x as [l h t]].
  - destruct (chain_add s x a R) as (s' & E & R'). cbn [ll_step]. rewrite E. cbn [keep fst snd]. split; [exact R'|]. destruct x; reflexivity.
  - now apply chain_remove.
  - cbn [ll_step]. rewrite (chain_get s _ i R). cbn [chain_spec fst snd ch_list ch_hidden ch_stale]. unfold opt_res. destruct (if i <? 0 then _ else _); cbn [keep fst snd]; (split; [exact R|reflexivity]).
  - split; [exact R|]. destruct R as (cs & R). cbn [ll_step chain_spec fst snd]. now rewrite (cr_size _ _ _ R).
Qed.
End Chain.

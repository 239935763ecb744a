(** * RingProofs: RingBuffer and Queue refine plain lists. *)
From Verif Require Import Base CollectionsModel CollectionsSpec.
From Verif Require Import BitSpec.

(** Dispatch of the API on the model.  A panicking call leaves the state as it was (Head, Tail, PopBack
    and Peek check before they write). *)
Definition keep {S A B} (s : S) (f : A -> S) (g : A -> B) (r : res A) : S * res B :=
  match r with
  | Ok a => (f a, Ok (g a))
  | Err => (s, Err)
  | Panic => (s, Panic)
  | NoFuel => (s, NoFuel)
  end.

Definition data_list {A} (d : option (list A) * option (list A)) : list A := opt_list (fst d) ++ opt_list (snd d).

Definition ring_step {A} (zero : A) (r : ring A) (o : ring_op A) : ring A * res (cout A) :=
  match o with
  | RPush a => keep r (fun r' => r') (fun _ => OUnit) (ring_push zero r a)
  | RPop => keep r snd (fun x => OElem (fst x)) (ring_pop zero r)
  | RHead => keep r (fun _ => r) OElem (ring_head r)
  | RTail => keep r (fun _ => r) OElem (ring_tail r)
  | RSize => (r, Ok (ONum (r_size r)))
  | RCapacity => (r, Ok (ONum (r_capacity r)))
  | RIsEmpty => (r, Ok (OBool (ring_is_empty r)))
  | RIsFull => (r, Ok (OBool (ring_is_full r)))
  | RData => keep r (fun _ => r) (fun d => OList (data_list d)) (ring_data r)
  | RClear => (ring_clear r, Ok OUnit)
  end.

Definition queue_step {A} (zero : A) (r : ring A) (o : queue_op A) : ring A * res (cout A) :=
  match o with
  | QPush a => keep r (fun r' => r') (fun _ => OUnit) (queue_push zero r a)
  | QPop => keep r snd (fun x => OElem (fst x)) (ring_pop zero r)
  | QPopBack => keep r snd (fun x => OElem (fst x)) (queue_pop_back r)
  | QPeek i => keep r (fun _ => r) OElem (queue_peek r i)
  | QHead => keep r (fun _ => r) OElem (ring_head r)
  | QTail => keep r (fun _ => r) OElem (ring_tail r)
  | QSize => (r, Ok (ONum (r_size r)))
  | QIsEmpty => (r, Ok (OBool (ring_is_empty r)))
  | QData => keep r (fun _ => r) (fun d => OList (data_list d)) (ring_data r)
  | QClear => (ring_clear r, Ok OUnit)
  end.

(** position p of the ring, 0 <= p < 2c *)
Definition wrap (c p : Z) : Z := if p <? c then p else p - c.

Lemma rem_wrap c p : 0 < c -> 0 <= p < 2 * c -> Z.rem p c = wrap c p.
Proof.
  intros Hc Hp. unfold wrap. rewrite Z.rem_mod_nonneg by lia. destruct (p <? c) eqn:E.
  - apply Z.mod_small. lia.
  - symmetry. apply Z.mod_unique with (q := 1); lia.
Qed.

Record ring_rep {A} (r : ring A) (l : list A) : Prop := {
  rr_cap : 0 < zlen (r_data r);
  rr_head : 0 <= r_head r < zlen (r_data r);
  rr_size : r_size r = zlen l;
  rr_le : zlen l <= zlen (r_data r);
  rr_tail : r_tail r = wrap (zlen (r_data r)) (r_head r + zlen l);
  rr_nth : forall i, 0 <= i < zlen l -> idx (r_data r) (wrap (zlen (r_data r)) (r_head r + i)) = idx l i }.

Lemma idx_set_nth_same {A} (l : list A) i v : 0 <= i < zlen l -> idx (set_nth (Z.to_nat i) v l) i = Some v.
Proof.
  intros H. unfold idx. destruct (i <? 0) eqn:E; [lia|]. apply set_nth_same. unfold zlen in H. lia.
Qed.
Lemma idx_set_nth_other {A} (l : list A) i j v : 0 <= i -> i <> j -> idx (set_nth (Z.to_nat i) v l) j = idx l j.
Proof.
  intros H N. unfold idx. destruct (j <? 0) eqn:E; [reflexivity|]. apply set_nth_other. lia.
Qed.
Lemma zlen_set_nth {A} n v (l : list A) : zlen (set_nth n v l) = zlen l.
Proof. unfold zlen. now rewrite set_nth_length. Qed.

Lemma idx_cons_0 {A} (x : A) l : idx (x :: l) 0 = Some x.
Proof. reflexivity. Qed.
Lemma idx_cons_S {A} (x : A) l i : 0 <= i -> idx (x :: l) (i + 1) = idx l i.
Proof.
  intros H. unfold idx. destruct (i + 1 <? 0) eqn:E; [lia|]. destruct (i <? 0) eqn:E2; [lia|].
  replace (Z.to_nat (i + 1)) with (S (Z.to_nat i)) by lia. reflexivity.
Qed.

Lemma idx_ext {A} (l m : list A) : (forall i, 0 <= i -> idx l i = idx m i) -> l = m.
Proof. intros H. apply nth_error_ext. intros i. specialize (H (Z.of_nat i) ltac:(lia)). now rewrite !idx_nat in H. Qed.

Lemma idx_firstn {A} (l : list A) n i : 0 <= i < n -> idx (firstn (Z.to_nat n) l) i = idx l i.
Proof.
  intros H. unfold idx. destruct (i <? 0) eqn:E; [lia|].
  rewrite <- (firstn_skipn (Z.to_nat n) l) at 2.
  destruct (Nat.lt_ge_cases (Z.to_nat i) (length (firstn (Z.to_nat n) l))) as [L|L].
  - now rewrite nth_error_app1.
  - rewrite firstn_length in L. assert (length l <= Z.to_nat i)%nat by lia.
    rewrite !(proj2 (nth_error_None _ _)); auto.
    + rewrite app_length, firstn_length, skipn_length. lia.
    + rewrite firstn_length. lia.
Qed.

Lemma nth_error_skipn {A} (l : list A) n i : nth_error (skipn n l) i = nth_error l (n + i).
Proof. revert l; induction n as [|n IH]; intros l; [reflexivity|]. destruct l; [destruct i; reflexivity|apply IH]. Qed.

Lemma idx_skipn {A} (l : list A) n i : 0 <= n -> 0 <= i -> idx (skipn (Z.to_nat n) l) i = idx l (n + i).
Proof.
  intros H1 H2. unfold idx. destruct (i <? 0) eqn:E; [lia|]. destruct (n + i <? 0) eqn:E2; [lia|].
  rewrite nth_error_skipn. f_equal. lia.
Qed.

Lemma zlen_firstn {A} (l : list A) n : 0 <= n <= zlen l -> zlen (firstn (Z.to_nat n) l) = n.
Proof. intros H. unfold zlen in *. rewrite firstn_length. lia. Qed.
Lemma zlen_skipn {A} (l : list A) n : 0 <= n <= zlen l -> zlen (skipn (Z.to_nat n) l) = zlen l - n.
Proof. intros H. unfold zlen in *. rewrite skipn_length. lia. Qed.

Lemma idx_map_seg {A} (d l : list A) : zlen d = zlen l -> (forall i, 0 <= i < zlen l -> idx d i = idx l i) -> d = l.
Proof.
  intros L H. apply idx_ext. intros i Hi. destruct (Z.lt_ge_cases i (zlen l)) as [Lt|Ge].
  - apply H. lia.
  - rewrite !idx_none by lia. reflexivity.
Qed.

Lemma last_of_idx {A} (l : list A) : last_of l = idx l (zlen l - 1).
Proof.
  induction l as [|x l IH]; [reflexivity|]. destruct l as [|y l]; [reflexivity|].
  change (last_of (x :: y :: l)) with (last_of (y :: l)). rewrite IH.
  rewrite (zlen_cons x). pose proof (zlen_nonneg l). rewrite !zlen_cons.
  replace (1 + (1 + zlen l) - 1) with ((1 + zlen l - 1) + 1) by lia. rewrite idx_cons_S by lia. reflexivity.
Qed.

Lemma first_of_idx {A} (l : list A) : first_of l = idx l 0.
Proof. destruct l; reflexivity. Qed.

Section Ring.
Context {A : Type} (zero : A).

Lemma ring_clear_rep (r : ring A) l : ring_rep r l -> ring_rep (ring_clear r) [].
Proof.
  intros [C H S L T N]. unfold ring_clear. constructor; cbn [r_data r_head r_tail r_size]; change (zlen (@nil A)) with 0; try lia.
  unfold wrap. cbn [Z.add]. destruct (0 <? zlen (r_data r)) eqn:E; lia.
Qed.

Lemma ring_pop_rep (r : ring A) l : ring_rep r l ->
  exists r', ring_pop zero r = Ok (match l with [] => zero | x :: _ => x end, r') /\ ring_rep r' (tl l) /\
     r_capacity r' = r_capacity r /\ zlen (r_data r') = zlen (r_data r).
Proof.
  intros R. pose proof R as [C H S L T N]. unfold ring_pop, ring_is_empty. rewrite S.
  destruct l as [|x l].
  - exists r. auto.
  - rewrite zlen_cons in *. pose proof (zlen_nonneg l). replace (1 + zlen l =? 0) with false by lia.
    assert (Hx0 : idx (r_data r) (r_head r) = Some x).
    { specialize (N 0 ltac:(lia)). rewrite idx_cons_0 in N. rewrite <- N. unfold wrap. rewrite Z.add_0_r.
      replace (r_head r <? zlen (r_data r)) with true by lia. reflexivity. }
    rewrite Hx0, upd_some by lia. cbn [of_opt bind r_size]. rewrite zlen_set_nth, rem_wrap by lia.
    set (r1 := mkRing _ _ _ _ _).
    assert (R1 : ring_rep r1 l).
    { unfold r1. constructor; cbn [r_data r_head r_tail r_size]; rewrite ?zlen_set_nth; try lia.
      - unfold wrap. destruct (_ <? _) eqn:E; lia.
      - rewrite T. unfold wrap. repeat match goal with |- context [?a <? ?b] => destruct (a <? b) eqn:? end; lia.
      - intros i Hi. rewrite idx_set_nth_other.
        + specialize (N (i + 1) ltac:(lia)). rewrite idx_cons_S in N by lia. rewrite <- N. f_equal.
          unfold wrap. repeat match goal with |- context [?a <? ?b] => destruct (a <? b) eqn:? end; lia.
        + lia.
        + unfold wrap. repeat match goal with |- context [?a <? ?b] => destruct (a <? b) eqn:? end; lia. }
    eexists. split; [reflexivity|]. cbn [tl].
    destruct (1 + zlen l - 1 =? 0) eqn:E.
    + assert (l = []) as -> by (apply zlen_zero_nil; lia). split; [eapply ring_clear_rep; eauto|].
      unfold r1. cbn [ring_clear r_capacity r_data]. rewrite zlen_set_nth. auto.
    + split; [exact R1|]. unfold r1. cbn. rewrite zlen_set_nth. auto.
Qed.

(** writing at the tail of a ring that is not full *)
Lemma ring_put_rep (r : ring A) l a : ring_rep r l -> zlen l < zlen (r_data r) ->
  exists d, upd (r_data r) (r_tail r) a = Some d /\ zlen d = zlen (r_data r) /\
  ring_rep (mkRing d (r_head r) (Z.rem (r_tail r + 1) (zlen d)) (r_size r + 1) (r_capacity r)) (l ++ [a]).
Proof.
  intros [C H S L T N] Lt. pose proof (zlen_nonneg l).
  assert (Ht : 0 <= r_tail r < zlen (r_data r)).
  { rewrite T. unfold wrap. destruct (_ <? _) eqn:E; lia. }
  rewrite upd_some by lia. eexists. split; [reflexivity|]. rewrite zlen_set_nth. split; [reflexivity|].
  rewrite rem_wrap by lia.
  constructor; cbn [r_data r_head r_tail r_size]; rewrite ?zlen_set_nth, ?zlen_app; change (zlen [a]) with 1; try lia.
  - rewrite T. unfold wrap. repeat match goal with |- context [?a <? ?b] => destruct (a <? b) eqn:? end; lia.
  - intros i Hi. destruct (Z.eq_dec i (zlen l)) as [->|Ne].
    + rewrite idx_app_r by lia. rewrite Z.sub_diag, idx_cons_0. rewrite <- T. apply idx_set_nth_same. lia.
    + rewrite idx_app_l by lia. rewrite idx_set_nth_other; [apply N; lia|lia|].
      rewrite T. unfold wrap. repeat match goal with |- context [?a <? ?b] => destruct (a <? b) eqn:? end; lia.
Qed.

Lemma ring_push_rep (r : ring A) l a : ring_rep r l ->
  exists r', ring_push zero r a = Ok r' /\
    ring_rep r' (if zlen (l ++ [a]) >? zlen (r_data r) then tl (l ++ [a]) else l ++ [a]) /\
    r_capacity r' = r_capacity r /\ zlen (r_data r') = zlen (r_data r).
Proof.
  intros R. pose proof R as [C H S L T N]. unfold ring_push, ring_is_full. rewrite S.
  rewrite zlen_app, zlen_cons, zlen_nil. pose proof (zlen_nonneg l).
  destruct (zlen l =? zlen (r_data r)) eqn:E.
  - destruct (ring_pop_rep r l R) as (r1 & P & R1 & Cp & Lp). rewrite P. cbn [bind].
    replace (zlen l + (1 + 0) >? zlen (r_data r)) with true by lia.
    destruct l as [|x l]; [rewrite zlen_nil in E; lia|]. cbn [tl app] in *. rewrite zlen_cons in *.
    destruct (ring_put_rep r1 l a R1) as (d & U & Ld & R2); [lia|].
    rewrite U. cbn [of_opt bind]. eexists. split; [reflexivity|]. split; [exact R2|]. cbn. split; congruence.
  - cbn [bind]. replace (zlen l + (1 + 0) >? zlen (r_data r)) with false by lia.
    destruct (ring_put_rep r l a R) as (d & U & Ld & R2); [lia|].
    rewrite U. cbn [of_opt bind]. eexists. split; [reflexivity|]. split; [exact R2|]. cbn. split; congruence.
Qed.

Lemma ring_head_rep (r : ring A) l : ring_rep r l ->
  ring_head r = match first_of l with Some a => Ok a | None => Panic end.
Proof.
  intros [C H S L T N]. unfold ring_head, ring_is_empty, assert. rewrite S. destruct l as [|x l].
  - reflexivity.
  - rewrite zlen_cons in *. pose proof (zlen_nonneg l). replace (1 + zlen l =? 0) with false by lia. cbn [negb bind first_of].
    specialize (N 0 ltac:(lia)). rewrite idx_cons_0 in N. unfold wrap in N. rewrite Z.add_0_r in N.
    replace (r_head r <? zlen (r_data r)) with true in N by lia. now rewrite N.
Qed.

Lemma ring_tail_rep (r : ring A) l : ring_rep r l ->
  ring_tail r = match last_of l with Some a => Ok a | None => Panic end.
Proof.
  intros [C H S L T N]. unfold ring_tail, ring_is_empty, assert. rewrite S, last_of_idx.
  destruct (zlen l =? 0) eqn:E; cbn [negb bind].
  - rewrite idx_none by lia. reflexivity.
  - pose proof (zlen_nonneg l). specialize (N (zlen l - 1) ltac:(lia)). rewrite <- N.
    replace (match idx (r_data r) (wrap (zlen (r_data r)) (r_head r + (zlen l - 1))) with Some a => Ok a | None => Panic end)
      with (of_opt (idx (r_data r) (wrap (zlen (r_data r)) (r_head r + (zlen l - 1))))) by reflexivity.
    rewrite T. unfold wrap. repeat match goal with |- context [?a <? ?b] => destruct (a <? b) eqn:? end; try lia;
    destruct (_ >? 0) eqn:?; do 2 f_equal; lia.
Qed.

Lemma ring_data_rep (r : ring A) l : ring_rep r l ->
  exists h t, ring_data r = Ok (h, t) /\ opt_list h ++ opt_list t = l /\ (l <> [] -> h <> None).
Proof.
  intros [C H S L T N]. pose proof (zlen_nonneg l). unfold ring_data. rewrite S.
  destruct (zlen l =? 0) eqn:E.
  - do 2 eexists. split; [reflexivity|]. split; [|intros Q; exfalso; apply Q; apply zlen_zero_nil; lia].
    symmetry. apply zlen_zero_nil. lia.
  - destruct (r_tail r <=? r_head r) eqn:E2.
    + assert (HT : r_tail r = r_head r + zlen l - zlen (r_data r) /\ r_head r + zlen l >= zlen (r_data r)).
      { rewrite T in *. unfold wrap in *. destruct (_ <? _) eqn:?; lia. }
      rewrite slice_from_some by lia. cbn [of_opt bind]. rewrite slice_some by lia. cbn [of_opt bind].
      do 2 eexists. split; [reflexivity|]. cbn [opt_list]. split; [|discriminate].
      apply idx_map_seg.
      * rewrite zlen_app, zlen_skipn, Z.sub_0_r, zlen_firstn by (try rewrite zlen_skipn; lia). lia.
      * intros i Hi. rewrite <- N by lia. destruct (Z.lt_ge_cases (r_head r + i) (zlen (r_data r))) as [Lt|Ge].
        -- rewrite idx_app_l by (rewrite zlen_skipn; lia). rewrite idx_skipn by lia.
           unfold wrap. destruct (_ <? _) eqn:?; [reflexivity|lia].
        -- rewrite idx_app_r by (rewrite zlen_skipn; lia). rewrite zlen_skipn by lia.
           rewrite Z.sub_0_r, idx_firstn by lia. change (Z.to_nat 0) with 0%nat. rewrite skipn_O.
           unfold wrap. destruct (_ <? _) eqn:?; [lia|]. f_equal. lia.
    + assert (HT : r_tail r = r_head r + zlen l /\ r_head r + zlen l < zlen (r_data r)).
      { rewrite T in *. unfold wrap in *. destruct (_ <? _) eqn:?; lia. }
      rewrite slice_some by lia. cbn [of_opt bind].
      do 2 eexists. split; [reflexivity|]. cbn [opt_list]. split; [|discriminate]. rewrite app_nil_r.
      apply idx_map_seg.
      * rewrite zlen_firstn by (rewrite zlen_skipn; lia). lia.
      * intros i Hi. rewrite idx_firstn by lia. rewrite idx_skipn by lia. rewrite <- N by lia.
        unfold wrap. destruct (_ <? _) eqn:?; [reflexivity|lia].
Qed.

Lemma ring_new_rep c : 0 < c -> exists r, ring_new zero c = Ok r /\ ring_rep r [] /\ r_capacity r = c /\ zlen (r_data r) = c.
Proof.
  intros H. unfold ring_new, assert. replace (c >? 0) with true by lia. cbn [bind]. eexists. split; [reflexivity|].
  assert (E : zlen (repeat zero (Z.to_nat c)) = c) by (unfold zlen; rewrite repeat_length; lia).
  split; [|split; [reflexivity|exact E]].
  constructor; cbn [r_data r_head r_tail r_size]; rewrite ?E; change (zlen (@nil A)) with 0; try lia.
  unfold wrap. cbn [Z.add]. destruct (0 <? c) eqn:Q; lia.
Qed.

Definition ring_rel (c : Z) (r : ring A) (l : list A) : Prop :=
  ring_rep r l /\ r_capacity r = c /\ zlen (r_data r) = c.

Lemma ring_step_sim c r l o : ring_rel c r l ->
  ring_rel c (fst (ring_step zero r o)) (fst (ring_spec zero c l o)) /\
  snd (ring_step zero r o) = snd (ring_spec zero c l o).
Proof.
  intros (R & Cp & Lc). pose proof R as [C H S L T N]. destruct o as [a| | | | | | | | |]; cbn [ring_step ring_spec].
  - destruct (ring_push_rep r l a R) as (r' & P & R' & C' & L'). rewrite P. cbn [keep fst snd].
    rewrite Lc in R'. split; [|reflexivity]. unfold ring_rel. split; [|split; congruence].
    destruct (zlen (l ++ [a]) >? c); exact R'.
  - destruct (ring_pop_rep r l R) as (r' & P & R' & C' & L'). rewrite P. cbn [keep fst snd].
    unfold ring_rel. destruct l; cbn [fst snd tl] in *; (split; [|reflexivity]); (split; [exact R'|split; congruence]).
  - rewrite (ring_head_rep r l R). destruct (first_of l); cbn [keep fst snd opt_res]; unfold ring_rel; auto.
  - rewrite (ring_tail_rep r l R). destruct (last_of l); cbn [keep fst snd opt_res]; unfold ring_rel; auto.
  - cbn [fst snd]. rewrite S. unfold ring_rel; auto.
  - cbn [fst snd]. rewrite Cp. unfold ring_rel; auto.
  - cbn [fst snd]. unfold ring_is_empty. rewrite S. unfold ring_rel; auto.
  - cbn [fst snd]. unfold ring_is_full. rewrite S, Lc. unfold ring_rel; auto.
  - destruct (ring_data_rep r l R) as (h & t & D & E & _). rewrite D. cbn [keep fst snd]. unfold data_list. cbn [fst snd]. rewrite E. unfold ring_rel; auto.
  - cbn [fst snd]. unfold ring_rel. split; [|reflexivity]. split; [eapply ring_clear_rep; eauto|]. cbn. auto.
Qed.

(** *** Queue *)

Lemma queue_push_rep (q : ring A) l a : ring_rep q l ->
  exists q', queue_push zero q a = Ok q' /\ ring_rep q' (l ++ [a]).
Proof.
  intros R. pose proof R as [C H S L T N]. unfold queue_push, ring_is_full. rewrite S.
  pose proof (zlen_nonneg l).
  destruct (zlen l =? zlen (r_data q)) eqn:E.
  - destruct (ring_data_rep q l R) as (h & t & D & Cc & _). rewrite D. cbn [bind].
    set (na := repeat zero (Z.to_nat (zlen l * 2))).
    assert (Ln : length na = (2 * length l)%nat) by (unfold na; rewrite repeat_length; unfold zlen; lia).
    assert (Lc : length l = (length (opt_list h) + length (opt_list t))%nat) by (rewrite <- Cc, app_length; reflexivity).
    assert (A2 : exists a2, match t with Some t0 => of_opt (copy_at (copy na (opt_list h)) (zlen (opt_list h)) t0) | None => Ok (copy na (opt_list h)) end = Ok a2 /\
        a2 = l ++ skipn (length l) na).
    { rewrite copy_fits by lia. rewrite <- Cc. destruct t as [t0|]; cbn [opt_list] in *.
      - assert (Sp : skipn (length (opt_list h)) na = firstn (length t0) (skipn (length (opt_list h)) na) ++ skipn (length l) na).
        { rewrite <- (firstn_skipn (length t0) (skipn (length (opt_list h)) na)) at 1. rewrite skipn_skipn, <- Lc. reflexivity. }
        rewrite Sp. rewrite copy_at_app by (rewrite firstn_length, skipn_length; lia). cbn [of_opt].
        eexists. split; [reflexivity|]. rewrite Cc, app_assoc, Cc. reflexivity.
      - eexists. split; [reflexivity|]. rewrite app_nil_r. reflexivity. }
    destruct A2 as (a2 & -> & ->). cbn [bind].
    set (q1 := mkRing _ _ _ _ _).
    assert (L2 : zlen (r_data q1) = 2 * zlen l).
    { unfold q1. cbn [r_data]. unfold zlen. rewrite app_length, skipn_length. lia. }
    assert (R1 : ring_rep q1 l).
    { constructor; try rewrite L2; unfold q1; cbn [r_head r_tail r_size r_data]; try lia.
      - unfold wrap. destruct (_ <? _) eqn:?; lia.
      - intros i Hi. unfold wrap. destruct (_ <? _) eqn:?; [|lia]. rewrite Z.add_0_l. apply idx_app_l. lia. }
    destruct (ring_put_rep q1 l a R1) as (d & U & Ld & R2); [lia|]. rewrite U. cbn [of_opt bind].
    eexists. split; [reflexivity|]. exact R2.
  - cbn [bind]. destruct (ring_put_rep q l a R) as (d & U & Ld & R2); [lia|]. rewrite U. cbn [of_opt bind].
    eexists. split; [reflexivity|]. exact R2.
Qed.

Lemma removelast_firstn_len {B} (l : list B) : removelast l = firstn (Z.to_nat (zlen l - 1)) l.
Proof. rewrite removelast_firstn_len. f_equal. unfold zlen. lia. Qed.

Lemma queue_pop_back_rep (q : ring A) l : ring_rep q l -> l <> [] ->
  exists q' x, queue_pop_back q = Ok (x, q') /\ last_of l = Some x /\ ring_rep q' (removelast l).
Proof.
  intros R Hl. pose proof R as [C H S L T N]. unfold queue_pop_back, assert. rewrite S.
  assert (0 < zlen l). { pose proof (zlen_nonneg l). destruct (Z.eq_dec (zlen l) 0) as [E|]; [apply zlen_zero_nil in E; congruence|lia]. }
  replace (zlen l >? 0) with true by lia. cbn [bind]. rewrite (ring_tail_rep q l R).
  destruct (last_of l) as [x|] eqn:Lx; [|rewrite last_of_idx in Lx; destruct (idx_some l (zlen l - 1)) as [? Q]; [lia|congruence]].
  cbn [bind r_size]. rewrite rem_wrap.
  2:{ lia. } 2:{ rewrite T. unfold wrap. destruct (_ <? _) eqn:?; lia. }
  set (q1 := mkRing _ _ _ _ _).
  assert (Lr : zlen (removelast l) = zlen l - 1) by (rewrite removelast_firstn_len, zlen_firstn; lia).
  assert (R1 : ring_rep q1 (removelast l)).
  { unfold q1. constructor; cbn [r_data r_head r_tail r_size]; rewrite ?Lr; try lia.
    - rewrite T. unfold wrap. repeat match goal with |- context [?a <? ?b] => destruct (a <? b) eqn:? end; lia.
    - intros i Hi. rewrite N by lia. rewrite removelast_firstn_len, idx_firstn by lia. reflexivity. }
  do 2 eexists. split; [reflexivity|]. split; [reflexivity|].
  destruct (zlen l - 1 =? 0) eqn:E; [|exact R1].
  assert (Er : removelast l = []) by (apply zlen_zero_nil; lia). rewrite Er in *. eapply ring_clear_rep; eauto.
Qed.

Lemma queue_peek_rep (q : ring A) l i : ring_rep q l ->
  queue_peek q i = match idx l i with Some a => Ok a | None => Panic end.
Proof.
  intros R. unfold queue_peek. destruct (ring_data_rep q l R) as (h & t & D & E & _). rewrite D. cbn [bind].
  rewrite <- E. destruct (i <? zlen (opt_list h)) eqn:Q.
  - rewrite idx_app_l by lia. reflexivity.
  - rewrite idx_app_r by lia. reflexivity.
Qed.

Lemma queue_new_rep c : 0 < c -> exists r, queue_new zero c = Ok r /\ ring_rep r [].
Proof.
  intros H. destruct (ring_new_rep c H) as (r & E & R & _). unfold ring_new, queue_new in *.
  destruct (assert (c >? 0)); try discriminate. cbn [bind] in *. injection E as <-.
  eexists. split; [reflexivity|]. destruct R as [C H1 S L T N]. constructor; auto.
Qed.

Lemma queue_step_sim q l o : ring_rep q l ->
  ring_rep (fst (queue_step zero q o)) (fst (queue_spec zero l o)) /\
  snd (queue_step zero q o) = snd (queue_spec zero l o).
Proof.
  intros R. pose proof R as [C H S L T N]. destruct o as [a| | |i| | | | | |]; cbn [queue_step queue_spec].
  - destruct (queue_push_rep q l a R) as (r' & P & R'). rewrite P. cbn [keep fst snd]. auto.
  - destruct (ring_pop_rep q l R) as (r' & P & R' & _). rewrite P. cbn [keep fst snd].
    destruct l; cbn [fst snd tl] in *; auto.
  - destruct l as [|x l].
    + unfold queue_pop_back, assert. rewrite S, zlen_nil. cbn [Z.gtb Z.compare bind keep fst snd removelast last_of opt_res]. auto.
    + destruct (queue_pop_back_rep q (x :: l) R) as (q' & y & P & E & R'); [discriminate|]. rewrite P, E. cbn [keep fst snd opt_res]. auto.
  - rewrite (queue_peek_rep q l i R). destruct (idx l i); cbn [keep fst snd opt_res]; auto.
  - rewrite (ring_head_rep q l R). destruct (first_of l); cbn [keep fst snd opt_res]; auto.
  - rewrite (ring_tail_rep q l R). destruct (last_of l); cbn [keep fst snd opt_res]; auto.
  - cbn [fst snd]. rewrite S. auto.
  - cbn [fst snd]. unfold ring_is_empty. rewrite S. auto.
  - destruct (ring_data_rep q l R) as (h & t & D & E & _). rewrite D. cbn [keep fst snd]. unfold data_list. cbn [fst snd]. rewrite E. auto.
  - cbn [fst snd]. split; [eapply ring_clear_rep; eauto|reflexivity].
Qed.

End Ring.

(** * RoomProofs: a ring that is at most half full neither grows nor overwrites. *)
From Verif Require Import Base CollectionsSpec BlockModel BlockSpec HeapProofs DirectProofs RBProofs RoomSpec.

(** Blocks without gaps. *)
Fixpoint tight (lo : Z) (l : list (Z * Z)) (hi : Z) : Prop :=
  match l with
  | [] => lo = hi
  | (i, n) :: t => i = lo /\ 0 <= n /\ tight (lo + n) t hi
  end.
Fixpoint total (l : list (Z * Z)) : Z := match l with [] => 0 | (_, n) :: t => n + total t end.

Lemma tight_total l : forall lo hi, tight lo l hi -> hi = lo + total l /\ 0 <= total l.
Proof. induction l as [|[i n] l IH]; intros lo hi H; cbn in *; [lia|]. destruct H as (_ & H1 & H2). apply IH in H2. lia. Qed.
Lemma tight_app l m : forall lo hi, tight lo (l ++ m) hi <-> exists mid, tight lo l mid /\ tight mid m hi.
Proof.
  induction l as [|[i n] l IH]; intros lo hi; cbn [app tight].
  - split; [intros H; exists lo; auto|intros (mid & -> & B); auto].
  - rewrite IH. split; [intros (A & B & mid & C & D); eauto 6|intros (mid & (A & B & C) & D); eauto 6].
Qed.
Lemma tight_snoc l i n lo hi : tight lo (l ++ [(i, n)]) hi <-> tight lo l i /\ 0 <= n /\ i + n = hi.
Proof.
  rewrite tight_app. cbn [tight]. split; [intros (mid & A & -> & C & D); auto|intros (A & B & C); exists i; auto].
Qed.
Lemma total_app l m : total (l ++ m) = total l + total m.
Proof. induction l as [|[i n] l IH]; cbn [app total]; [lia|]. rewrite IH. lia. Qed.

(** Either the blocks lie in one piece, or they wrap around; when they wrap (or did so before a PopBack), the oldest block lies in
    the upper half. *)
Definition room (cap capc : Z) (B : list (Z * Z)) : Prop :=
  exists L1 L2 hd e t, B = L1 ++ L2 /\ 0 <= hd /\ tight hd L1 e /\ tight 0 L2 t /\ e <= cap /\ capc <= cap /\
    ((L2 = [] /\ (zlen B <= 1 \/ e <= capc /\ (capc = cap \/ cap < 2 * hd))) \/
     (L1 <> [] /\ L2 <> [] /\ t < hd /\ e = capc /\ cap < 2 * hd)).

Lemma room_nil cap capc : 0 <= cap -> capc <= cap -> room cap capc [].
Proof. intros. exists [], [], 0, 0, 0. cbn. repeat split; auto; try lia. left. split; [reflexivity|]. left. cbn. lia. Qed.

Lemma room_tl cap capc capc' B : room cap capc B ->
  capc' = (match tl B with [] => cap | (i, _) :: _ => if i =? 0 then cap else capc end) -> room cap capc' (tl B).
Proof.
  intros (L1 & L2 & hd & e & t & -> & H0 & T1 & T2 & He & Hc & D) E.
  pose proof (tight_total _ _ _ T1) as (X1 & X1'). pose proof (tight_total _ _ _ T2) as (X2 & X2').
  destruct D as [(-> & D)|(N1 & N2 & Lt & -> & Hh)].
  - rewrite app_nil_r in *. destruct L1 as [|[i n] L1]; cbn [tl] in *; [apply room_nil; lia|].
    cbn in T1. destruct T1 as (-> & Hn & T1). pose proof (tight_total _ _ _ T1) as (X3 & X3').
    exists L1, [], (hd + n), e, 0. rewrite app_nil_r. cbn [tight]. repeat split; auto; try lia.
    + destruct L1 as [|[j m] L1]; [lia|]. destruct (j =? 0); lia.
    + left. split; [reflexivity|]. destruct D as [D|(D1 & D2)].
      * left. rewrite zlen_cons in D. lia.
      * destruct L1 as [|[j m] L1]; [left; cbn; lia|]. right. destruct (j =? 0); [lia|]. lia.
  - destruct L1 as [|[i n] L1]; [congruence|]. cbn in T1. destruct T1 as (-> & Hn & T1). cbn [app tl] in *. destruct L1 as [|[j m] L1].
    + cbn [app] in *. destruct L2 as [|[j m] L2]; [congruence|]. cbn in T2. destruct T2 as (-> & Hm & T2). cbn in E. subst capc'.
      exists ((0, m) :: L2), [], 0, t, 0. rewrite app_nil_r. cbn in *. repeat split; auto; try lia.
      left. split; [reflexivity|]. right. lia.
    + cbn [app] in E. pose proof T1 as T1'. cbn in T1'. destruct T1' as (-> & Hm & _). destruct (Z.eqb_spec (hd + n) 0); [lia|]. subst capc'.
      exists ((hd + n, m) :: L1), L2, (hd + n), capc, t. repeat split; auto; try lia; try (cbn in T1; tauto).
      right. repeat split; auto; try lia. discriminate.
Qed.

Lemma room_removelast cap capc B g : room cap capc (B ++ [g]) -> room cap capc B.
Proof.
  intros (L1 & L2 & hd & e & t & E & H0 & T1 & T2 & He & Hc & D).
  destruct D as [(-> & D)|(N1 & N2 & Lt & -> & Hh)].
  - rewrite app_nil_r in E. subst L1. destruct g as [i n]. apply tight_snoc in T1 as (T1 & Hn & Hi).
    exists B, [], hd, i, 0. rewrite app_nil_r. cbn [tight]. repeat split; auto; try lia. left. split; [reflexivity|].
    rewrite zlen_app in D. change (zlen [(i, n)]) with 1 in D. pose proof (zlen_nonneg B). lia.
  - destruct (snoc_cases L2) as [->|(f & [i n] & ->)]; [congruence|]. rewrite app_assoc in E. apply app_inj_tail in E as [-> ->].
    apply tight_snoc in T2 as (T2 & Hn & Hi). exists L1, f, hd, capc, i. repeat split; auto; try lia.
    destruct f as [|x f]; [left|right].
    + split; [reflexivity|]. right. lia.
    + repeat split; auto; try lia. discriminate.
Qed.

Lemma geo_snoc f k : map geo (f ++ [k]) = map geo f ++ [(bk_index k, bk_size k)].
Proof. now rewrite map_app. Qed.
Lemma tight_ends l : forall lo hi i n, tight lo (l ++ [(i, n)]) hi -> lo <= i.
Proof. intros lo hi i n T. apply tight_snoc in T as (T & _ & _). apply tight_total in T. lia. Qed.

(** What the write sees: head and tail in terms of the layout. *)
Lemma room_pick h r head tail c front ob : rb_wf h r -> rb_pick r = (head, tail, c, front, ob) ->
  room (s_len (d_data (rb_d r))) (rb_capacity r) (map geo (d_blocks (rb_d r))) ->
  total (map geo (front ++ [ob])) = total (map geo (d_blocks (rb_d r))) /\
  ((tight head (map geo (front ++ [ob])) tail /\ tail <= c /\ (c = s_len (d_data (rb_d r)) \/ s_len (d_data (rb_d r)) < 2 * head)) \/
   (exists L1 L2, L1 <> [] /\ map geo front = L1 ++ L2 /\ tight head L1 (rb_capacity r) /\ tight 0 (L2 ++ [(bk_index ob, bk_size ob)]) tail /\
      c = rb_capacity r /\ tail < head /\ s_len (d_data (rb_d r)) < 2 * head)).
Proof.
  intros W E R. pose proof W as (V & S & C & D & F).
  unfold rb_pick in E. destruct (snoc_cases (d_blocks (rb_d r))) as [X|(fr & k & X)]; rewrite X in *.
  - cbn [last_of] in E. injection E as <- <- <- <- <-. split; [reflexivity|]. left. cbn. repeat split; lia.
  - rewrite last_of_snoc, first_of_snoc in E. set (hd0 := match fr with [] => k | y :: _ => y end) in *.
    set (cap := s_len (d_data (rb_d r))) in *. set (c0 := if zlen (fr ++ [k]) =? 1 then cap else rb_capacity r) in *.
    assert (G : exists front' ob', (head, tail, c, front, ob) = (bk_index hd0, bk_index k + bk_size k, c0, front', ob') /\
              ((front' = fr ++ [k] /\ ob' = mkBlock (bk_index k + bk_size k) 0 false) \/ (front' = fr /\ ob' = k))).
    { destruct (bk_completed k); [|rewrite removelast_snoc in E]; injection E as <- <- <- <- <-; eauto 8. }
    clear E. destruct G as (front' & ob' & G & Q). injection G as -> -> -> -> ->.
    assert (Tt : total (map geo (front' ++ [ob'])) = total (map geo (fr ++ [k]))).
    { destruct Q as [(-> & ->)|(-> & ->)]; [|reflexivity]. rewrite geo_snoc, total_app. cbn. lia. }
    split; [exact Tt|].
    destruct R as (L1 & L2 & hd & e & t & EB & H0 & T1 & T2 & He & Hc & Dj).
    destruct Dj as [(-> & Dj)|(N1 & N2 & Lt & -> & Hh)].
    + left. rewrite app_nil_r in EB. subst L1. rewrite geo_snoc in T1. pose proof T1 as T1'. apply tight_snoc in T1' as (Ta & Hn & Hi).
      assert (Eh : bk_index hd0 = hd).
      { destruct fr as [|y fr]; cbn [hd0] in *; subst hd0; cbn in T1; [tauto|]. cbn [map app tight] in T1. unfold geo in T1 at 1. tauto. }
      rewrite Eh. split.
      * destruct Q as [(-> & ->)|(-> & ->)]; rewrite !geo_snoc; cbn [bk_index bk_size]; apply tight_snoc.
        -- split; [|lia]. rewrite Hi. exact T1.
        -- auto.
      * subst c0. rewrite zlen_app. change (zlen [k]) with 1. unfold zlen at 1 in Dj. rewrite map_length, app_length in Dj. cbn [length] in Dj.
        pose proof (zlen_nonneg fr). unfold zlen in *. destruct (_ =? 1) eqn:Z1; [split; [lia|left; reflexivity]|]. destruct Dj as [Dj|Dj]; [lia|]. lia.
    + right. rewrite geo_snoc in EB. destruct (snoc_cases L2) as [->|(f & [i n] & ->)]; [congruence|]. rewrite app_assoc in EB. apply app_inj_tail in EB as [EB Ek].
      injection Ek as <- <-. pose proof T2 as T2'. apply tight_snoc in T2' as (Ta & Hn & Hi).
      assert (Eh : bk_index hd0 = hd).
      { destruct L1 as [|[i1 n1] L1]; [congruence|]. destruct fr as [|y fr]; [discriminate|]. cbn in EB. injection EB as Ey _ _. cbn in T1. subst hd0. cbn. destruct T1 as (-> & _). exact Ey. }
      assert (Ec : c0 = rb_capacity r).
      { subst c0. rewrite zlen_app. change (zlen [k]) with 1. destruct fr as [|y fr]; [destruct L1; [congruence|discriminate]|]. rewrite zlen_cons. pose proof (zlen_nonneg fr). destruct (_ =? 1) eqn:Z1; [lia|reflexivity]. }
      rewrite Eh, Ec. destruct Q as [(-> & ->)|(-> & ->)].
      * exists L1, (f ++ [(bk_index k, bk_size k)]). split; [exact N1|]. split; [now rewrite geo_snoc, EB, app_assoc|]. split; [exact T1|].
        cbn [bk_index bk_size]. split; [apply tight_snoc; split; [rewrite Hi; exact T2|lia]|]. repeat split; auto; lia.
      * exists L1, f. repeat split; auto; try lia. apply tight_snoc. auto.
Qed.

(** The write itself. *)
Lemma room_write h r n head tail c front ob h' r' : rb_wf h r -> rb_pick r = (head, tail, c, front, ob) -> 0 <= n ->
  room (s_len (d_data (rb_d r))) (rb_capacity r) (map geo (d_blocks (rb_d r))) ->
  2 * (total (map geo (d_blocks (rb_d r))) + n) <= s_len (d_data (rb_d r)) ->
  rb_case h r n head tail c front ob h' r' ->
  d_data (rb_d r') = d_data (rb_d r) /\ rb_discard r' = rb_discard r /\ room (s_len (d_data (rb_d r'))) (rb_capacity r') (map geo (d_blocks (rb_d r'))).
Proof.
  intros W Pk Hn R H Cs. pose proof (rb_pick_ok _ _ _ _ _ _ _ W Pk) as [Pob Ptl Pbk Phd Pcp Pfr].
  destruct (room_pick _ _ _ _ _ _ _ W Pk R) as (Tt & Q). set (cap := s_len (d_data (rb_d r))) in *. rewrite <- Tt in H. clear R Tt Pk W Pfr.
  destruct Pbk as (B1 & B2 & B3).
  assert (Z1 : forall A (a : A) l, zlen (l ++ [a]) = zlen l + 1) by (intros; rewrite zlen_app; reflexivity).
  destruct Q as [(T & Hc & D)|(L1 & L2 & N & Ef & T1 & T2 & Ec & Lt & Hh)].
  - rewrite geo_snoc in T, H. pose proof T as T'. apply tight_snoc in T' as (Ta & _ & Hi). pose proof (tight_total _ _ _ T) as (X & X').
    rewrite total_app in *. cbn [total] in *. pose proof (tight_total _ _ _ Ta) as (Y & Y').
    destruct Cs as [Dt Bl Cp Dc Hpl _|Dt Bl Cp Dc H1 H2 H3 _|_ _ _ _ _ _ Hg].
    + rewrite Dt, Bl, Cp. fold cap. split; [reflexivity|]. split; [exact Dc|]. rewrite geo_snoc. cbn [bk_index bk_size].
      exists (map geo front ++ [(bk_index ob, bk_size ob + n)]), [], head, (tail + n), 0. rewrite app_nil_r. repeat split; auto; try lia.
      * apply tight_snoc. split; [exact Ta|lia].
      * left. split; [reflexivity|]. right. lia.
    + rewrite Dt, Bl, Cp. fold cap. split; [reflexivity|]. split; [exact Dc|]. rewrite geo_snoc. cbn [bk_index bk_size].
      destruct front as [|b front].
      * exists [(0, bk_size ob + n)], [], 0, (bk_size ob + n), 0. cbn [map app tight]. repeat split; auto; try lia. all: left; split; [reflexivity|]; left; cbn; lia.
      * exists (map geo (b :: front)), [(0, bk_size ob + n)], head, (tail - bk_size ob), (bk_size ob + n). replace (tail - bk_size ob) with (bk_index ob) by lia.
        split; [reflexivity|]. split; [lia|]. split; [exact Ta|]. split; [cbn; lia|]. split; [lia|]. split; [lia|].
        right. split; [discriminate|]. split; [discriminate|]. 
        enough (bk_size ob + n < head /\ cap < 2 * head) by tauto. lia.
    + exfalso. lia.
  - assert (X : total (map geo (front ++ [ob])) = rb_capacity r - head + tail /\ 0 <= rb_capacity r - head).
    { rewrite geo_snoc, Ef, <- app_assoc, total_app. apply tight_total in T1. apply tight_total in T2. lia. }
    destruct X as [X X']. rewrite X in H.
    destruct Cs as [Dt Bl Cp Dc Hpl _|Dt Bl Cp Dc H1 H2 H3 _|_ _ _ _ _ _ Hg]; [|exfalso; lia|exfalso; lia].
    rewrite Dt, Bl, Cp, geo_snoc, Ef, <- app_assoc. fold cap. cbn [bk_index bk_size]. split; [reflexivity|]. split; [exact Dc|].
    exists L1, (L2 ++ [(bk_index ob, bk_size ob + n)]), head, c, (tail + n). apply tight_snoc in T2 as (T2 & _ & Hi). repeat split; auto; try lia.
    + rewrite Ec. exact T1.
    + apply tight_snoc. split; [exact T2|lia].
    + right. repeat split; auto; try lia. intros Hx. now apply app_eq_nil in Hx as [_ Hx].
Qed.

Lemma room_not_full h r : rb_wf h r -> room (s_len (d_data (rb_d r))) (rb_capacity r) (map geo (d_blocks (rb_d r))) -> ~ rb_full r.
Proof.
  intros W (L1 & L2 & hd & e & t & EB & H0 & T1 & T2 & He & Hc & D) (b & k & Ef & El & G1 & G2).
  destruct (snoc_cases (d_blocks (rb_d r))) as [X|(fr & k0 & X)]; rewrite X in *; [discriminate|]. rewrite last_of_snoc in El. injection El as ->. rewrite first_of_snoc in Ef. injection Ef as Ef.
  assert (Eh : L1 <> [] -> bk_index b = hd).
  { intros N. destruct L1 as [|[i1 n1] L1]; [congruence|]. cbn in T1. destruct fr as [|y fr]; cbn in EB; injection EB as Ey _ _; subst b; cbn; destruct T1 as (-> & _); exact Ey. }
  rewrite geo_snoc in EB. destruct D as [(-> & D)|(N1 & N2 & Lt & -> & Hh)].
  - rewrite app_nil_r in EB. subst L1. rewrite Eh in G1 by (destruct (map geo fr); discriminate). apply tight_ends in T1. lia.
  - rewrite (Eh N1) in *. destruct (snoc_cases L2) as [->|(f & [i n] & ->)]; [congruence|]. rewrite app_assoc in EB. apply app_inj_tail in EB as [_ Ek]. injection Ek as <- <-.
    apply tight_snoc in T2. lia.
Qed.

(** ** Histories *)
Definition roomy (c : Z) (h : heap) (r : rbuf) (q : list gblock) : Prop :=
  rb_inv true h r q /\ rb_discard r = 0 /\ s_len (d_data (rb_d r)) = c /\ room c (rb_capacity r) (map geo (d_blocks (rb_d r))).

Lemma load_app q p : load (q ++ p) = load q + load p.
Proof. induction q as [|a q IH]; cbn [app load]; [lia|]. rewrite IH. lia. Qed.
Lemma roomy_load c h r q : roomy c h r q -> load q = total (map geo (d_blocks (rb_d r))).
Proof.
  intros ((W & _ & qd & fb & fq & pb & pq & Eb & -> & Ld & Fd & F & P) & D0 & _). rewrite D0 in Ld. apply zlen_zero_nil in Ld. subst qd. cbn [app].
  rewrite Eb, map_app, total_app, load_app. f_equal.
  - clear - F. induction F as [|k g fb fq (Ck & c0 & s & -> & G) F IH]; [reflexivity|]. destruct (G eq_refl) as [-> G2]. apply read_valid in G2 as [_ G2].
    cbn [load total map]. unfold geo at 1. cbn [fst blk_slice s_len] in *. lia.
  - destruct P as [(-> & ->)|(k & g & -> & -> & Ck & c0 & -> & Lc & _)]; cbn; lia.
Qed.

(** The FIFO with the real slices and the one without. *)
Definition same_fifo (q p : list gblock) : Prop := Forall2 (fun a b => fst a = fst b /\ (snd a = None <-> snd b = None)) q p.
Lemma same_load q p : same_fifo q p -> load q = load p.
Proof. induction 1 as [|a b q p [E _] _ IH]; cbn [load]; [reflexivity|]. rewrite E, IH. reflexivity. Qed.
Lemma same_removelast q p : same_fifo q p -> same_fifo (removelast q) (removelast p).
Proof.
  induction 1 as [|a b q p E F IH]; [constructor|]. destruct F as [|a2 b2 q p E2 F]; [constructor|]. cbn [removelast] in *. constructor; auto.
Qed.
Lemma same_pending q p : same_fifo q p -> pending_of q = pending_of p.
Proof.
  unfold pending_of. intros F. destruct (snoc_cases q) as [->|(f & [c1 o1] & ->)]; [inversion F; reflexivity|].
  apply Forall2_snoc_inv in F as (m & [c2 o2] & -> & F & E & I). rewrite !last_of_snoc. cbn [fst snd] in *. subst c2. destruct o1, o2; auto; [exfalso; destruct I as [_ I]; now specialize (I eq_refl)|exfalso; destruct I as [I _]; now specialize (I eq_refl)].
Qed.
Lemma same_spec q p o s t : same_fifo q p -> (o = BFetch -> pending_of q <> None -> s <> None) -> t <> None -> same_fifo (fst (bb_spec q s o)) (fst (bb_spec p t o)).
Proof.
  intros F Hs Ht. pose proof (same_pending _ _ F) as E. destruct o; cbn [bb_spec fst]; auto.
  - rewrite <- E. destruct (pending_of q); cbn [fst]; (apply Forall2_app; [first [exact F | apply same_removelast; exact F]|constructor; [|constructor]; cbn; tauto]).
  - destruct F as [|a b q p E1 F]; [constructor|]. cbn beta iota. change (prod (list Z) (option gslice)) with gblock in *.
    rewrite <- E. destruct (pending_of (a :: q)) eqn:Pq; cbn [fst].
    + apply Forall2_app; [apply same_removelast; constructor; auto|]. constructor; [|constructor]. cbn. split; [reflexivity|]. specialize (Hs eq_refl ltac:(discriminate)). tauto.
    + constructor; auto.
  - destruct F; [constructor|assumption].
  - destruct F as [|a b q p E1 F]; [constructor|]. cbn [fst]. apply same_removelast. constructor; auto.
  - constructor.
Qed.

Lemma roomy_step c h r q o : roomy c h r q -> match o with BWrite d => 2 * (load q + zlen d) <= c | _ => True end ->
  let '((h', r', q'), (out, spec)) := co_step rb_impl h r q o in
  roomy c h' r' q' /\ out = spec /\ d_data (rb_d r') = d_data (rb_d r) /\
  (forall p, same_fifo q p -> same_fifo q' (fst (bb_spec p (Some (mkSlice 0 0 0)) o))).
Proof.
  intros R H. pose proof (roomy_load _ _ _ _ R) as Ld. pose proof R as (I & D0 & Lc & Rm). pose proof I as (W & _). pose proof W as (V & S & Cc & Dd & Fb).
  assert (Keep : match o with BWrite d => exists h' r', rb_write h r d = Ok (h', r') /\ d_data (rb_d r') = d_data (rb_d r) /\ rb_discard r' = 0 /\ room c (rb_capacity r') (map geo (d_blocks (rb_d r'))) | _ => True end).
  { destruct o as [d| | | | | |]; auto. destruct (rb_pick r) as [[[[head tail] cc] front] ob] eqn:Pk.
    destruct (rb_write_ok h r d _ _ _ _ _ W Pk) as (h' & r' & E & W' & _ & _ & _ & Cs). exists h', r'. split; [exact E|].
    destruct (room_write _ _ _ _ _ _ _ _ _ _ W Pk (zlen_nonneg d) ltac:(now rewrite Lc) ltac:(rewrite Lc; lia) Cs) as (E1 & E2 & E3). rewrite E1, Lc in E3. rewrite <- D0. auto. }
  assert (CD : cond true h r o).
  { unfold cond, rb_cond_full. destruct o as [d| | | | | |]; cbn [rb_cond]; auto. split; [lia|]. apply (room_not_full h r W). now rewrite Lc. }
  pose proof (rb_step_sim true h r q o I CD) as Sim. unfold co_step in *.
  assert (Sm : forall p s, (o = BFetch -> pending_of q <> None -> s <> None) -> same_fifo q p -> same_fifo (fst (bb_spec q s o)) (fst (bb_spec p (Some (mkSlice 0 0 0)) o))).
  { intros p s Hs F. apply same_spec; auto. discriminate. }
  destruct (rb_impl h r o) as [[[h' r'] x]| | |] eqn:E.
  2, 3, 4: destruct (bb_spec q None o) as [q' so] eqn:Sp; destruct Sim as [I' Eo]; rewrite <- Eo in Sp; rewrite <- Eo.
  - destruct (bb_spec q (raw_slice x) o) as [q' so] eqn:Sp. destruct Sim as [I' Eo].
    assert (Q : d_data (rb_d r') = d_data (rb_d r) /\ rb_discard r' = 0 /\ room c (rb_capacity r') (map geo (d_blocks (rb_d r'))) /\ (o = BFetch -> pending_of q <> None -> raw_slice x <> None)).
    { clear Sm. destruct o as [d| | | | | |]; cbn [rb_impl] in E.
      - destruct Keep as (h2 & r2 & E2 & K). rewrite E2 in E. cbn [bind] in E. injection E as <- <- <-. repeat split; try apply K. discriminate.
      - unfold rb_fetch, d_fetch in E. rewrite S in E. cbn [negb assert bind] in E.
        destruct (snoc_cases (d_blocks (rb_d r))) as [X|(f & k & X)]; rewrite X in E; [discriminate|]. rewrite last_of_snoc, removelast_snoc in E. cbn [of_opt bind] in E.
        destruct (bk_completed k) eqn:Ck; cbn [bind] in E.
        + injection E as <- <- <-. repeat split; auto. intros _ N. exfalso. apply N. destruct I as (_ & _ & qd & fb & fq & pb & pq & Eb & -> & _ & Fd & F & [(-> & ->)|(k0 & g & -> & -> & Ck0 & _)]).
          * rewrite app_nil_r. eapply pending_none; eauto.
          * rewrite X in Eb. apply app_inj_tail in Eb as [_ <-]. congruence.
        + destruct (reslice _ _ _) as [sl| | |]; try discriminate. cbn [bind] in E. injection E as <- <- <-. cbn [rb_d d_data rb_discard rb_capacity d_blocks raw_slice].
          repeat split; auto; [|discriminate]. rewrite X, geo_snoc in Rm. rewrite geo_snoc. exact Rm.
      - unfold rb_pop in E. rewrite S in E. cbn [negb assert bind] in E. replace (rb_discard r >? 0) with false in E by lia. unfold d_pop in E. rewrite S in E. cbn [negb assert bind] in E.
        injection E as <- <- <-. cbn [rb_d d_data rb_discard rb_capacity d_blocks]. repeat split; auto; [|discriminate].
        replace (map geo (tl (d_blocks (rb_d r)))) with (tl (map geo (d_blocks (rb_d r)))) by (destruct (d_blocks (rb_d r)); reflexivity).
        eapply room_tl; [exact Rm|]. destruct (d_blocks (rb_d r)) as [|b [|b2 bs]]; cbn [tl map first_of geo]; rewrite ?Lc; reflexivity.
      - unfold rb_pop_back, d_pop_back in E. rewrite S in E. cbn [negb assert bind] in E. destruct (zlen _ >? 0) eqn:Z0; [|discriminate]. cbn [assert bind] in E.
        injection E as <- <- <-. cbn [rb_d d_data rb_discard rb_capacity d_blocks]. repeat split; auto; [|discriminate].
        destruct (snoc_cases (d_blocks (rb_d r))) as [X|(f & k & X)]; rewrite X in *; [exact Rm|]. rewrite removelast_snoc. rewrite geo_snoc in Rm. eapply room_removelast; eauto.
      - injection E as <- <- <-. repeat split; auto; discriminate.
      - injection E as <- <- <-. repeat split; auto; discriminate.
      - injection E as <- <- <-. cbn. repeat split; auto; [|discriminate]. apply room_nil; lia. }
    destruct Q as (Q1 & Q2 & Q3 & Q4). split; [split; [exact I'|split; [exact Q2|split; [now rewrite Q1|exact Q3]]]|]. split; [exact Eo|]. split; [exact Q1|].
    intros p F. change q' with (fst (q', so)). rewrite <- Sp. apply Sm; auto.
  - exfalso. destruct o; cbn [bb_spec] in Sp; repeat match type of Sp with context [match ?x with _ => _ end] => destruct x end; discriminate Sp.
  - split; [split; auto|]. split; [reflexivity|]. split; [reflexivity|]. intros p F.
    destruct o; cbn [bb_spec] in Sp; destruct q; repeat match type of Sp with context [match ?x with _ => _ end] => destruct x end; try discriminate Sp; injection Sp as <-; inversion F; constructor.
  - exfalso. destruct o; cbn [bb_spec] in Sp; repeat match type of Sp with context [match ?x with _ => _ end] => destruct x end; discriminate Sp.
Qed.

Lemma roomy_run c ops : forall h r q p, roomy c h r q -> same_fifo q p -> half_full c p ops ->
  let '((h', r', q'), outs) := co_run rb_impl h r q ops in
  roomy c h' r' q' /\ Forall (fun x => fst x = snd x) outs /\ d_data (rb_d r') = d_data (rb_d r).
Proof.
  induction ops as [|o ops IH]; intros h r q p R Sf H; cbn [co_run]; [auto|]. cbn [half_full] in H. destruct H as [H1 H2].
  assert (H1' : match o with BWrite d => 2 * (load q + zlen d) <= c | _ => True end) by (rewrite (same_load _ _ Sf); exact H1).
  pose proof (roomy_step c h r q o R H1') as St. destruct (co_step rb_impl h r q o) as [[[h1 r1] q1] [o1 o2]]. destruct St as (R1 & E & Ed & Sf1).
  specialize (IH h1 r1 q1 _ R1 (Sf1 _ Sf) H2). destruct (co_run rb_impl h1 r1 q1 ops) as [[[h' r'] q'] outs]. destruct IH as (R' & F & Ed').
  split; [exact R'|]. split; [constructor; auto|congruence].
Qed.

Lemma roomy_new h c h0 r0 : 0 <= c -> rb_new h c = Ok (h0, r0) -> roomy c h0 r0 [].
Proof.
  intros H E. destruct (rb_new_inv true h c H) as (h' & r & E' & I). rewrite E in E'. injection E' as <- <-. split; [exact I|].
  unfold rb_new, d_new in E. rewrite make_ok in E by lia. cbn [bind] in E. injection E as <- <-. cbn. split; [reflexivity|]. split; [reflexivity|]. apply room_nil; lia.
Qed.

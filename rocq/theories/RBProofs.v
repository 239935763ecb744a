(** * RBProofs: RBBlockBuffer. *)
From Verif Require Import Base CollectionsSpec BlockModel BlockSpec HeapProofs DirectProofs.

(** head, tail, effective capacity, blocks in front, block being written *)
Definition rb_pick (r : rbuf) : Z * Z * Z * list block * block :=
  let blocks := d_blocks (rb_d r) in
  match last_of blocks, first_of blocks with
  | Some t, Some hd =>
    let tail := bk_index t + bk_size t in
    let c := if zlen blocks =? 1 then s_len (d_data (rb_d r)) else rb_capacity r in
    if bk_completed t then (bk_index hd, tail, c, blocks, mkBlock tail 0 false)
    else (bk_index hd, tail, c, removelast blocks, t)
  | _, _ => (0, 0, s_len (d_data (rb_d r)), blocks, mkBlock 0 0 false)
  end.

Definition rb_place (h : heap) (r : rbuf) (size : Z) : res (heap * rbuf * gslice) :=
  let d := rb_d r in
  let data := d_data d in
  let cap := s_len data in
  let '(head, tail, capacity, front, ob) := rb_pick r in
  let over := tail <? head in
  '(h', data', capacity', front', index', tail', discard') <-
    (if over && (head - tail >=? size) then Ok (h, data, capacity, front, bk_index ob, tail, rb_discard r)
     else if negb over && (capacity - tail >=? size) then Ok (h, data, capacity, front, bk_index ob, tail, rb_discard r)
     else if negb over && (head >=? bk_size ob + size) then
       s <- reslice data (bk_index ob) (bk_index ob + bk_size ob);;
       src <- read h s;;
       h1 <- hcopy h data src;;
       Ok (h1, data, tail - bk_size ob, front, 0, bk_size ob, rb_discard r)
     else
       let capacity1 := (cap + size) * 3 / 2 in
       '(h1, data1) <- make h capacity1;;
       s <- reslice data (bk_index ob) (bk_index ob + bk_size ob);;
       src <- read h1 s;;
       h2 <- hcopy h1 data1 src;;
       let discard := Z.max (zlen (front ++ [ob]) - 1) 0 in
       Ok (h2, data1, capacity1, skipn (Z.to_nat discard) front, 0, bk_size ob, discard));;
  bytes <- reslice data' tail' (tail' + size);;
  Ok (h', mkRB (mkD data' (d_next d) (d_sealed d) (front' ++ [mkBlock index' (bk_size ob + size) (bk_completed ob)]))
               capacity' discard', bytes).

Lemma rb_alloc_place h r size : rb_alloc h r size = rb_place h r size.
Proof.
  unfold rb_alloc, rb_place, rb_pick. destruct (d_blocks (rb_d r)) as [|b bs] eqn:E.
  - cbn [zlen length Z.of_nat Z.eqb last_of bind]. reflexivity.
  - destruct bs as [|b2 bs].
    + change (zlen [b]) with 1. cbn [Z.eqb first_of last_of of_opt bind]. change (1 =? 1) with true.
      cbn [bind Pos.eqb]. destruct (bk_completed b); reflexivity.
    + destruct (zlen (b :: b2 :: bs) =? 0) eqn:Z0; [rewrite !zlen_cons in Z0; pose proof (zlen_nonneg bs); lia|].
      destruct (zlen (b :: b2 :: bs) =? 1) eqn:Z1; [rewrite !zlen_cons in Z1; pose proof (zlen_nonneg bs); lia|].
      destruct (snoc_cases (b2 :: bs)) as [|(f & t & Es)]; [discriminate|]. rewrite Es.
      rewrite app_comm_cons, last_of_snoc. cbn [first_of of_opt bind app]. destruct (bk_completed t); reflexivity.
Qed.

Definition blk_ok (len : Z) (k : block) : Prop := 0 <= bk_index k /\ 0 <= bk_size k /\ bk_index k + bk_size k <= len.

Definition rb_wf (h : heap) (r : rbuf) : Prop :=
  valid h (d_data (rb_d r)) /\ d_sealed (rb_d r) = false /\ 0 <= rb_capacity r <= s_len (d_data (rb_d r)) /\
  0 <= rb_discard r /\ Forall (blk_ok (s_len (d_data (rb_d r)))) (d_blocks (rb_d r)).

(** the bytes of block k *)
Definition blk_slice (data : gslice) (k : block) : gslice := mkSlice (s_arr data) (s_off data + bk_index k) (bk_size k).

Record pick_ok (r : rbuf) (head tail c : Z) (front : list block) (ob : block) : Prop := {
  pk_ob : bk_completed ob = false;
  pk_tail : tail = bk_index ob + bk_size ob;
  pk_blk : blk_ok (s_len (d_data (rb_d r))) ob;
  pk_head : 0 <= head <= s_len (d_data (rb_d r));
  pk_cap : 0 <= c <= s_len (d_data (rb_d r));
  pk_front : Forall (blk_ok (s_len (d_data (rb_d r)))) front }.

Lemma rb_pick_ok h r head tail c front ob : rb_wf h r -> rb_pick r = (head, tail, c, front, ob) -> pick_ok r head tail c front ob.
Proof.
  intros (V & S & C & D & F) E. unfold rb_pick in E.
  destruct V as (a & _ & _ & Hl & _).
  destruct (snoc_cases (d_blocks (rb_d r))) as [X|(f & t & X)]; rewrite X in *.
  - cbn [last_of] in E. injection E as <- <- <- <- <-. constructor; auto; unfold blk_ok; cbn [bk_index bk_size]; try lia.
  - rewrite last_of_snoc, first_of_snoc in E. apply Forall_app in F as [Ff Ft]. inversion Ft as [|? ? Ht _]; subst.
    assert (Hh : forall y, y = match f with [] => t | y :: _ => y end -> 0 <= bk_index y <= s_len (d_data (rb_d r))).
    { intros y ->. destruct f as [|z f]; [unfold blk_ok in Ht; lia|]. inversion Ff as [|? ? Hz _]; subst. unfold blk_ok in Hz; lia. }
    specialize (Hh _ eq_refl).
    destruct (bk_completed t) eqn:Ct; injection E as <- <- <- <- <-; (constructor; [..|]); auto.
    + unfold blk_ok in *. cbn [bk_index bk_size]. lia.
    + unfold blk_ok in *. cbn [bk_index bk_size]. lia.
    + destruct (_ =? 1); lia.
    + apply Forall_app. auto.
    + destruct (_ =? 1); lia.
    + rewrite removelast_snoc. auto.
Qed.

(** The three ways a Write can go. *)
Inductive rb_case (h : heap) (r : rbuf) (n head tail c : Z) (front : list block) (ob : block) (h' : heap) (r' : rbuf) : Prop :=
| case_place :
    d_data (rb_d r') = d_data (rb_d r) ->
    d_blocks (rb_d r') = front ++ [mkBlock (bk_index ob) (bk_size ob + n) false] ->
    rb_capacity r' = c -> rb_discard r' = rb_discard r ->
    (tail < head /\ tail + n <= head \/ head <= tail /\ tail + n <= c) ->
    (forall t, apart t (mkSlice (s_arr (d_data (rb_d r))) (s_off (d_data (rb_d r)) + tail) n) -> read h' t = read h t) ->
    rb_case h r n head tail c front ob h' r'
| case_wrap :
    d_data (rb_d r') = d_data (rb_d r) ->
    d_blocks (rb_d r') = front ++ [mkBlock 0 (bk_size ob + n) false] ->
    rb_capacity r' = tail - bk_size ob -> rb_discard r' = rb_discard r ->
    head <= tail -> c < tail + n -> bk_size ob + n <= head ->
    (forall t, apart t (mkSlice (s_arr (d_data (rb_d r))) (s_off (d_data (rb_d r))) (bk_size ob + n)) -> read h' t = read h t) ->
    rb_case h r n head tail c front ob h' r'
| case_grow :
    s_arr (d_data (rb_d r')) = length h -> 
    d_blocks (rb_d r') = [mkBlock 0 (bk_size ob + n) false] ->
    rb_capacity r' = s_len (d_data (rb_d r')) -> rb_discard r' = zlen front ->
    (forall t, (s_arr t < length h)%nat -> read h' t = read h t) ->
    bk_size ob + n <= s_len (d_data (rb_d r')) ->
    (tail < head /\ head < tail + n \/ head <= tail /\ c < tail + n /\ head < bk_size ob + n) ->
    rb_case h r n head tail c front ob h' r'.

Lemma rb_write_ok h r d head tail c front ob : rb_wf h r -> rb_pick r = (head, tail, c, front, ob) ->
  exists h' r', rb_write h r d = Ok (h', r') /\ rb_wf h' r' /\
    (length h <= length h')%nat /\
    (forall t, valid h t -> valid h' t) /\
    (forall old, read h (blk_slice (d_data (rb_d r)) ob) = Ok old ->
       exists k, last_of (d_blocks (rb_d r')) = Some k /\ bk_completed k = false /\ bk_size k = bk_size ob + zlen d /\
                 read h' (blk_slice (d_data (rb_d r')) k) = Ok (old ++ d)) /\
    rb_case h r (zlen d) head tail c front ob h' r'.
Proof.
  intros W E. pose proof (rb_pick_ok _ _ _ _ _ _ _ W E) as [Pob Ptl Pbk Phd Pcp Pfr].
  pose proof W as (V & S & C & D & F). unfold rb_write. rewrite rb_alloc_place. unfold rb_place. rewrite E.
  pose proof (zlen_nonneg d) as Hn. set (n := zlen d) in *. set (data := d_data (rb_d r)) in *.
  destruct Pbk as (B1 & B2 & B3).
  assert (Vob : valid h (blk_slice data ob)).
  { destruct V as (a & Ea & A1 & A2 & A3). exists a. cbn. split; [auto|lia]. }
  destruct (valid_read _ _ Vob) as (src & Rs & Ls). cbn [blk_slice s_len] in Ls.
  (* the final copy, common to all cases *)
  assert (Fin : forall h1 dat idx' tl', valid h1 dat -> 0 <= idx' -> tl' = idx' + bk_size ob -> tl' + n <= s_len dat ->
    read h1 (mkSlice (s_arr dat) (s_off dat + idx') (bk_size ob)) = Ok src ->
    exists h2, hcopy h1 (mkSlice (s_arr dat) (s_off dat + tl') (tl' + n - tl')) d = Ok h2 /\
      length h2 = length h1 /\ (forall t, valid h1 t -> valid h2 t) /\
      read h2 (mkSlice (s_arr dat) (s_off dat + idx') (bk_size ob + n)) = Ok (src ++ d) /\
      (forall t, apart t (mkSlice (s_arr dat) (s_off dat + tl') n) -> read h2 t = read h1 t)).
  { intros h1 dat idx' tl' V1 H0' Htl H1 R1.
    pose proof (reslice_valid h1 dat tl' (tl' + n) V1 ltac:(lia) H1) as V2.
    destruct (hcopy_ok h1 _ d V2 ltac:(cbn [s_len]; lia)) as (h2 & E2 & L2 & _ & _).
    exists h2. split; [exact E2|]. split; [exact L2|]. split; [intros t; apply (hcopy_valid h1 _ d V2 ltac:(cbn [s_len]; lia) h2 t E2)|].
    assert (O : forall t, apart t (mkSlice (s_arr dat) (s_off dat + tl') n) -> read h2 t = read h1 t)
      by (intros t; apply (hcopy_read_other h1 _ d V2 ltac:(cbn [s_len]; lia) h2 t E2)).
    split; [|exact O].
    eapply read_cat; [reflexivity|lia| |].
    - rewrite O by (unfold apart; cbn [s_arr s_off s_len]; lia). exact R1.
    - pose proof (hcopy_read_same h1 _ d V2 ltac:(cbn [s_len]; lia) h2 E2) as Q. cbn [s_arr s_off] in Q.
      rewrite <- Q. f_equal. f_equal. lia. }
  cbv zeta.
  destruct ((tail <? head) && (head - tail >=? n)) eqn:C1; [|destruct (negb (tail <? head) && (c - tail >=? n)) eqn:C2].
  - (* gap between tail and head *)
    cbn [bind]. rewrite reslice_ok by (fold data; lia). cbn [bind].
    destruct (Fin h data (bk_index ob) tail V B1 Ptl ltac:(lia) Rs) as (h2 & E2 & L2 & V2 & R2 & O2). rewrite E2. cbn [bind].
    do 2 eexists. split; [reflexivity|]. split; [|split; [lia|split; [exact V2|split]]].
    + repeat split; cbn [rb_d d_data d_sealed rb_capacity rb_discard d_blocks]; fold data; auto; try lia.
      apply Forall_app. split; [auto|]. constructor; [|constructor]. unfold blk_ok. cbn [bk_index bk_size]. lia.
    + intros old Ro. rewrite Rs in Ro. injection Ro as <-. cbn [rb_d d_blocks d_data]. rewrite last_of_snoc. eexists. split; [reflexivity|]. split; [exact Pob|]. split; [reflexivity|exact R2].
    + apply case_place; cbn [rb_d d_data d_blocks rb_capacity rb_discard]; auto; [now rewrite Pob|lia].
  - (* room at the end *)
    cbn [bind]. rewrite reslice_ok by (fold data; lia). cbn [bind].
    destruct (Fin h data (bk_index ob) tail V B1 Ptl ltac:(lia) Rs) as (h2 & E2 & L2 & V2 & R2 & O2). rewrite E2. cbn [bind].
    do 2 eexists. split; [reflexivity|]. split; [|split; [lia|split; [exact V2|split]]].
    + repeat split; cbn [rb_d d_data d_sealed rb_capacity rb_discard d_blocks]; fold data; auto; try lia.
      apply Forall_app. split; [auto|]. constructor; [|constructor]. unfold blk_ok. cbn [bk_index bk_size]. lia.
    + intros old Ro. rewrite Rs in Ro. injection Ro as <-. cbn [rb_d d_blocks d_data]. rewrite last_of_snoc. eexists. split; [reflexivity|]. split; [exact Pob|]. split; [reflexivity|exact R2].
    + apply case_place; cbn [rb_d d_data d_blocks rb_capacity rb_discard]; auto; [now rewrite Pob|lia].
  - destruct (negb (tail <? head) && (head >=? bk_size ob + n)) eqn:C3.
    + (* wrap around *)
      rewrite reslice_ok by lia. cbn [bind].
      replace (bk_index ob + bk_size ob - bk_index ob) with (bk_size ob) by lia.
      change (mkSlice (s_arr data) (s_off data + bk_index ob) (bk_size ob)) with (blk_slice data ob). rewrite Rs. cbn [bind].
      destruct (hcopy_ok h data src V ltac:(lia)) as (h1 & E1 & L1 & _ & _). rewrite E1. cbn [bind].
      assert (V1 : forall t, valid h t -> valid h1 t) by (intros t; apply (hcopy_valid h data src V ltac:(lia) h1 t E1)).
      rewrite reslice_ok by lia. cbn [bind].
      pose proof (hcopy_read_same h data src V ltac:(lia) h1 E1) as Rw.
      destruct (Fin h1 data 0 (bk_size ob) (V1 _ V) ltac:(lia) ltac:(lia) ltac:(lia)) as (h2 & E2 & L2 & V2 & R2 & O2).
      { rewrite <- Rw. f_equal. f_equal; lia. }
      rewrite E2. cbn [bind]. do 2 eexists. split; [reflexivity|]. split; [|split; [lia|split; [intros t Ht; apply V2, V1, Ht|split]]].
      * repeat split; cbn [rb_d d_data d_sealed rb_capacity rb_discard d_blocks]; fold data; auto; try lia.
        apply Forall_app. split; [auto|]. constructor; [|constructor]. unfold blk_ok. cbn [bk_index bk_size]. lia.
      * intros old Ro.  injection Ro as <-. cbn [rb_d d_blocks d_data]. rewrite last_of_snoc. eexists. split; [reflexivity|]. split; [exact Pob|]. split; [reflexivity|exact R2].
      * apply case_wrap; cbn [rb_d d_data d_blocks rb_capacity rb_discard]; auto; try lia; [now rewrite Pob|].
        intros t A. fold data in A. rewrite O2.
        -- apply (hcopy_read_other h data src V ltac:(lia) h1 t E1). eapply apart_sub; [exact A|..]; lia.
        -- eapply apart_sub; [exact A|..]; lia.
    + (* growth *)
      set (c1 := (s_len data + n) * 3 / 2).
      assert (Hc1 : s_len data + n <= c1) by (subst c1; Z.div_mod_to_equations; lia).
      rewrite make_ok by lia. cbn [bind]. rewrite reslice_ok by lia. cbn [bind].
      replace (bk_index ob + bk_size ob - bk_index ob) with (bk_size ob) by lia.
      change (mkSlice (s_arr data) (s_off data + bk_index ob) (bk_size ob)) with (blk_slice data ob).
      rewrite read_app by (apply (valid_lt _ _ Vob)). rewrite Rs. cbn [bind].
      set (h1 := h ++ [zeros (Z.to_nat c1)]). assert (V1 : valid h1 (mkSlice (length h) 0 c1)) by (apply make_valid; lia).
      destruct (hcopy_ok h1 _ src V1 ltac:(cbn [s_len]; lia)) as (h2 & E2 & L2 & _ & O2). rewrite E2. cbn [bind].
      assert (V2 : forall t, valid h1 t -> valid h2 t) by (intros t; apply (hcopy_valid h1 _ src V1 ltac:(cbn [s_len]; lia) h2 t E2)).
      rewrite reslice_ok by (cbn [s_len]; lia). cbn [bind s_arr s_off s_len].
      destruct (Fin h2 (mkSlice (length h) 0 c1) 0 (bk_size ob) (V2 _ V1) ltac:(lia) ltac:(lia) ltac:(cbn [s_len]; lia)) as (h3 & E3 & L3 & V3 & R3 & O3).
      { pose proof (hcopy_read_same h1 _ src V1 ltac:(cbn [s_len]; lia) h2 E2) as Q. cbn [s_arr s_off] in *. rewrite <- Q. f_equal. f_equal; lia. }
      cbn [s_arr s_off] in E3. rewrite E3. cbn [bind].
      assert (Dc : Z.max (zlen (front ++ [ob]) - 1) 0 = zlen front).
      { rewrite zlen_app. change (zlen [ob]) with 1. pose proof (zlen_nonneg front). lia. }
      rewrite Dc. replace (skipn (Z.to_nat (zlen front)) front) with (@nil block) by (unfold zlen; rewrite Nat2Z.id; symmetry; apply skipn_all).
      assert (Ll : length h1 = Datatypes.S (length h)) by (unfold h1; rewrite app_length; cbn; lia).
      do 2 eexists. split; [reflexivity|]. split; [|split; [lia|split; [|split]]].
      * repeat split; cbn [rb_d d_data d_sealed rb_capacity rb_discard d_blocks s_len]; auto; try lia.
        constructor; [|constructor]. unfold blk_ok. cbn [bk_index bk_size]. lia.
      * intros t Ht. apply V3, V2. now apply valid_app.
      * intros old Ro. injection Ro as <-. cbn [rb_d d_blocks d_data app last_of]. eexists. split; [reflexivity|]. split; [exact Pob|]. split; [reflexivity|exact R3].
      * apply case_grow; cbn [rb_d d_data d_blocks rb_capacity rb_discard s_arr s_len app]; auto; try lia; [now rewrite Pob|].
        intros t Ht. rewrite O3 by (left; cbn [s_arr]; lia). unfold read. rewrite O2 by (cbn [s_arr]; lia). unfold h1. now rewrite nth_error_app1.
Qed.

(* ---------------------------------------------------------------------------------------- *)
(** ** Geometry of the ring: blocks are laid out from the head to the effective capacity, then from 0. *)

Definition geo (k : block) : Z * Z := (bk_index k, bk_size k).

Fixpoint chain (lo : Z) (l : list (Z * Z)) (hi : Z) : Prop :=
  match l with
  | [] => lo <= hi
  | (i, n) :: t => lo <= i /\ 0 <= n /\ chain (i + n) t hi
  end.

Lemma chain_le l : forall lo hi, chain lo l hi -> lo <= hi.
Proof. induction l as [|[i n] l IH]; intros lo hi H; cbn in H; [auto|]. destruct H as (A & B & C). apply IH in C. lia. Qed.
Lemma chain_mono l : forall lo hi lo' hi', chain lo l hi -> lo' <= lo -> hi <= hi' -> chain lo' l hi'.
Proof.
  induction l as [|[i n] l IH]; intros lo hi lo' hi' H A B; cbn in *; [lia|]. destruct H as (H1 & H2 & H3).
  repeat split; [lia|lia|]. eapply IH; eauto; lia.
Qed.
Lemma chain_app l m : forall lo hi, chain lo (l ++ m) hi <-> exists mid, chain lo l mid /\ chain mid m hi.
Proof.
  induction l as [|[i n] l IH]; intros lo hi; cbn [app chain].
  - split; [intros H; exists lo; split; [lia|auto]|intros (mid & A & B); eapply chain_mono; eauto; lia].
  - rewrite IH. split.
    + intros (A & B & mid & C & D). eauto 6.
    + intros (mid & (A & B & C) & D). eauto 6.
Qed.
Lemma chain_snoc l i n lo hi : chain lo (l ++ [(i, n)]) hi <-> chain lo l i /\ 0 <= n /\ i + n <= hi.
Proof.
  rewrite chain_app. cbn [chain]. split.
  - intros (mid & A & B & C & D). split; [eapply chain_mono; eauto; lia|lia].
  - intros (A & B & C). exists i. repeat split; auto; lia.
Qed.
Lemma chain_in l : forall lo hi i n, chain lo l hi -> In (i, n) l -> lo <= i /\ 0 <= n /\ i + n <= hi.
Proof.
  induction l as [|[j m] l IH]; intros lo hi i n H I; [destruct I|]. cbn in H; destruct H as (A & B & C); destruct I as [E|I].
  - injection E as -> ->. pose proof (chain_le _ _ _ C). lia.
  - destruct (IH _ _ _ _ C I). lia.
Qed.

Definition layout (c : Z) (B : list (Z * Z)) : Prop :=
  exists L1 L2, B = L1 ++ L2 /\ chain 0 L1 c /\
    (L2 = [] \/ exists hd hn L1' f t tn, L1 = (hd, hn) :: L1' /\ L2 = f ++ [(t, tn)] /\ chain 0 L2 hd /\ t < hd).

Lemma layout_mono c c' B : layout c B -> c <= c' -> layout c' B.
Proof. intros (L1 & L2 & E & C & D) H. exists L1, L2. repeat split; auto. eapply chain_mono; eauto; lia. Qed.

Lemma layout_nil c : 0 <= c -> layout c [].
Proof. intros. exists [], []. cbn. auto. Qed.

Lemma layout_tl c B : layout c B -> layout c (tl B).
Proof.
  intros (L1 & L2 & E & C & D). destruct L1 as [|[i n] [|[j m] L1]].
  - cbn in C. destruct D as [->|(hd & hn & L1' & f & t & tn & X & _)]; [|discriminate]. subst B. now apply layout_nil.
  - subst B. cbn [tl app]. destruct D as [->|(hd & hn & L1' & f & t & tn & X & -> & C2 & Lt)].
    + apply layout_nil. apply chain_le in C. lia.
    + injection X as -> -> <-. exists (f ++ [(t, tn)]), []. rewrite app_nil_r. split; [reflexivity|]. split; [|auto].
      cbn in C. eapply chain_mono; eauto; lia.
  - subst B. cbn [tl app]. destruct C as (C1 & C2 & C3 & C4 & C5).
    exists ((j, m) :: L1), L2. split; [reflexivity|]. split; [cbn; repeat split; auto; lia|].
    destruct D as [->|(hd & hn & L1' & f & t & tn & X & -> & Cc & Lt)]; [auto|right].
    injection X as <- <- <-. do 6 eexists. split; [reflexivity|]. split; [reflexivity|]. split; [eapply chain_mono; eauto; lia|lia].
Qed.

Lemma layout_removelast c B g : layout c (B ++ [g]) -> layout c B.
Proof.
  intros (L1 & L2 & E & C & D). destruct D as [->|(hd & hn & L1' & f & t & tn & -> & -> & C2 & Lt)].
  - rewrite app_nil_r in E. subst L1. destruct g as [i n]. apply chain_snoc in C. exists B, []. rewrite app_nil_r.
    split; [reflexivity|]. split; [|auto]. eapply chain_mono; [apply C|lia|lia].
  - rewrite app_assoc in E. apply app_inj_tail in E as [-> ->]. exists ((hd, hn) :: L1'), f. split; [reflexivity|]. split; [exact C|].
    apply chain_snoc in C2 as (C2 & C3 & C4).
    destruct (snoc_cases f) as [->|(f' & [t' tn'] & ->)]; [auto|right].
    do 6 eexists. split; [reflexivity|]. split; [reflexivity|].
    pose proof (proj1 (chain_snoc _ _ _ _ _) C2). split; [eapply chain_mono; eauto; lia|lia].
Qed.

(** What Alloc sees. *)
Lemma pick_layout h r head tail c front ob : rb_wf h r -> rb_pick r = (head, tail, c, front, ob) ->
  layout (rb_capacity r) (map geo (d_blocks (rb_d r))) -> ~ rb_full r ->
  (chain 0 (map geo (front ++ [ob])) c /\ head <= tail /\ (front = [] -> head = bk_index ob) /\
     (forall hd f, front = hd :: f -> head = bk_index hd)) \/
  (exists hd L1 L2, front = (hd :: L1) ++ L2 /\ head = bk_index hd /\ chain 0 (map geo (hd :: L1)) c /\
     chain 0 (map geo (L2 ++ [ob])) head /\ tail < head).
Proof.
  intros W E Lay NF. pose proof W as (V & S & C & D & F). pose proof (rb_pick_ok _ _ _ _ _ _ _ W E) as [Pob Ptl Pbk Phd Pcp Pfr].
  unfold rb_pick in E. destruct (snoc_cases (d_blocks (rb_d r))) as [X|(fr & t & X)]; rewrite X in *.
  - cbn [last_of] in E. injection E as <- <- <- <- <-. left. cbn. repeat split; auto; try lia. discriminate.
  - rewrite last_of_snoc, first_of_snoc in E.
    set (hd := match fr with [] => t | y :: _ => y end) in *.
    assert (Cc : rb_capacity r <= (if zlen (fr ++ [t]) =? 1 then s_len (d_data (rb_d r)) else rb_capacity r)) by (destruct (_ =? 1); lia).
    set (cc := if zlen (fr ++ [t]) =? 1 then s_len (d_data (rb_d r)) else rb_capacity r) in *.
    apply (layout_mono _ cc) in Lay; [|exact Cc].
    destruct Lay as (L1 & L2 & EL & C1 & C2).
    (* uniform description of (front, ob) *)
    assert (U : (front = fr /\ ob = t) \/ (front = fr ++ [t] /\ ob = mkBlock tail 0 false)).
    { destruct (bk_completed t) eqn:Ct; injection E as <- <- <- <- <-; [right|left; rewrite removelast_snoc]; auto. }
    assert (Hh : head = bk_index hd /\ tail = bk_index t + bk_size t /\ c = cc) by (destruct (bk_completed t); injection E as <- <- <- <- <-; auto).
    destruct Hh as (Hh & Ht & ->). clear E.
    destruct C2 as [->|(h0 & hn & L1' & f & t0 & tn & E1 & -> & C2 & Lt)].
    + rewrite app_nil_r in EL. subst L1. left.
      assert (K : chain 0 (map geo (front ++ [ob])) cc).
      { destruct U as [(-> & ->)|(-> & ->)]; [exact C1|]. rewrite map_app. cbn [map geo bk_index bk_size]. apply chain_snoc. cbn [bk_index bk_size] in *.
        rewrite map_app in *. cbn [map] in *. unfold geo in C1 at 2. unfold geo at 2. apply chain_snoc in C1. split; [apply chain_snoc; split; [tauto|]; lia|]. lia. }
      assert (Hle : head <= tail).
      { rewrite map_app in C1. cbn [map] in C1. unfold geo in C1 at 2. apply chain_snoc in C1 as (A1 & A2 & A3).
        rewrite Hh, Ht. subst hd. destruct fr as [|y fr]; [lia|]. cbn in A1. destruct A1 as (A1 & A4 & A5). apply chain_le in A5. lia. }
      split; [exact K|]. split; [exact Hle|]. split.
      * intros Ef. destruct U as [(-> & ->)|(-> & ->)]; [subst fr; exact Hh|]. now apply snoc_not_nil in Ef.
      * intros y g Ef. rewrite Hh. f_equal. unfold hd. destruct U as [(-> & ->)|(-> & ->)]; [now rewrite Ef|].
        destruct fr as [|z fr]; cbn in Ef; now injection Ef.
    + right. subst L1. rewrite map_app in EL. cbn [map] in EL. rewrite app_assoc in EL. apply app_inj_tail in EL as [EL Eg].
      destruct fr as [|y fr]; [discriminate|]. cbn [map app] in EL. injection EL as Ey1 Ey2 EL. assert (Ey : geo y = (h0, hn)) by (unfold geo; congruence). subst hd.
      apply map_eq_app in EL as (a1 & a2 & -> & M1 & M2).
      assert (Lq : bk_index t + bk_size t < bk_index y).
      { unfold geo in Eg, Ey. injection Eg as <- <-. injection Ey as <- <-. apply chain_snoc in C2 as (A1 & A2 & A3).
        assert (bk_index t + bk_size t <> bk_index y); [|lia]. intros Efull. apply NF. exists y, t. rewrite X. cbn [app first_of].
        rewrite app_comm_cons, last_of_snoc. repeat split; auto; lia. }
      assert (Ey' : h0 = bk_index y) by (unfold geo in Ey; congruence).
      assert (Cy : chain 0 (map geo (y :: a1)) cc) by (cbn [map]; rewrite Ey, M1; exact C1).
      assert (C2' : chain 0 (map geo (a2 ++ [t])) (bk_index y)) by (rewrite map_app, M2; cbn [map]; rewrite Eg, <- Ey'; exact C2).
      destruct U as [(-> & ->)|(-> & ->)].
      * exists y, a1, a2. split; [reflexivity|]. split; [exact Hh|]. split; [exact Cy|]. split; [now rewrite Hh|lia].
      * exists y, a1, (a2 ++ [t]). split; [cbn; now rewrite <- app_assoc|]. split; [exact Hh|]. split; [exact Cy|]. split; [|lia].
        rewrite map_app. cbn [map geo bk_index bk_size]. apply chain_snoc. cbn [bk_index bk_size] in *.
        rewrite map_app in C2'. cbn [map] in C2'. unfold geo in C2' at 2. apply chain_snoc in C2' as (A1 & A2 & A3).
        rewrite map_app. cbn [map]. unfold geo at 2. rewrite Ht, Hh. split; [apply chain_snoc; split; [auto|lia]|lia].
Qed.

Lemma geo_in k l : In k l -> In (bk_index k, bk_size k) (map geo l).
Proof. intros H. apply in_map_iff. exists k. auto. Qed.

(** Effect of the three cases on the layout, and what the write may touch. *)
Lemma layout_place h r head tail c front ob n : rb_wf h r -> rb_pick r = (head, tail, c, front, ob) ->
  layout (rb_capacity r) (map geo (d_blocks (rb_d r))) -> ~ rb_full r -> 0 <= n ->
  (tail < head /\ tail + n <= head \/ head <= tail /\ tail + n <= c) ->
  layout c (map geo front ++ [(bk_index ob, bk_size ob + n)]) /\
  forall k, In k front -> bk_index k + bk_size k <= tail \/ tail + n <= bk_index k.
Proof.
  intros W E Lay NF Hn H. pose proof (rb_pick_ok _ _ _ _ _ _ _ W E) as [Pob Ptl Pbk Phd Pcp Pfr].
  destruct (pick_layout _ _ _ _ _ _ _ W E Lay NF) as [(K & Hle & _ & _)|(hd & L1 & L2 & -> & Hh & K1 & K2 & Lt)].
  - destruct H as [H|H]; [lia|]. rewrite map_app in K. cbn [map] in K. unfold geo in K at 2. apply chain_snoc in K as (A1 & A2 & A3). split.
    + exists (map geo front ++ [(bk_index ob, bk_size ob + n)]), []. rewrite app_nil_r. split; [reflexivity|]. split; [|auto].
      apply chain_snoc. split; [auto|lia].
    + intros k Hk. left. apply geo_in in Hk. destruct (chain_in _ _ _ _ _ A1 Hk). lia.
  - destruct H as [H|H]; [|lia]. rewrite map_app in K2. cbn [map] in K2. unfold geo in K2 at 2. apply chain_snoc in K2 as (A1 & A2 & A3). split.
    + exists (map geo (hd :: L1)), (map geo L2 ++ [(bk_index ob, bk_size ob + n)]). rewrite map_app, <- app_assoc. split; [reflexivity|]. split; [exact K1|].
      right. cbn [map]. unfold geo at 1. do 6 eexists. split; [reflexivity|]. split; [reflexivity|]. split; [apply chain_snoc; split; [auto|lia]|lia].
    + intros k Hk. apply in_app_or in Hk as [Hk|Hk].
      * right. assert (bk_index hd <= bk_index k); [|lia]. destruct Hk as [->|Hk]; [lia|]. apply geo_in in Hk. cbn in K1. destruct K1 as (B1 & B2 & B3).
        destruct (chain_in _ _ _ _ _ B3 Hk). lia.
      * left. apply geo_in in Hk. destruct (chain_in _ _ _ _ _ A1 Hk). lia.
Qed.

Lemma layout_wrap h r head tail c front ob n : rb_wf h r -> rb_pick r = (head, tail, c, front, ob) ->
  layout (rb_capacity r) (map geo (d_blocks (rb_d r))) -> ~ rb_full r -> 0 <= n ->
  head <= tail -> c < tail + n -> bk_size ob + n <= head ->
  layout (tail - bk_size ob) (map geo front ++ [(0, bk_size ob + n)]) /\
  forall k, In k front -> bk_size ob + n <= bk_index k.
Proof.
  intros W E Lay NF Hn H1 H2 H3. pose proof (rb_pick_ok _ _ _ _ _ _ _ W E) as [Pob Ptl Pbk Phd Pcp Pfr].
  destruct (pick_layout _ _ _ _ _ _ _ W E Lay NF) as [(K & Hle & Hn0 & Hn1)|(hd & L1 & L2 & -> & Hh & K1 & K2 & Lt)]; [|lia].
  rewrite map_app in K. cbn [map] in K. unfold geo in K at 2. apply chain_snoc in K as (A1 & A2 & A3).
  destruct front as [|hd f].
  - specialize (Hn0 eq_refl). split; [|intros k []]. exists [(0, bk_size ob + n)], []. split; [reflexivity|]. split; [|auto].
    cbn. lia.
  - specialize (Hn1 hd f eq_refl). split.
    + exists (map geo (hd :: f)), [(0, bk_size ob + n)]. split; [reflexivity|]. split; [eapply chain_mono; [exact A1|lia|lia]|].
      right. cbn [map]. unfold geo at 1. exists (bk_index hd), (bk_size hd), (map geo f), [], 0, (bk_size ob + n).
      split; [reflexivity|]. split; [reflexivity|]. split; [cbn; lia|lia].
    + intros k [->|Hk]; [lia|]. apply geo_in in Hk. cbn in A1. destruct A1 as (B1 & B2 & B3). destruct (chain_in _ _ _ _ _ B3 Hk). lia.
Qed.

(* ---------------------------------------------------------------------------------------- *)
(** ** Simulation.  [strict] adds the aliasing part. *)
Section Sim.
  Context (strict : bool).

  (** a block dropped by a growth, waiting for its Pop *)
  Definition dropped (h : heap) (r : rbuf) (g : gblock) : Prop :=
    exists c s, g = (c, Some s) /\ (strict = true -> read h s = Ok c /\ s_arr s <> s_arr (d_data (rb_d r))).
  Definition done (h : heap) (r : rbuf) (k : block) (g : gblock) : Prop :=
    bk_completed k = true /\ exists c s, g = (c, Some s) /\
    (strict = true -> s = blk_slice (d_data (rb_d r)) k /\ read h s = Ok c).
  Definition pend (h : heap) (r : rbuf) (k : block) (g : gblock) : Prop :=
    bk_completed k = false /\ exists c, g = (c, None) /\ zlen c = bk_size k /\ read h (blk_slice (d_data (rb_d r)) k) = Ok c.

  Definition rb_inv (h : heap) (r : rbuf) (q : list gblock) : Prop :=
    rb_wf h r /\ (strict = true -> layout (rb_capacity r) (map geo (d_blocks (rb_d r)))) /\
    exists qd fb fq pb pq, d_blocks (rb_d r) = fb ++ pb /\ q = qd ++ fq ++ pq /\ zlen qd = rb_discard r /\
      Forall (dropped h r) qd /\ Forall2 (done h r) fb fq /\
      ((pb = [] /\ pq = []) \/ exists k g, pb = [k] /\ pq = [g] /\ pend h r k g).

  Definition cond (h : heap) (r : rbuf) (o : bb_op) : Prop := if strict then rb_cond_full h r o else rb_cond h r o.
  Lemma cond_weak h r o : cond h r o -> rb_cond h r o.
  Proof. unfold cond, rb_cond_full. destruct strict; tauto. Qed.

  Lemma rb_inv_held h r q : strict = true -> rb_inv h r q -> held_intact h q.
  Proof.
    intros T (_ & _ & qd & fb & fq & pb & pq & _ & -> & _ & Fd & F & P) c s HI. apply in_app_or in HI as [HI|HI]; [|apply in_app_or in HI as [HI|HI]].
    - rewrite Forall_forall in Fd. destruct (Fd _ HI) as (c' & s' & E & G). injection E as <- <-. now apply G.
    - clear - T F HI. induction F as [|x y fb fq H F IH]; [destruct HI|]. destruct HI as [->|HI]; [|auto].
      destruct H as (_ & c' & s' & E & R). injection E as <- <-. now apply R.
    - destruct P as [(_ & ->)|(k & g & _ & -> & _ & c' & -> & _)]; [destruct HI|]. destruct HI as [HI|[]]. discriminate.
  Qed.

  Lemma done_last h r fb fq : Forall2 (done h r) fb fq ->
    (fb = [] /\ fq = []) \/ exists f k fq' c s, fb = f ++ [k] /\ fq = fq' ++ [(c, Some s)] /\ bk_completed k = true /\ Forall2 (done h r) f fq' /\ done h r k (c, Some s).
  Proof.
    intros F. destruct (snoc_cases fb) as [->|(f & k & ->)].
    - inversion F; auto.
    - apply Forall2_snoc_inv in F as (m' & y & -> & F & D). pose proof D as (C & c & s & -> & _). right. exists f, k, m', c, s. repeat split; auto; destruct D; auto.
  Qed.

  Lemma dropped_last h r qd : Forall (dropped h r) qd -> qd = [] \/ exists f c s, qd = f ++ [(c, Some s)].
  Proof.
    intros F. destruct (snoc_cases qd) as [->|(f & g & ->)]; [auto|]. apply Forall_app in F as [_ F].
    inversion F as [|? ? (c & s & -> & _) _]; subst. eauto.
  Qed.

  Lemma pending_none h r qd fb fq : Forall (dropped h r) qd -> Forall2 (done h r) fb fq -> pending_of (qd ++ fq) = None.
  Proof.
    intros Fd F. destruct (done_last _ _ _ _ F) as [(-> & ->)|(f & k & fq' & c & s & -> & -> & _)].
    - rewrite app_nil_r. destruct (dropped_last _ _ _ Fd) as [->|(g & c & s & ->)]; [reflexivity|]. now rewrite pending_snoc.
    - rewrite app_assoc. now rewrite pending_snoc.
  Qed.

  Lemma rb_write_sim h r q d : rb_inv h r q -> cond h r (BWrite d) ->
    exists h' r', rb_write h r d = Ok (h', r') /\ rb_inv h' r' (fst (bb_spec q None (BWrite d))) /\ snd (bb_spec q None (BWrite d)) = Ok BUnit.
  Proof.
    intros (W & Lay & qd & fb & fq & pb & pq & Eb & Eq & Ld & Fd & F & P) CD.
    destruct (rb_pick r) as [[[[head tail] c] front] ob] eqn:Pk.
    pose proof (rb_pick_ok _ _ _ _ _ _ _ W Pk) as [Pob Ptl Pbk Phd Pcp Pfr].
    pose proof W as (V & S & C & D & Fb).
    (* uniform view of the pending block *)
    assert (U : exists old, front = fb /\ read h (blk_slice (d_data (rb_d r)) ob) = Ok old /\ zlen old = bk_size ob /\
                bb_spec q None (BWrite d) = (qd ++ fq ++ [(old ++ d, None)], Ok BUnit)).
    { unfold bb_spec. unfold rb_pick in Pk. destruct P as [(-> & ->)|(k & g & -> & -> & Ck & old & -> & Lo & Ro)].
      - rewrite app_nil_r in *. rewrite Eq, (pending_none h r qd fb fq Fd F). exists [].
        assert (E : front = fb /\ bk_size ob = 0).
        { rewrite Eb in Pk. destruct (done_last _ _ _ _ F) as [(-> & ->)|(f & k & fq' & c0 & s & -> & -> & Ck & _)].
          - cbn [last_of] in Pk. injection Pk as <- <- <- <- <-. auto.
          - rewrite last_of_snoc, first_of_snoc, Ck in Pk. injection Pk as <- <- <- <- <-. auto. }
        destruct E as [-> E0]. split; [reflexivity|]. rewrite E0. split; [|split; [reflexivity|now rewrite <- app_assoc]].
        assert (Vo : valid h (blk_slice (d_data (rb_d r)) ob)).
        { destruct V as (a & Ea & A1 & A2 & A3). exists a. cbn. unfold blk_ok in Pbk. split; [auto|lia]. }
        destruct (valid_read _ _ Vo) as (l & Rl & Ll). cbn [blk_slice s_len] in Ll. rewrite E0 in Ll. apply zlen_zero_nil in Ll. now subst l.
      - exists old. rewrite Eb in Pk. rewrite last_of_snoc, first_of_snoc, Ck, removelast_snoc in Pk. injection Pk as <- <- <- <- <-.
        rewrite Eq, app_assoc, pending_snoc, removelast_snoc, app_assoc. auto. }
    destruct U as (old & -> & Ro & Lo & Sp). rewrite Sp. cbn [fst snd].
    destruct (rb_write_ok h r d _ _ _ _ _ W Pk) as (h' & r' & E & W' & Ln & Vd & Lst & Cs). exists h', r'. split; [exact E|]. split; [|reflexivity].
    destruct (Lst _ Ro) as (k & Lk & Ck & Sk & Rk).
    pose proof (zlen_nonneg d) as Hn.
    assert (NF : strict = true -> ~ rb_full r) by (intros T; unfold cond in CD; rewrite T in CD; apply CD).
    assert (Pnd : pend h' r' k (old ++ d, None)).
    { split; [exact Ck|]. exists (old ++ d). split; [reflexivity|]. rewrite zlen_app. split; [lia|exact Rk]. }
    split; [exact W'|].
    destruct Cs as [Dt Bl Cp Dc Hpl Fr|Dt Bl Cp Dc H1 H2 H3 Fr|Dt Bl Cp Dc Fr Hl _].
    - (* in place *)
      assert (Ek : k = mkBlock (bk_index ob) (bk_size ob + zlen d) false) by (rewrite Bl, last_of_snoc in Lk; congruence).
      split.
      + intros T. rewrite Bl, Cp, map_app. cbn [map geo bk_index bk_size]. unfold geo at 2. cbn [bk_index bk_size]. apply (layout_place h r head tail c fb ob (zlen d)); auto.
      + exists qd, fb, fq, [k], [(old ++ d, None)]. rewrite Dc, <- Ek in *. repeat split; auto; [| |right; eauto].
        * eapply Forall_impl; [|exact Fd]. intros g (c0 & s & -> & G). exists c0, s. split; [reflexivity|]. intros T. destruct (G T) as [G1 G2].
          rewrite Dt. split; [|exact G2]. rewrite Fr; [exact G1|]. left. exact G2.
        * assert (A : forall k, In k fb -> strict = true -> bk_index k + bk_size k <= tail \/ tail + zlen d <= bk_index k).
          { intros k0 Hk T. apply (layout_place h r head tail c fb ob (zlen d)); auto. }
          clear - F A Fr Dt. induction F as [|x y fb fq H F IH]; constructor; [|apply IH; intros; apply A; cbn; auto].
          destruct H as (Cx & c0 & s & -> & G). split; [exact Cx|]. exists c0, s. split; [reflexivity|]. intros T. destruct (G T) as [-> G2]. rewrite Dt.
          split; [reflexivity|]. rewrite Fr; [exact G2|]. right. unfold blk_slice. cbn [s_off s_len].
          destruct (A x (or_introl eq_refl) T); lia.
    - (* wrap *)
      assert (Ek : k = mkBlock 0 (bk_size ob + zlen d) false) by (rewrite Bl, last_of_snoc in Lk; congruence).
      split.
      + intros T. rewrite Bl, Cp, map_app. cbn [map geo bk_index bk_size]. unfold geo at 2. cbn [bk_index bk_size]. apply (layout_wrap h r head tail c fb ob (zlen d)); auto.
      + exists qd, fb, fq, [k], [(old ++ d, None)]. rewrite Dc, <- Ek in *. repeat split; auto; [| |right; eauto].
        * eapply Forall_impl; [|exact Fd]. intros g (c0 & s & -> & G). exists c0, s. split; [reflexivity|]. intros T. destruct (G T) as [G1 G2].
          rewrite Dt. split; [|exact G2]. rewrite Fr; [exact G1|]. left. exact G2.
        * assert (A : forall k, In k fb -> strict = true -> bk_size ob + zlen d <= bk_index k).
          { intros k0 Hk T. apply (layout_wrap h r head tail c fb ob (zlen d)); auto. }
          clear - F A Fr Dt. induction F as [|x y fb fq H F IH]; constructor; [|apply IH; intros; apply A; cbn; auto].
          destruct H as (Cx & c0 & s & -> & G). split; [exact Cx|]. exists c0, s. split; [reflexivity|]. intros T. destruct (G T) as [-> G2]. rewrite Dt.
          split; [reflexivity|]. rewrite Fr; [exact G2|]. right. unfold blk_slice. cbn [s_off s_len].
          pose proof (A x (or_introl eq_refl) T); lia.
    - (* growth *)
      assert (Ek : k = mkBlock 0 (bk_size ob + zlen d) false) by (rewrite Bl in Lk; cbn in Lk; congruence).
      pose proof (valid_lt _ _ V) as Lt.
      assert (D0 : rb_discard r = 0).
      { destruct (Z.eq_dec (rb_discard r) 0) as [|Nz]; [auto|]. exfalso. apply cond_weak in CD. cbn [rb_cond] in CD.
        specialize (CD ltac:(lia) _ _ E). rewrite CD in Dt. lia. }
      rewrite D0 in Ld. apply zlen_zero_nil in Ld. subst qd.
      split.
      + intros T. rewrite Bl, Cp. cbn [map geo bk_index bk_size]. exists [(0, bk_size ob + zlen d)], []. split; [reflexivity|]. split; [|auto].
        unfold blk_ok in Pbk. cbn. lia.
      + exists fq, [], [], [k], [(old ++ d, None)]. rewrite Bl, <- Ek, Dc. cbn [app]. repeat split; auto; [symmetry; eapply Forall2_zlen; eauto| |right; eauto].
        assert (Ls : forall c0 s, strict = true -> In (c0, Some s) fq -> read h s = Ok c0 -> (s_arr s < length h)%nat).
        { intros c0 s _ _ R0. apply (valid_lt h). now apply (read_valid _ _ c0). }
        clear - F Fr Dt Lt. induction F as [|x y fb fq H F IH]; constructor; auto.
        destruct H as (Cx & c0 & s & -> & G). exists c0, s. split; [reflexivity|]. intros T. destruct (G T) as [-> G2].
        rewrite Fr by (cbn [blk_slice s_arr]; exact Lt). split; [exact G2|]. cbn [blk_slice s_arr]. lia.
  Qed.

  Lemma rb_step_sim h r q o : rb_inv h r q -> cond h r o ->
    let '((h', r', q'), (out, spec)) := co_step rb_impl h r q o in rb_inv h' r' q' /\ out = spec.
  Proof.
    intros I CD. pose proof I as (W & Lay & qd & fb & fq & pb & pq & Eb & Eq & Ld & Fd & F & P). pose proof W as (V & S & C & D & Fb).
    destruct o as [d| | | | | |]; unfold co_step, rb_impl.
    - destruct (rb_write_sim h r q d I CD) as (h' & r' & E & I' & Sp). rewrite E. cbn [bind raw_slice observe].
      destruct (bb_spec q None (BWrite d)) as [q' so]. cbn [fst snd] in *. subst so. auto.
    - (* Fetch *)
      unfold rb_fetch, d_fetch. rewrite S. cbn [negb assert bind].
      destruct P as [(-> & ->)|(k & g & -> & -> & Ck & c & -> & Lc & Rk)].
      + rewrite !app_nil_r in *. rewrite Eb.
        destruct (done_last _ _ _ _ F) as [(-> & ->)|(f & k & fq' & c & s & -> & -> & Ck & F' & Dn)].
        * apply cond_weak in CD. cbn in CD. specialize (CD Eb). rewrite CD in Ld. apply zlen_zero_nil in Ld. subst qd.
          cbn in Eq. subst q. cbn. split; [exact I|reflexivity].
        * rewrite last_of_snoc. cbn [of_opt bind]. rewrite Ck. cbn [bind raw_slice observe]. rewrite Eq, app_assoc, spec_fetch_done.
          split; [|reflexivity]. rewrite <- app_assoc. unfold gblock in *. rewrite <- Eq.
          destruct r as [dd cp dc]; exact I.
      + rewrite Eb, last_of_snoc. cbn [of_opt bind]. rewrite Ck.
        rewrite Eb in Fb. apply Forall_app in Fb as [Fb1 Fb2]. inversion Fb2 as [|? ? Hk _]; subst x l. pose proof Hk as (B1 & B2 & B3).
        rewrite reslice_ok by lia. cbn [bind raw_slice observe].
        replace (bk_index k + bk_size k - bk_index k) with (bk_size k) by lia.
        change (mkSlice (s_arr (d_data (rb_d r))) (s_off (d_data (rb_d r)) + bk_index k) (bk_size k)) with (blk_slice (d_data (rb_d r)) k).
        rewrite Rk. cbn [bind]. rewrite Eq, app_assoc, spec_fetch_pend, removelast_snoc. split; [|reflexivity].
        set (k' := mkBlock (bk_index k) (bk_size k) true).
        split; [|split].
        * repeat split; cbn [rb_d d_data d_sealed rb_capacity rb_discard d_blocks]; auto; try lia.
          apply Forall_app. split; [auto|]. constructor; [exact Hk|constructor].
        * cbn [rb_capacity rb_d d_blocks]. intros T. specialize (Lay T). rewrite Eb in Lay. rewrite map_app in *. exact Lay.
        * exists qd, (fb ++ [k']), (fq ++ [(c, Some (blk_slice (d_data (rb_d r)) k))]), [], [].
          cbn [rb_d d_blocks rb_discard]. rewrite !app_nil_r, app_assoc. repeat split; auto.
          apply Forall2_snoc; [exact F|]. split; [reflexivity|]. do 2 eexists. split; [reflexivity|]. intros _. split; [reflexivity|exact Rk].
    - (* Pop *)
      unfold rb_pop. rewrite S. cbn [negb assert bind].
      destruct (rb_discard r >? 0) eqn:Dz.
      + cbn [bind raw_slice bb_spec observe]. split; [|reflexivity].
        destruct qd as [|g0 qd]; [change (zlen (@nil gblock)) with 0 in Ld; lia|]. rewrite zlen_cons in Ld. inversion Fd as [|? ? Hg Fd']; subst x l.
        split; [|split].
        * repeat split; cbn [rb_d rb_capacity rb_discard]; auto; lia.
        * exact Lay.
        * exists qd, fb, fq, pb, pq. cbn [rb_d rb_discard]. rewrite Eq. cbn [app tl]. repeat split; auto; lia.
      + assert (D0 : rb_discard r = 0) by lia. rewrite D0 in Ld. apply zlen_zero_nil in Ld. subst qd. cbn [app] in Eq.
        unfold d_pop. rewrite S. cbn [negb assert bind raw_slice bb_spec observe]. split; [|reflexivity].
        cbn [d_blocks d_data].
        assert (Wt : Forall (blk_ok (s_len (d_data (rb_d r)))) (tl (d_blocks (rb_d r)))).
        { destruct (d_blocks (rb_d r)); cbn; auto. now inversion Fb. }
        assert (Cb : forall b : bool, 0 <= (if b then s_len (d_data (rb_d r)) else rb_capacity r) <= s_len (d_data (rb_d r)) /\ rb_capacity r <= (if b then s_len (d_data (rb_d r)) else rb_capacity r))
          by (intros []; lia).
        split; [|split].
        * repeat split; cbn [rb_d d_data d_sealed rb_capacity rb_discard d_blocks]; auto; apply Cb.
        * intros T. cbn [rb_d d_blocks rb_capacity]. eapply layout_mono; [|apply Cb].
          replace (map geo (tl (d_blocks (rb_d r)))) with (tl (map geo (d_blocks (rb_d r)))) by (destruct (d_blocks (rb_d r)); reflexivity).
          apply layout_tl. auto.
        * cbn [rb_d d_blocks rb_discard]. rewrite Eb, Eq. destruct F as [|x y fb fq Dn F].
          -- cbn [app] in *. exists [], [], [], [], []. destruct P as [(-> & ->)|(k & g & -> & -> & _)]; cbn; rewrite D0; auto 8.
          -- exists [], fb, fq, pb, pq. cbn [app tl]. rewrite D0. repeat split; auto.
    - (* PopBack *)
      unfold rb_pop_back, d_pop_back. rewrite S. cbn [negb assert bind].
      destruct (snoc_cases (d_blocks (rb_d r))) as [X|(bf & bl & X)].
      + apply cond_weak in CD. cbn in CD. specialize (CD X). rewrite CD in Ld. apply zlen_zero_nil in Ld. subst qd.
        rewrite X in *. cbn. symmetry in Eb. apply app_eq_nil in Eb as [-> ->]. inversion F; subst.
        destruct P as [(_ & ->)|(k & g & Y & _)]; [|discriminate]. cbn. split; [exact I|reflexivity].
      + assert (Z1 : (zlen (d_blocks (rb_d r)) >? 0) = true).
        { rewrite X, zlen_app. change (zlen [bl]) with 1. pose proof (zlen_nonneg bf). lia. }
        rewrite Z1. cbn [assert bind raw_slice observe]. rewrite X, removelast_snoc.
        assert (G : exists g0 fb' fq', q = (qd ++ fq') ++ [g0] /\ bf = fb' /\ Forall2 (done h r) fb' fq').
        { rewrite X in Eb. destruct P as [(-> & ->)|(k & g & -> & -> & _)].
          - rewrite !app_nil_r in *. subst fb. apply Forall2_snoc_inv in F as (m' & y & -> & F & _).
            exists y, bf, m'. rewrite Eq, app_assoc. auto.
          - apply app_inj_tail in Eb as [-> ->]. exists g, fb, fq. rewrite Eq, app_assoc. auto. }
        destruct G as (g0 & fb' & fq' & -> & -> & F'). rewrite spec_pop_back. split; [|reflexivity].
        split; [|split].
        * repeat split; cbn [rb_d d_data d_sealed rb_capacity rb_discard d_blocks]; auto; try lia.
          rewrite X in Fb. now apply Forall_app in Fb.
        * intros T. cbn [rb_d d_blocks rb_capacity]. specialize (Lay T). rewrite X, map_app in Lay. eapply layout_removelast; eauto.
        * exists qd, fb', fq', [], []. cbn [rb_d d_blocks rb_discard]. rewrite !app_nil_r. repeat split; auto.
    - (* PendingBlockSize *)
      cbn [bind raw_slice bb_spec observe]. split; [exact I|]. do 2 f_equal. unfold rb_pending, d_pending. rewrite Eb, Eq.
      destruct P as [(-> & ->)|(k & g & -> & -> & Ck & c & -> & Lc & _)].
      + rewrite !app_nil_r. rewrite (pending_none h r qd fb fq Fd F).
        destruct (done_last _ _ _ _ F) as [(-> & ->)|(f & k & fq' & c & s & -> & -> & Ck & _)]; [reflexivity|]. now rewrite last_of_snoc, Ck.
      + rewrite app_assoc, pending_snoc, last_of_snoc, Ck. lia.
    - (* Size *)
      apply cond_weak in CD. cbn [rb_cond] in CD. rewrite CD in Ld. apply zlen_zero_nil in Ld. subst qd.
      cbn [bind raw_slice bb_spec observe]. split; [exact I|]. do 2 f_equal. unfold rb_size, d_size. rewrite Eb, Eq. cbn [app].
      rewrite !zlen_app, (Forall2_zlen _ _ _ F). destruct P as [(-> & ->)|(k & g & -> & -> & _)]; reflexivity.
    - (* Clear *)
      cbn [bind raw_slice bb_spec observe]. split; [|reflexivity].
      assert (0 <= s_len (d_data (rb_d r))) by lia.
      split; [|split].
      + repeat split; cbn [rb_clear d_clear rb_d d_data d_sealed rb_capacity rb_discard d_blocks]; auto; try lia.
      + intros _. cbn. now apply layout_nil.
      + exists [], [], [], [], []. cbn. auto 10.
  Qed.

  Lemma rb_run_sim ops : forall h r q, rb_inv h r q -> all_ops rb_impl cond h r q ops ->
    let '((h', r', q'), outs) := co_run rb_impl h r q ops in
    rb_inv h' r' q' /\ Forall (fun p => fst p = snd p) outs.
  Proof.
    induction ops as [|o ops IH]; intros h b q I A; cbn [co_run]; [split; auto|]. cbn [all_ops] in A. destruct A as [A1 A2].
    pose proof (rb_step_sim h b q o I A1) as H. destruct (co_step rb_impl h b q o) as [[[h1 b1] q1] [o1 o2]]. destruct H as [I1 E].
    specialize (IH h1 b1 q1 I1 A2). destruct (co_run rb_impl h1 b1 q1 ops) as [[[h' b'] q'] outs]. destruct IH as [I' F].
    split; [exact I'|]. constructor; auto.
  Qed.

  Lemma rb_new_inv h c : 0 <= c -> exists h' r, rb_new h c = Ok (h', r) /\ rb_inv h' r [].
  Proof.
    intros H. unfold rb_new, d_new. rewrite make_ok by lia. cbn [bind]. do 2 eexists. split; [reflexivity|]. split; [|split].
    - repeat split; cbn [rb_d d_data d_sealed rb_capacity rb_discard d_blocks s_len]; auto; try lia. apply make_valid; lia.
    - intros _. cbn. now apply layout_nil.
    - exists [], [], [], [], []. cbn. auto 10.
  Qed.

  (** number of blocks not yet released *)
  Lemma rb_inv_count h r q : rb_inv h r q -> rb_discard r + rb_size r = zlen q.
  Proof.
    intros (W & Lay & qd & fb & fq & pb & pq & Eb & -> & Ld & Fd & F & P). unfold rb_size, d_size. rewrite Eb, !zlen_app, (Forall2_zlen _ _ _ F).
    destruct P as [(-> & ->)|(k & g & -> & -> & _)]; cbn [zlen length]; unfold zlen; cbn [length]; unfold zlen in Ld; lia.
  Qed.
End Sim.

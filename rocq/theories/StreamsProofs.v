(** * StreamsProofs: streams do not interfere. *)
From Verif Require Import Base CollectionsSpec BlockModel BlockSpec HeapProofs DirectProofs RBProofs RingProofs StreamsSpec.

(** ** Two buffers in two heaps that look the same. *)
Definition like (h1 : heap) (s1 : gslice) (h2 : heap) (s2 : gslice) : Prop :=
  s_off s1 = s_off s2 /\ s_len s1 = s_len s2 /\
  exists a, nth_error h1 (s_arr s1) = Some a /\ nth_error h2 (s_arr s2) = Some a.

Definition rb_like (h1 : heap) (r1 : rbuf) (h2 : heap) (r2 : rbuf) : Prop :=
  like h1 (d_data (rb_d r1)) h2 (d_data (rb_d r2)) /\
  d_next (rb_d r1) = d_next (rb_d r2) /\ d_sealed (rb_d r1) = d_sealed (rb_d r2) /\
  d_blocks (rb_d r1) = d_blocks (rb_d r2) /\ rb_capacity r1 = rb_capacity r2 /\ rb_discard r1 = rb_discard r2.

Lemma like_read h1 s1 h2 s2 : like h1 s1 h2 s2 -> read h1 s1 = read h2 s2.
Proof. intros (A & B & a & E1 & E2). unfold read. now rewrite E1, E2, A, B. Qed.

Lemma like_reslice h1 s1 h2 s2 lo hi : like h1 s1 h2 s2 ->
  match reslice s1 lo hi, reslice s2 lo hi with
  | Ok t1, Ok t2 => like h1 t1 h2 t2 /\ s_arr t1 = s_arr s1 /\ s_arr t2 = s_arr s2
  | Panic, Panic => True
  | _, _ => False
  end.
Proof.
  intros (A & B & a & E1 & E2). unfold reslice. rewrite <- B. destruct (_ && _); [|auto].
  split; [|auto]. split; [cbn; lia|]. split; [reflexivity|]. exists a. auto.
Qed.

Lemma like_hcopy h1 d1 h2 d2 src : like h1 d1 h2 d2 ->
  match hcopy h1 d1 src, hcopy h2 d2 src with
  | Ok h1', Ok h2' => forall t1 t2, s_arr t1 = s_arr d1 -> s_arr t2 = s_arr d2 -> s_off t1 = s_off t2 -> s_len t1 = s_len t2 -> like h1' t1 h2' t2
  | Panic, Panic => True
  | _, _ => False
  end.
Proof.
  intros (A & B & a & E1 & E2). unfold hcopy. rewrite E1, E2, A, B. cbn [of_opt bind].
  destruct (copy_at a (s_off d2) _) as [a'|] eqn:C; cbn [of_opt bind]; [|auto].
  intros t1 t2 T1 T2 T3 T4. split; [auto|]. split; [auto|]. exists a'. rewrite T1, T2.
  rewrite !set_nth_same by (apply nth_error_Some; congruence). auto.
Qed.

Lemma like_make h1 h2 n :
  match make h1 n, make h2 n with
  | Ok (h1', s1), Ok (h2', s2) => like h1' s1 h2' s2 /\ (forall t1 t2, like h1 t1 h2 t2 -> like h1' t1 h2' t2)
  | Panic, Panic => True
  | _, _ => False
  end.
Proof.
  unfold make, assert. destruct (0 <=? n); cbn [bind]; [|auto]. split.
  - split; [reflexivity|]. split; [reflexivity|]. exists (zeros (Z.to_nat n)). cbn [s_arr]. now rewrite !nth_error_app2, !Nat.sub_diag by lia.
  - intros t1 t2 (A & B & a & E1 & E2). split; [auto|]. split; [auto|]. exists a. now rewrite !nth_error_app1 by (apply nth_error_Some; congruence).
Qed.

Lemma like_write h1 r1 h2 r2 d : rb_like h1 r1 h2 r2 ->
  match rb_write h1 r1 d, rb_write h2 r2 d with
  | Ok (h1', r1'), Ok (h2', r2') => rb_like h1' r1' h2' r2'
  | Panic, Panic | Err, Err | NoFuel, NoFuel => True
  | _, _ => False
  end.
Proof.
  intros (Lk & Nx & Sl & Bl & Cp & Dc). pose proof Lk as (A & B & a & E1 & E2).
  unfold rb_write. rewrite !rb_alloc_place. unfold rb_place.
  assert (Pk : rb_pick r1 = rb_pick r2) by (unfold rb_pick; now rewrite Bl, B, Cp).
  rewrite Pk. destruct (rb_pick r2) as [[[[head tail] c] front] ob]. rewrite Nx, Sl, Dc. cbv zeta. rewrite B.
  set (d1 := d_data (rb_d r1)) in *. set (d2 := d_data (rb_d r2)) in *. set (n := zlen d) in *.
  (* the tail of the computation *)
  assert (Fin : forall g1 g2 dt1 dt2 c' f' i' t' ds, like g1 dt1 g2 dt2 ->
    match (bytes <- reslice dt1 t' (t' + n);; h' <- hcopy g1 bytes d;; Ok (h', mkRB (mkD dt1 (d_next (rb_d r2)) (d_sealed (rb_d r2)) (f' ++ [mkBlock i' (bk_size ob + n) (bk_completed ob)])) c' ds)),
          (bytes <- reslice dt2 t' (t' + n);; h' <- hcopy g2 bytes d;; Ok (h', mkRB (mkD dt2 (d_next (rb_d r2)) (d_sealed (rb_d r2)) (f' ++ [mkBlock i' (bk_size ob + n) (bk_completed ob)])) c' ds)) with
    | Ok (h1', r1'), Ok (h2', r2') => rb_like h1' r1' h2' r2'
    | Panic, Panic | Err, Err | NoFuel, NoFuel => True
    | _, _ => False
    end).
  { intros g1 g2 dt1 dt2 c' f' i' t' ds L. pose proof (like_reslice _ _ _ _ t' (t' + n) L) as Q.
    destruct (reslice dt1 _ _) as [b1| | |], (reslice dt2 _ _) as [b2| | |]; try contradiction; cbn [bind]; auto.
    destruct Q as (Q & Q1 & Q2). pose proof (like_hcopy _ _ _ _ d Q) as K.
    destruct (hcopy g1 b1 d), (hcopy g2 b2 d); try contradiction; cbn [bind]; auto.
    destruct L as (L1 & L2 & _). repeat split; cbn [rb_d d_data d_next d_sealed d_blocks rb_capacity rb_discard]; auto.
    destruct (K dt1 dt2) as (_ & _ & K'); auto. }
  destruct ((tail <? head) && (head - tail >=? n)); [|destruct (negb (tail <? head) && (c - tail >=? n))].
  - cbn [bind]. specialize (Fin h1 h2 d1 d2 c front (bk_index ob) tail (rb_discard r2) Lk).
    destruct (reslice d1 _ _); destruct (reslice d2 _ _); cbn [bind] in *; exact Fin.
  - cbn [bind]. specialize (Fin h1 h2 d1 d2 c front (bk_index ob) tail (rb_discard r2) Lk).
    destruct (reslice d1 _ _); destruct (reslice d2 _ _); cbn [bind] in *; exact Fin.
  - destruct (negb (tail <? head) && (head >=? bk_size ob + n)).
    + pose proof (like_reslice _ _ _ _ (bk_index ob) (bk_index ob + bk_size ob) Lk) as Q.
      destruct (reslice d1 (bk_index ob) (bk_index ob + bk_size ob)) as [b1| | |], (reslice d2 (bk_index ob) (bk_index ob + bk_size ob)) as [b2| | |]; try contradiction; cbn [bind]; auto.
      destruct Q as (Q & _). rewrite (like_read _ _ _ _ Q). destruct (read h2 b2) as [src| | |]; cbn [bind]; auto.
      * pose proof (like_hcopy _ _ _ _ src Lk) as K. destruct (hcopy h1 d1 src) as [g1| | |], (hcopy h2 d2 src) as [g2| | |]; try contradiction; cbn [bind]; auto.
        specialize (Fin g1 g2 d1 d2 (tail - bk_size ob) front 0 (bk_size ob) (rb_discard r2) (K d1 d2 eq_refl eq_refl A B)).
        destruct (reslice d1 _ _); destruct (reslice d2 _ _); cbn [bind] in *; exact Fin.
    + pose proof (like_make h1 h2 ((s_len d2 + n) * 3 / 2)) as M.
      destruct (make h1 _) as [[g1 m1]| | |], (make h2 _) as [[g2 m2]| | |]; try contradiction; cbn [bind]; auto.
      destruct M as [M1 M2].
      pose proof (like_reslice _ _ _ _ (bk_index ob) (bk_index ob + bk_size ob) (M2 _ _ Lk)) as Q.
      destruct (reslice d1 (bk_index ob) (bk_index ob + bk_size ob)) as [b1| | |], (reslice d2 (bk_index ob) (bk_index ob + bk_size ob)) as [b2| | |]; try contradiction; cbn [bind]; auto.
      destruct Q as (Q & _). rewrite (like_read _ _ _ _ Q). destruct (read g2 b2) as [src| | |]; cbn [bind]; auto.
      * pose proof (like_hcopy _ _ _ _ src M1) as K. destruct (hcopy g1 m1 src) as [k1| | |], (hcopy g2 m2 src) as [k2| | |]; try contradiction; cbn [bind]; auto.
        pose proof M1 as (M3 & M4 & _).
        specialize (Fin k1 k2 m1 m2 ((s_len d2 + n) * 3 / 2) (skipn (Z.to_nat (Z.max (zlen (front ++ [ob]) - 1) 0)) front) 0 (bk_size ob) (Z.max (zlen (front ++ [ob]) - 1) 0) (K m1 m2 eq_refl eq_refl M3 M4)).
        destruct (reslice m1 _ _); destruct (reslice m2 _ _); cbn [bind] in *; exact Fin.
Qed.

Lemma like_fetch h1 r1 h2 r2 : rb_like h1 r1 h2 r2 ->
  match rb_fetch r1, rb_fetch r2 with
  | Ok (r1', x1), Ok (r2', x2) => rb_like h1 r1' h2 r2' /\ observe h1 (RSlice x1) = observe h2 (RSlice x2)
  | Panic, Panic => True
  | _, _ => False
  end.
Proof.
  intros (Lk & Nx & Sl & Bl & Cp & Dc). unfold rb_fetch, d_fetch. rewrite Sl, Bl, Nx, Cp, Dc.
  destruct (d_sealed (rb_d r2)) eqn:S; cbn [negb assert bind]; auto.
  destruct (last_of (d_blocks (rb_d r2))) as [t|]; cbn [of_opt bind]; auto.
  destruct (bk_completed t); cbn [bind].
  - split; [|reflexivity]. repeat split; cbn [rb_d rb_capacity rb_discard]; auto; try apply Lk; congruence.
  - pose proof (like_reslice _ _ _ _ (bk_index t) (bk_index t + bk_size t) Lk) as Q.
    destruct (reslice (d_data (rb_d r1)) _ _), (reslice (d_data (rb_d r2)) _ _); try contradiction; cbn [bind]; auto.
    destruct Q as (Q & _). split; [|cbn [observe]; now rewrite (like_read _ _ _ _ Q)].
    repeat split; cbn [rb_d rb_capacity rb_discard d_data d_next d_sealed d_blocks]; auto; apply Lk.
Qed.

Lemma like_pop h1 r1 h2 r2 : rb_like h1 r1 h2 r2 ->
  match rb_pop r1, rb_pop r2 with
  | Ok r1', Ok r2' => rb_like h1 r1' h2 r2'
  | Panic, Panic => True
  | _, _ => False
  end.
Proof.
  intros (Lk & Nx & Sl & Bl & Cp & Dc). unfold rb_pop, d_pop. rewrite Sl, Bl, Nx, Cp, Dc.
  destruct (d_sealed (rb_d r2)) eqn:S; cbn [negb assert bind]; auto.
  destruct (rb_discard r2 >? 0); cbn [bind d_blocks d_data].
  - repeat split; cbn [rb_d rb_capacity rb_discard]; auto; try apply Lk; congruence.
  - pose proof Lk as (_ & B & _). rewrite B. repeat split; cbn [rb_d rb_capacity rb_discard d_data d_next d_sealed d_blocks]; auto; apply Lk.
Qed.

Lemma like_pop_back h1 r1 h2 r2 : rb_like h1 r1 h2 r2 ->
  match rb_pop_back r1, rb_pop_back r2 with
  | Ok r1', Ok r2' => rb_like h1 r1' h2 r2'
  | Panic, Panic => True
  | _, _ => False
  end.
Proof.
  intros (Lk & Nx & Sl & Bl & Cp & Dc). unfold rb_pop_back, d_pop_back. rewrite Sl, Bl, Nx, Cp, Dc.
  destruct (d_sealed (rb_d r2)) eqn:S; cbn [negb assert bind]; auto.
  destruct (zlen (d_blocks (rb_d r2)) >? 0); cbn [assert bind]; auto.
  repeat split; cbn [rb_d rb_capacity rb_discard d_data d_next d_sealed d_blocks]; auto; apply Lk.
Qed.

Lemma like_new h1 h2 c :
  match rb_new h1 c, rb_new h2 c with
  | Ok (h1', r1), Ok (h2', r2) => rb_like h1' r1 h2' r2
  | Panic, Panic => True
  | _, _ => False
  end.
Proof.
  unfold rb_new, d_new. pose proof (like_make h1 h2 c) as M.
  destruct (make h1 c) as [[g1 s1]| | |], (make h2 c) as [[g2 s2]| | |]; try contradiction; cbn [bind]; auto.
  destruct M as [M _]. repeat split; cbn [rb_d d_data]; auto; apply M.
Qed.

(* ---------------------------------------------------------------------------------------- *)
(** ** What one buffer may touch. *)
Definition arr_of (r : rbuf) : nat := s_arr (d_data (rb_d r)).

Record rb_frame (h : heap) (r : rbuf) (h' : heap) (r' : rbuf) : Prop := {
  fr_wf : rb_wf h' r';
  fr_len : (length h <= length h')%nat;
  fr_arr : arr_of r' = arr_of r \/ arr_of r' = length h /\ length h' = S (length h);
  fr_eq : arr_of r' = arr_of r -> length h' = length h;
  fr_nth : forall i, (i < length h)%nat -> i <> arr_of r -> nth_error h' i = nth_error h i }.

Lemma hcopy_shape h s src h' : hcopy h s src = Ok h' -> length h' = length h /\ forall i, i <> s_arr s -> nth_error h' i = nth_error h i.
Proof.
  unfold hcopy. destruct (nth_error h (s_arr s)); cbn [of_opt bind]; [|discriminate]. destruct (copy_at _ _ _); cbn [of_opt bind]; [|discriminate].
  intros H. injection H as <-. split; [apply set_nth_length|]. intros i Hi. now apply set_nth_other; auto.
Qed.
Lemma reslice_arr s lo hi t : reslice s lo hi = Ok t -> s_arr t = s_arr s.
Proof. unfold reslice. destruct (_ && _); [|discriminate]. intros H. injection H as <-. reflexivity. Qed.

Lemma rb_write_frame h r d : rb_wf h r -> exists h' r', rb_write h r d = Ok (h', r') /\ rb_frame h r h' r'.
Proof.
  intros W. destruct (rb_pick r) as [[[[head tail] c] front] ob] eqn:Pk.
  destruct (rb_write_ok h r d _ _ _ _ _ W Pk) as (h' & r' & E & W' & L & _). exists h', r'. split; [exact E|].
  pose proof (valid_lt _ _ (proj1 W)) as La. fold (arr_of r) in La.
  unfold rb_write in E. rewrite rb_alloc_place in E. unfold rb_place in E. rewrite Pk in E. cbv zeta in E.
  set (d1 := d_data (rb_d r)) in *. set (n := zlen d) in *.
  assert (Q : (arr_of r' = arr_of r /\ length h' = length h \/ arr_of r' = length h /\ length h' = S (length h)) /\
              forall i, (i < length h)%nat -> i <> arr_of r -> nth_error h' i = nth_error h i).
  { assert (Fin : forall g1 dt1 c' f' i' t' ds, (bytes <- reslice dt1 t' (t' + n);; h' <- hcopy g1 bytes d;; Ok (h', mkRB (mkD dt1 (d_next (rb_d r)) (d_sealed (rb_d r)) (f' ++ [mkBlock i' (bk_size ob + n) (bk_completed ob)])) c' ds)) = Ok (h', r') ->
      arr_of r' = s_arr dt1 /\ length h' = length g1 /\ forall i, i <> s_arr dt1 -> nth_error h' i = nth_error g1 i).
    { intros g1 dt1 c' f' i' t' ds X. destruct (reslice dt1 t' (t' + n)) as [b| | |] eqn:R; try discriminate. cbn [bind] in X. destruct (hcopy g1 b d) as [g2| | |] eqn:Y; try discriminate. cbn [bind] in X. injection X as <- <-.
      apply hcopy_shape in Y as [Y1 Y2]. apply reslice_arr in R. split; [reflexivity|]. split; [auto|]. intros i Hi. apply Y2. congruence. }
    destruct ((tail <? head) && (head - tail >=? n)); [|destruct (negb (tail <? head) && (c - tail >=? n))].
    - cbn [bind] in E. specialize (Fin h d1 c front (bk_index ob) tail (rb_discard r)). destruct (reslice d1 _ _); try discriminate. cbn [bind] in *. destruct (Fin E) as (F1 & F2 & F3). split; [left; auto|]. intros i _ Hi. now apply F3.
    - cbn [bind] in E. specialize (Fin h d1 c front (bk_index ob) tail (rb_discard r)). destruct (reslice d1 _ _); try discriminate. cbn [bind] in *. destruct (Fin E) as (F1 & F2 & F3). split; [left; auto|]. intros i _ Hi. now apply F3.
    - destruct (negb (tail <? head) && (head >=? bk_size ob + n)).
      + destruct (reslice d1 (bk_index ob) _); try discriminate. cbn [bind] in E. destruct (read h a) as [src| | |]; try discriminate. cbn [bind] in E.
        destruct (hcopy h d1 src) as [g| | |] eqn:Hc; try discriminate. cbn [bind] in E. apply hcopy_shape in Hc as [Y1 Y2].
        specialize (Fin g d1 (tail - bk_size ob) front 0 (bk_size ob) (rb_discard r)).
        destruct (reslice d1 _ _); try discriminate. cbn [bind] in *. destruct (Fin E) as (F1 & F2 & F3). split; [left; split; [auto|congruence]|]. intros i _ Hi. rewrite F3, Y2; auto.
      + unfold make, assert in E. destruct (0 <=? _); [|discriminate]. cbn [bind] in E.
        destruct (reslice d1 (bk_index ob) _); try discriminate. cbn [bind] in E. destruct (read _ a) as [src| | |]; try discriminate. cbn [bind] in E.
        destruct (hcopy _ _ src) as [g| | |] eqn:Hc; try discriminate. cbn [bind] in E. apply hcopy_shape in Hc as [Y1 Y2]. cbn [s_arr] in Y2.
        rewrite app_length in Y1. cbn in Y1.
        match type of E with context [reslice ?x ?y ?z] => specialize (Fin g x ((s_len d1 + n) * 3 / 2) (skipn (Z.to_nat (Z.max (zlen (front ++ [ob]) - 1) 0)) front) 0 (bk_size ob) (Z.max (zlen (front ++ [ob]) - 1) 0)); destruct (reslice x y z); try discriminate end.
        cbn [bind] in *. destruct (Fin E) as (F1 & F2 & F3). cbn [s_arr] in *. split; [right; split; [auto|lia]|].
        intros i Hi _. rewrite F3 by lia. rewrite Y2 by lia. now rewrite nth_error_app1. }
  destruct Q as [Q1 Q2]. constructor; auto; [tauto|]. intros Ea. destruct Q1 as [Q1|Q1]; [tauto|]. lia.
Qed.

Lemma rb_frame_same h r r' : rb_wf h r' -> arr_of r' = arr_of r -> rb_frame h r h r'.
Proof. intros W E. constructor; auto. Qed.

Lemma rb_fetch_wf h r r' x : rb_wf h r -> rb_fetch r = Ok (r', x) -> rb_wf h r' /\ arr_of r' = arr_of r /\
  (forall s, x = Some s -> s_arr s = arr_of r /\ valid h s).
Proof.
  intros (V & S & C & D & F). unfold rb_fetch, d_fetch. rewrite S. cbn [negb assert bind].
  destruct (snoc_cases (d_blocks (rb_d r))) as [X|(f & t & X)]; rewrite X; [discriminate|]. rewrite last_of_snoc, removelast_snoc. cbn [of_opt bind].
  rewrite X in F. apply Forall_app in F as [F1 F2]. inversion F2 as [|? ? Ht _]; subst. destruct (bk_completed t); cbn [bind].
  - intros E. injection E as <- <-. split; [|split; [reflexivity|discriminate]]. repeat split; cbn [rb_d rb_capacity rb_discard]; auto; try lia. rewrite X. apply Forall_app. auto.
  - pose proof Ht as (B1 & B2 & B3). rewrite reslice_ok by lia. cbn [bind]. intros E. injection E as <- <-. split; [|split; [reflexivity|]].
    + repeat split; cbn [rb_d rb_capacity rb_discard d_data d_sealed d_blocks]; auto; try lia. apply Forall_app. split; [auto|]. constructor; [exact Ht|constructor].
    + intros s Es. injection Es as <-. split; [reflexivity|]. apply reslice_valid; auto; lia.
Qed.

Lemma rb_pop_wf h r r' : rb_wf h r -> rb_pop r = Ok r' -> rb_wf h r' /\ arr_of r' = arr_of r.
Proof.
  intros (V & S & C & D & F). unfold rb_pop, d_pop. rewrite S. cbn [negb assert bind].
  destruct (rb_discard r >? 0) eqn:Dz; cbn [bind]; intros E; injection E as <-; (split; [|reflexivity]).
  - repeat split; cbn [rb_d rb_capacity rb_discard]; auto; lia.
  - assert (Wt : Forall (blk_ok (s_len (d_data (rb_d r)))) (tl (d_blocks (rb_d r)))).
    { destruct (d_blocks (rb_d r)); cbn; auto. now inversion F. }
    repeat split; cbn [rb_d rb_capacity rb_discard d_data d_sealed d_blocks]; auto;
      (destruct (match first_of _ with None => true | Some _ => _ end); lia).
Qed.

Lemma rb_pop_back_wf h r r' : rb_wf h r -> rb_pop_back r = Ok r' -> rb_wf h r' /\ arr_of r' = arr_of r.
Proof.
  intros (V & S & C & D & F). unfold rb_pop_back, d_pop_back. rewrite S. cbn [negb assert bind].
  destruct (zlen (d_blocks (rb_d r)) >? 0); cbn [assert bind]; [|discriminate]. intros E; injection E as <-; (split; [|reflexivity]).
  repeat split; cbn [rb_d rb_capacity rb_discard d_data d_sealed d_blocks]; auto; try lia.
  destruct (snoc_cases (d_blocks (rb_d r))) as [X|(f & t & X)]; rewrite X in *; [constructor|]. rewrite removelast_snoc. now apply Forall_app in F.
Qed.

(* ---------------------------------------------------------------------------------------- *)
(** ** The whole StreamsBuffer: every array belongs to one stream. *)

Definition set_alone (al : Z -> alone) (i : Z) (st : alone) : Z -> alone := fun k => if k =? i then st else al k.

Record sb_inv (h : heap) (s : sbuf) (al : Z -> alone) (own : list Z) (sl : list (Z * gslice)) : Prop := {
  si_own : length own = length h;
  si_buf : forall j r, idx s j = Some r -> rb_wf h r /\ nth_error own (arr_of r) = Some j /\
             exists h2 r2, al j = Some (h2, r2) /\ rb_like h r h2 r2;
  si_none : forall j, ~ (0 <= j < zlen s) -> al j = None;
  si_sl : forall j t, In (j, t) sl -> nth_error own (s_arr t) = Some j }.

Lemma wf_transport h h' r : rb_wf h r -> nth_error h' (arr_of r) = nth_error h (arr_of r) -> rb_wf h' r.
Proof.
  intros (V & R) E. split; [|exact R]. destruct V as (a & Ea & V). exists a. split; [|exact V]. unfold arr_of in E. now rewrite E.
Qed.
Lemma like_transport h h' r h2 r2 : rb_like h r h2 r2 -> nth_error h' (arr_of r) = nth_error h (arr_of r) -> rb_like h' r h2 r2.
Proof.
  intros ((A & B & a & Ea & Eb) & R) E. split; [|exact R]. split; [exact A|]. split; [exact B|]. exists a. unfold arr_of in E. now rewrite E.
Qed.

Lemma sb_put_inv h s al own sl i r h' r' h2 r2 : sb_inv h s al own sl -> idx s i = Some r ->
  rb_frame h r h' r' -> rb_like h' r' h2 r2 ->
  exists own', sb_inv h' (sb_put s i r') (set_alone al i (Some (h2, r2))) own' sl /\
    (forall k j, nth_error own k = Some j -> nth_error own' k = Some j) /\
    nth_error own' (arr_of r') = Some i /\
    (forall k j, nth_error own k = Some j -> j <> i -> nth_error h' k = nth_error h k).
Proof.
  intros [So Sb Sn Ss] Ei [Fw Fl Fa Fe Fn] Lk.
  pose proof (idx_inv _ _ _ Ei) as Ri. destruct (Sb _ _ Ei) as (Wr & Or & _).
  pose proof (valid_lt _ _ (proj1 Wr)) as Lr. fold (arr_of r) in Lr.
  assert (Keep : forall k j, nth_error own k = Some j -> j <> i -> nth_error h' k = nth_error h k).
  { intros k j Hk Hj. apply Fn; [rewrite <- So; apply nth_error_Some; congruence|]. intros ->. congruence. }
  assert (X : exists own', length own' = length h' /\ (forall k j, nth_error own k = Some j -> nth_error own' k = Some j) /\ nth_error own' (arr_of r') = Some i).
  { destruct Fa as [Fa|[Fa1 Fa2]].
    - exists own. rewrite Fa. split; [rewrite So; symmetry; auto|auto].
    - exists (own ++ [i]). split; [rewrite app_length; cbn; lia|]. split.
      + intros k j Hk. rewrite nth_error_app1; [auto|]. apply nth_error_Some. congruence.
      + rewrite Fa1, <- So, nth_error_app2, Nat.sub_diag by lia. reflexivity. }
  destruct X as (own' & X1 & X2 & X3). exists own'. split; [|auto]. constructor; auto.
  - intros j rj Ej. unfold sb_put in Ej. unfold set_alone. destruct (Z.eq_dec j i) as [->|Nj].
    + rewrite idx_set_nth_same in Ej by lia. injection Ej as <-. rewrite Z.eqb_refl. split; [exact Fw|]. split; [exact X3|]. eauto.
    + rewrite idx_set_nth_other in Ej by lia. replace (j =? i) with false by lia. destruct (Sb _ _ Ej) as (Wj & Oj & h2' & r2' & Aj & Lj).
      split; [|split; [auto|]].
      * eapply wf_transport; eauto.
      * exists h2', r2'. split; [auto|]. eapply like_transport; eauto.
  - intros j Hj. unfold set_alone, sb_put in *. rewrite zlen_set_nth in Hj. replace (j =? i) with false by lia. auto.
Qed.

Lemma sb_create_inv h s al own sl i v h1 s1 r : sb_inv h s al own sl -> sb_find_or_create h s i v = Ok (h1, s1, r) ->
  exists own1 h2 r2, alone_open (al i) v = Ok (h2, r2) /\ rb_like h1 r h2 r2 /\ idx s1 i = Some r /\
    sb_inv h1 s1 (set_alone al i (Some (h2, r2))) own1 sl /\
    (forall k j, nth_error own k = Some j -> nth_error own1 k = Some j) /\
    (forall k, (k < length h)%nat -> nth_error h1 k = nth_error h k).
Proof.
  intros I. pose proof I as [So Sb Sn Ss]. unfold sb_find_or_create. destruct (i <? zlen s) eqn:L.
  - cbn [bind]. destruct (idx s i) as [r0|] eqn:Ei; [|discriminate]. cbn [of_opt bind]. intros E. injection E as <- <- <-.
    destruct (Sb _ _ Ei) as (W & O & h2 & r2 & Al & Lk). exists own, h2, r2. rewrite Al. cbn [alone_open]. split; [reflexivity|].
    split; [exact Lk|]. split; [exact Ei|]. split; [|auto]. constructor; auto.
    + intros j rj Ej. destruct (Sb _ _ Ej) as (A & B & C). split; [auto|]. split; [auto|]. unfold set_alone.
      destruct (j =? i) eqn:X; [|auto]. assert (j = i) by lia. subst j. rewrite Ei in Ej. injection Ej as <-. eauto.
    + intros j Hj. unfold set_alone. destruct (j =? i) eqn:X; [|auto]. assert (j = i) by lia. subst j. pose proof (idx_inv _ _ _ Ei). lia.
  - pose proof (like_new h [] (stream_capacity v)) as K.
    destruct (rb_new_inv false h (stream_capacity v)) as (g & r0 & En & (W0 & _)); [destruct v; cbn; lia|]. rewrite En in *. cbn [bind].
    destruct (rb_new [] (stream_capacity v)) as [[h2 r2]| | |] eqn:E2; try contradiction.
    destruct (idx (s ++ [r0]) i) as [ri|] eqn:Ei; [|discriminate]. cbn [of_opt bind]. intros E. injection E as <- <- <-.
    pose proof (idx_inv _ _ _ Ei) as Ri. rewrite zlen_app in Ri. change (zlen [r0]) with 1 in Ri. assert (i = zlen s) as -> by lia.
    rewrite idx_app_r, Z.sub_diag in Ei by lia. injection Ei as <-.
    unfold rb_new, d_new in En. rewrite make_ok in En by (destruct v; cbn; lia). cbn [bind] in En. injection En as <- <-.
    exists (own ++ [zlen s]), h2, r2. rewrite Sn by lia. cbn [alone_open]. split; [exact E2|]. split; [exact K|].
    split; [rewrite idx_app_r, Z.sub_diag by lia; reflexivity|].
    assert (Kp : forall k, (k < length h)%nat -> nth_error (h ++ [zeros (Z.to_nat (stream_capacity v))]) k = nth_error h k) by (intros; now apply nth_error_app1).
    assert (Ko : forall k j, nth_error own k = Some j -> nth_error (own ++ [zlen s]) k = Some j).
    { intros k j Hk. rewrite nth_error_app1; [auto|]. apply nth_error_Some. congruence. }
    split; [|split; [exact Ko|exact Kp]].
    constructor; auto.
    + rewrite !app_length. cbn. lia.
    + intros j rj Ej. pose proof (idx_inv _ _ _ Ej) as Rj. rewrite zlen_app in Rj. change (zlen [_]) with 1 in Rj. unfold set_alone.
      destruct (Z.eq_dec j (zlen s)) as [->|Nj].
      * rewrite idx_app_r, Z.sub_diag in Ej by lia. injection Ej as <-. rewrite Z.eqb_refl. split; [exact W0|]. split; [|eauto].
        cbn [arr_of rb_d d_data s_arr]. rewrite <- So, nth_error_app2, Nat.sub_diag by lia. reflexivity.
      * rewrite idx_app_l in Ej by lia. replace (j =? zlen s) with false by lia. destruct (Sb _ _ Ej) as (A & B & h3 & r3 & C & D).
        pose proof (valid_lt _ _ (proj1 A)) as Lj. fold (arr_of rj) in Lj.
        split; [eapply wf_transport; eauto|]. split; [auto|]. exists h3, r3. split; [auto|]. eapply like_transport; eauto.
    + intros j Hj. rewrite zlen_app in Hj. change (zlen [_]) with 1 in Hj. unfold set_alone. pose proof (zlen_nonneg s). replace (j =? zlen s) with false by lia. apply Sn. lia.
Qed.

Definition raw_slices (i : Z) (r : raw) : list (Z * gslice) := match raw_slice r with Some t => [(i, t)] | None => [] end.

Lemma set_alone_same al i st : set_alone al i st i = st.
Proof. unfold set_alone. now rewrite Z.eqb_refl. Qed.
Lemma set_alone_twice al i x y : forall k, set_alone (set_alone al i x) i y k = set_alone al i y k.
Proof. intros k. unfold set_alone. destruct (k =? i); reflexivity. Qed.

Lemma sb_inv_ext h s al al' own sl : (forall k, al k = al' k) -> sb_inv h s al own sl -> sb_inv h s al' own sl.
Proof.
  intros E [A B C D]. constructor; auto.
  - intros j r H. rewrite <- E. auto.
  - intros j H. rewrite <- E. auto.
Qed.

Lemma sb_step h s al own sl i o h' s' r out : sb_inv h s al own sl -> sb_impl h s i o = Ok (h', s', r) -> observe h' r = Ok out ->
  exists st own', alone_step (al i) o = Ok (st, out) /\ sb_inv h' s' (set_alone al i st) own' (sl ++ raw_slices i r) /\
    (forall k j, nth_error own k = Some j -> j <> i -> nth_error h' k = nth_error h k).
Proof.
  intros I E Ob. pose proof I as [So Sb Sn Ss]. destruct o as [d v| | | |]; cbn [sb_impl] in E.
  - unfold sb_write in E. destruct (sb_find_or_create h s i v) as [[[h1 s1] r1]| | |] eqn:C; try discriminate. cbn [bind] in E.
    destruct (sb_create_inv _ _ _ _ _ _ _ _ _ _ I C) as (own1 & h2 & r2 & Op & Lk & Ei & I1 & Ko & Kp).
    destruct (si_buf _ _ _ _ _ I1 _ _ Ei) as (W1 & O1 & _).
    destruct (rb_write_frame h1 r1 d W1) as (h3 & r3 & Ew & Fr). rewrite Ew in E. cbn [bind] in E. injection E as <- <- <-.
    pose proof (like_write _ _ _ _ d Lk) as K. rewrite Ew in K. destruct (rb_write h2 r2 d) as [[h4 r4]| | |] eqn:Ew2; try contradiction.
    destruct (sb_put_inv _ _ _ _ _ _ _ _ _ _ _ I1 Ei Fr K) as (own' & I2 & Ko2 & _ & Kp2).
    exists (Some (h4, r4)), own'. cbn [alone_step]. rewrite Op. cbn [bind]. rewrite Ew2. cbn [bind].
    cbn [observe] in Ob. injection Ob as <-. split; [reflexivity|]. unfold raw_slices. cbn [raw_slice]. rewrite app_nil_r.
    split; [eapply sb_inv_ext; [|exact I2]; apply set_alone_twice|].
    intros k j Hk Hj. rewrite (Kp2 k j (Ko _ _ Hk) Hj). apply Kp. rewrite <- So. apply nth_error_Some. congruence.
  - unfold sb_fetch in E. destruct (sb_find_or_create h s i false) as [[[h1 s1] r1]| | |] eqn:C; try discriminate. cbn [bind] in E.
    destruct (sb_create_inv _ _ _ _ _ _ _ _ _ _ I C) as (own1 & h2 & r2 & Op & Lk & Ei & I1 & Ko & Kp).
    destruct (si_buf _ _ _ _ _ I1 _ _ Ei) as (W1 & O1 & _).
    destruct (rb_fetch r1) as [[r3 x]| | |] eqn:Ef; try discriminate. cbn [bind] in E. injection E as <- <- <-.
    pose proof (like_fetch _ _ _ _ Lk) as K. rewrite Ef in K. destruct (rb_fetch r2) as [[r4 x2]| | |] eqn:Ef2; try contradiction. destruct K as [K1 K2].
    destruct (rb_fetch_wf _ _ _ _ W1 Ef) as (W3 & A3 & X3).
    destruct (sb_put_inv _ _ _ _ _ _ _ _ _ _ _ I1 Ei (rb_frame_same _ _ _ W3 A3) K1) as (own' & I2 & Ko2 & Oi & Kp2).
    exists (Some (h2, r4)), own'. cbn [alone_step]. rewrite Op. cbn [bind]. rewrite Ef2. cbn [bind]. rewrite <- K2, Ob. cbn [bind].
    split; [reflexivity|]. split.
    + destruct I2 as [J1 J2 J3 J4]. constructor; auto.
      * intros j rj Hj. destruct (J2 j rj Hj) as (P1 & P2 & P3). split; [exact P1|]. split; [exact P2|]. rewrite set_alone_twice in P3. exact P3.
      * intros j Hj. specialize (J3 j Hj). rewrite set_alone_twice in J3. exact J3.
      * intros j t Ht. apply in_app_or in Ht as [Ht|Ht]; [auto|]. unfold raw_slices in Ht. cbn [raw_slice] in Ht. destruct x as [t'|]; [|destruct Ht].
        destruct Ht as [Ht|[]]. injection Ht as <- <-. destruct (X3 _ eq_refl) as [A _]. rewrite A, <- A3. exact Oi.
    + intros k j Hk Hj. apply Kp. rewrite <- So. apply nth_error_Some. congruence.
  - unfold sb_discard_head in E. destruct (idx s i) as [r1|] eqn:Ei; [|discriminate]. cbn [of_opt bind] in E.
    destruct (rb_pop r1) as [r3| | |] eqn:Ef; try discriminate. cbn [bind] in E. injection E as <- <- <-.
    destruct (Sb _ _ Ei) as (W1 & O1 & h2 & r2 & Al & Lk). pose proof (like_pop _ _ _ _ Lk) as K. rewrite Ef in K.
    destruct (rb_pop r2) as [r4| | |] eqn:Ef2; try contradiction. destruct (rb_pop_wf _ _ _ W1 Ef) as (W3 & A3).
    destruct (sb_put_inv _ _ _ _ _ _ _ _ _ _ _ I Ei (rb_frame_same _ _ _ W3 A3) K) as (own' & I2 & Ko2 & Oi & Kp2).
    exists (Some (h2, r4)), own'. cbn [alone_step]. rewrite Al. cbn [of_opt bind]. rewrite Ef2. cbn [bind]. cbn in Ob. injection Ob as <-.
    split; [reflexivity|]. unfold raw_slices. cbn [raw_slice]. rewrite app_nil_r. split; [exact I2|]. eauto.
  - unfold sb_discard_back in E. destruct (idx s i) as [r1|] eqn:Ei; [|discriminate]. cbn [of_opt bind] in E.
    destruct (rb_pop_back r1) as [r3| | |] eqn:Ef; try discriminate. cbn [bind] in E. injection E as <- <- <-.
    destruct (Sb _ _ Ei) as (W1 & O1 & h2 & r2 & Al & Lk). pose proof (like_pop_back _ _ _ _ Lk) as K. rewrite Ef in K.
    destruct (rb_pop_back r2) as [r4| | |] eqn:Ef2; try contradiction. destruct (rb_pop_back_wf _ _ _ W1 Ef) as (W3 & A3).
    destruct (sb_put_inv _ _ _ _ _ _ _ _ _ _ _ I Ei (rb_frame_same _ _ _ W3 A3) K) as (own' & I2 & Ko2 & Oi & Kp2).
    exists (Some (h2, r4)), own'. cbn [alone_step]. rewrite Al. cbn [of_opt bind]. rewrite Ef2. cbn [bind]. cbn in Ob. injection Ob as <-.
    split; [reflexivity|]. unfold raw_slices. cbn [raw_slice]. rewrite app_nil_r. split; [exact I2|]. eauto.
  - unfold sb_pending in E. destruct (sb_find_or_create h s i false) as [[[h1 s1] r1]| | |] eqn:C; try discriminate. cbn [bind] in E.
    destruct (sb_create_inv _ _ _ _ _ _ _ _ _ _ I C) as (own1 & h2 & r2 & Op & Lk & Ei & I1 & Ko & Kp). injection E as <- <- <-.
    exists (Some (h2, r2)), own1. cbn [alone_step]. rewrite Op. cbn [bind]. cbn in Ob. injection Ob as <-.
    split; [|unfold raw_slices; cbn [raw_slice]; rewrite app_nil_r; split; [exact I1|]].
    + do 3 f_equal. unfold rb_pending, d_pending. destruct Lk as (_ & _ & _ & Bl & _). now rewrite Bl.
    + intros k j Hk _. apply Kp. rewrite <- So. apply nth_error_Some. congruence.
Qed.

Lemma of_stream_cons {A} j i (x : A) l : of_stream j ((i, x) :: l) = if i =? j then x :: of_stream j l else of_stream j l.
Proof. unfold of_stream. cbn [filter fst]. destruct (i =? j); reflexivity. Qed.

Definition out_slices (outs : list (Z * (raw * bb_out))) : list (Z * gslice) :=
  flat_map (fun p => raw_slices (fst p) (fst (snd p))) outs.

Lemma sb_run_sim ops : forall h s al own sl h' s' outs, sb_inv h s al own sl -> sb_run h s ops = Ok (h', s', outs) ->
  (forall j, exists st, alone_run (al j) (of_stream j ops) = Ok (st, map snd (of_stream j outs))) /\
  exists al' own', sb_inv h' s' al' own' (sl ++ out_slices outs).
Proof.
  induction ops as [|[i o] ops IH]; intros h s al own sl h' s' outs I E; cbn [sb_run] in E.
  - injection E as <- <- <-. split; [intros j; exists (al j); reflexivity|]. exists al, own. cbn [out_slices flat_map]. now rewrite app_nil_r.
  - destruct (sb_impl h s i o) as [[[h1 s1] r]| | |] eqn:X; try discriminate. cbn [bind] in E.
    destruct (observe h1 r) as [out| | |] eqn:Ob; try discriminate. cbn [bind] in E.
    destruct (sb_run h1 s1 ops) as [[[h2 s2] os]| | |] eqn:R; try discriminate. cbn [bind] in E. injection E as <- <- <-.
    destruct (sb_step _ _ _ _ _ _ _ _ _ _ _ I X Ob) as (st & own' & As & I1 & _).
    destruct (IH _ _ _ _ _ _ _ _ I1 R) as [H1 (al' & own2 & H2)]. split.
    + intros j. rewrite !of_stream_cons. destruct (H1 j) as (st2 & Q). destruct (i =? j) eqn:Eij.
      * assert (i = j) by lia. subst j. rewrite set_alone_same in Q. exists st2. cbn [alone_run]. rewrite As. cbn [bind]. rewrite Q. reflexivity.
      * exists st2. unfold set_alone in Q. replace (j =? i) with false in Q by lia. exact Q.
    + exists al', own2. cbn [out_slices flat_map fst snd]. rewrite app_assoc. exact H2.
Qed.

Lemma sb_inv_init h : sb_inv h [] (fun _ => None) (repeat (-1) (length h)) [].
Proof.
  constructor; auto.
  - apply repeat_length.
  - intros j r H. apply idx_inv in H. change (zlen (@nil rbuf)) with 0 in H. lia.
  - intros j t [].
Qed.

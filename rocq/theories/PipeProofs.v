(** * PipeProofs: the memory of DirectDataPipeline. *)
From Verif Require Import Base RingProofs CollectionsSpec BlockModel HeapProofs PipelineProofs PipeModel PipeSpec.

Lemma over_firstn d : forall a m, (length d <= length a)%nat -> over (firstn m a) d = firstn m (d ++ skipn (length d) a).
Proof.
  induction d as [|y d IH]; intros a m L; [destruct a, m; reflexivity|]. destruct a as [|x a]; [cbn in L; lia|].
  destruct m as [|m]; [reflexivity|]. cbn [firstn over app length skipn]. f_equal. apply IH. cbn in L. lia.
Qed.
Lemma overlay_firstn k : forall a m d, (k + length d <= length a)%nat -> overlay (firstn m a) k d = firstn m (firstn k a ++ d ++ skipn (k + length d) a).
Proof.
  induction k as [|k IH]; intros a m d L; cbn [overlay firstn app Nat.add]; [now apply over_firstn|].
  destruct a as [|x a]; [cbn in L; lia|]. destruct m as [|m]; [reflexivity|]. cbn [firstn app skipn]. f_equal. apply IH. cbn in L. lia.
Qed.

Lemma skipn_zeros k n : skipn k (zeros n) = zeros (n - k).
Proof. unfold zeros. revert n. induction k as [|k IH]; intros n; [now rewrite Nat.sub_0_r|]. destruct n as [|n]; [reflexivity|]. cbn [repeat skipn]. apply IH. Qed.

(** The live array. *)
Definition live (h : heap) (p : hpipe) (a : list Z) : Prop :=
  nth_error h (s_arr (hp_data p)) = Some a /\ s_off (hp_data p) = 0 /\ s_len (hp_data p) = zlen a /\ 0 <= hp_size p.

Lemma live_valid h p a : live h p a -> valid h (hp_data p).
Proof. intros (E & O & L & _). exists a. pose proof (zlen_nonneg a). rewrite O, L. repeat split; [exact E|lia..]. Qed.

Definition prefix_of (p : hpipe) (t : gslice) : Prop := s_arr t = s_arr (hp_data p) /\ s_off t = 0 /\ 0 <= s_len t <= s_len (hp_data p).
Definition frozen (h : heap) (p : hpipe) (t : gslice) : Prop := s_arr t <> s_arr (hp_data p) /\ (s_arr t < length h)%nat.

(** One Write: what the live array becomes, and what other arrays keep. *)
Lemma hp_write_cases h p a d h' p' n : live h p a -> hp_write h p d = Ok (h', p', n) ->
  n = hp_size p + zlen d /\ hp_size p' = n /\
  ((zlen a - hp_size p <? zlen d = false /\ hp_data p' = hp_data p /\ length h' = length h /\ live h' p' (firstn (Z.to_nat (hp_size p)) a ++ d ++ skipn (Z.to_nat (hp_size p) + length d) a) /\
     hp_size p + zlen d <= zlen a /\ (forall i, i <> s_arr (hp_data p) -> nth_error h' i = nth_error h i)) \/
   (zlen a - hp_size p <? zlen d = true /\ hp_size p <= zlen a /\ s_arr (hp_data p') = length h /\ length h' = S (length h) /\
     live h' p' (firstn (Z.to_nat (hp_size p)) a ++ d ++ zeros (Z.to_nat (hp_size p + zlen d))) /\ (forall i, (i < length h)%nat -> nth_error h' i = nth_error h i))).
Proof.
  intros L E. pose proof (live_valid _ _ _ L) as V. destruct L as (Ea & O & La & Hs). pose proof (zlen_nonneg d) as Hd. pose proof (zlen_nonneg a) as Ha. unfold hp_write in E. rewrite La in E.
  destruct (zlen a - hp_size p <? zlen d) eqn:C.
  - rewrite make_ok in E by lia. cbn [bind] in E. set (c := (hp_size p + zlen d) * 2) in *.
    destruct (Z_le_dec (hp_size p) (zlen a)) as [Hl|Hl].
    2:{ unfold reslice at 1 in E. rewrite La in E. replace ((0 <=? 0) && (0 <=? hp_size p) && (hp_size p <=? zlen a)) with false in E by lia. discriminate E. }
    rewrite reslice_ok in E by lia. cbn [bind] in E. set (h1 := h ++ [zeros (Z.to_nat c)]) in *.
    assert (Vs : valid h (mkSlice (s_arr (hp_data p)) (s_off (hp_data p) + 0) (hp_size p - 0))) by (apply reslice_valid; auto; lia).
    destruct (valid_read _ _ Vs) as (old & Ro & Lo). cbn [s_len] in Lo. assert (Ro1 : read h1 (mkSlice (s_arr (hp_data p)) (s_off (hp_data p) + 0) (hp_size p - 0)) = Ok old) by (unfold h1; rewrite read_app by (apply (valid_lt _ _ Vs)); exact Ro). rewrite Ro1 in E. cbn [bind] in E.
    assert (V1 : valid h1 (mkSlice (length h) 0 c)) by (apply make_valid; lia).
    destruct (hcopy_ok h1 _ old V1 ltac:(cbn [s_len]; lia)) as (h2 & E2 & L2 & (b & b' & Nb & Nb' & Cb & Fb) & O2). rewrite E2 in E. cbn [bind s_len s_arr s_off] in *.
    rewrite reslice_ok in E by (cbn [s_len]; lia). cbn [bind s_arr s_off] in E.
    pose proof (hcopy_valid h1 _ old V1 ltac:(cbn [s_len]; lia) h2 _ E2 V1) as V2.
    pose proof (reslice_valid h2 _ (hp_size p) c V2 ltac:(lia) ltac:(cbn [s_len]; lia)) as V3. cbn [s_arr s_off] in V3.
    destruct (hcopy_ok h2 _ d V3 ltac:(cbn [s_len]; lia)) as (h3 & E3 & L3 & (b2 & b3 & Nb2 & Nb3 & Cb3 & Fb3) & O3). rewrite E3 in E. cbn [bind s_len s_arr s_off] in *.
    injection E as <- <- <-. split; [reflexivity|]. split; [reflexivity|]. right. cbn [hp_data s_arr].
    assert (Lh1 : length h1 = S (length h)) by (unfold h1; rewrite app_length; cbn; lia).
    assert (b = zeros (Z.to_nat c)). { unfold h1 in Nb. rewrite nth_error_app2, Nat.sub_diag in Nb by lia. now injection Nb. } subst b.
    assert (b2 = b') by congruence. subst b2.
    assert (old = firstn (Z.to_nat (hp_size p)) a) as ->.
    { unfold read in Ro. cbn [s_arr s_off s_len] in Ro. rewrite Ea, O in Ro. cbn [of_opt bind] in Ro. rewrite slice_some in Ro by lia. cbn [of_opt] in Ro. injection Ro as <-.
      cbn [Z.to_nat skipn]. f_equal. lia. }
    assert (Lz : length (zeros (Z.to_nat c)) = Z.to_nat c) by apply zeros_length.
    rewrite copy_at_fits in Cb by lia. injection Cb as <-. cbn [Z.to_nat firstn app] in *.
    rewrite copy_at_fits in Cb3 by (rewrite ?zlen_app in *; lia). injection Cb3 as <-.
    split; [reflexivity|]. split; [exact Hl|]. split; [reflexivity|]. split; [lia|]. split.
    + unfold live. cbn [hp_data hp_size s_arr s_off s_len].
      assert (Q : forall x y z : list Z, length x = Z.to_nat (hp_size p) -> firstn (Z.to_nat (hp_size p + 0)) (x ++ y) ++ d ++ skipn (Z.to_nat (hp_size p + zlen d)) (x ++ z) = x ++ d ++ skipn (length d) z).
      { intros x y z Lx. rewrite Z.add_0_r, <- Lx, firstn_app, firstn_all, Nat.sub_diag. cbn [firstn]. rewrite app_nil_r. f_equal. f_equal.
        rewrite skipn_app, skipn_all2 by (unfold zlen; lia). cbn [app]. f_equal. unfold zlen. lia. }
      assert (Lf : length (firstn (Z.to_nat (hp_size p)) a) = Z.to_nat (hp_size p)) by (rewrite firstn_length; unfold zlen in *; lia).
      rewrite Z.add_0_r in Q. rewrite Q in Nb3 by exact Lf.
      replace (skipn (length d) (skipn (Z.to_nat (zlen (firstn (Z.to_nat (hp_size p)) a))) (zeros (Z.to_nat c)))) with (zeros (Z.to_nat (hp_size p + zlen d))) in Nb3.
      2:{ rewrite skipn_skipn, skipn_zeros. f_equal. unfold zlen in *. rewrite Lf. unfold c. lia. }
      split; [exact Nb3|]. split; [reflexivity|]. split; [|lia]. rewrite !zlen_app. unfold zlen. rewrite zeros_length, Lf. unfold c, zlen. lia.
    + intros i Hi. rewrite O3 by lia. rewrite O2 by lia. unfold h1. now rewrite nth_error_app1.
  - cbn [bind] in E. rewrite reslice_ok in E by lia. cbn [bind] in E.
    pose proof (reslice_valid h _ (hp_size p) (s_len (hp_data p)) V ltac:(lia) ltac:(lia)) as V3.
    destruct (hcopy_ok h _ d V3 ltac:(cbn [s_len]; lia)) as (h3 & E3 & L3 & (b2 & b3 & Nb2 & Nb3 & Cb3 & Fb3) & O3). rewrite E3 in E. cbn [bind s_len s_arr s_off] in *.
    injection E as <- <- <-. split; [reflexivity|]. split; [reflexivity|]. left. cbn [hp_data]. assert (b2 = a) by congruence. subst b2. rewrite O in *. cbn [Z.add] in *.
    rewrite copy_at_fits in Cb3 by lia. injection Cb3 as <-. split; [reflexivity|]. split; [reflexivity|]. split; [exact L3|]. split; [|split; [lia|exact O3]].
    unfold live. cbn [hp_data hp_size]. replace (Z.to_nat (hp_size p + zlen d)) with (Z.to_nat (hp_size p) + length d)%nat in Nb3 by (unfold zlen in *; lia).
    split; [exact Nb3|]. split; [exact O|]. split; [|lia]. rewrite La, !zlen_app. unfold zlen in *. rewrite firstn_length, skipn_length. lia.
Qed.

Lemma hp_write_total h p a d : live h p a ->
  if zlen a <? hp_size p then hp_write h p d = Panic else exists h' p' n, hp_write h p d = Ok (h', p', n).
Proof.
  intros L. pose proof (live_valid _ _ _ L) as V. destruct L as (Ea & O & La & Hs). pose proof (zlen_nonneg d) as Hd. pose proof (zlen_nonneg a) as Ha. unfold hp_write. rewrite La.
  destruct (zlen a <? hp_size p) eqn:Z0.
  - replace (zlen a - hp_size p <? zlen d) with true by lia. rewrite make_ok by lia. cbn [bind]. unfold reslice at 1. rewrite La.
    replace ((0 <=? 0) && (0 <=? hp_size p) && (hp_size p <=? zlen a)) with false by lia. reflexivity.
  - destruct (zlen a - hp_size p <? zlen d) eqn:C.
    + rewrite make_ok by lia. cbn [bind]. set (c := (hp_size p + zlen d) * 2) in *.
      rewrite reslice_ok by lia. cbn [bind]. set (h1 := h ++ [zeros (Z.to_nat c)]) in *.
      assert (Vs : valid h (mkSlice (s_arr (hp_data p)) (s_off (hp_data p) + 0) (hp_size p - 0))) by (apply reslice_valid; auto; lia).
      destruct (valid_read _ _ Vs) as (old & Ro & Lo). cbn [s_len] in Lo.
      assert (Ro1 : read h1 (mkSlice (s_arr (hp_data p)) (s_off (hp_data p) + 0) (hp_size p - 0)) = Ok old) by (unfold h1; rewrite read_app by (apply (valid_lt _ _ Vs)); exact Ro).
      rewrite Ro1. cbn [bind].
      assert (V1 : valid h1 (mkSlice (length h) 0 c)) by (apply make_valid; lia).
      destruct (hcopy_ok h1 _ old V1 ltac:(cbn [s_len]; lia)) as (h2 & E2 & _). rewrite E2. cbn [bind s_len s_arr s_off].
      rewrite reslice_ok by (cbn [s_len]; lia). cbn [bind s_arr s_off].
      pose proof (hcopy_valid h1 _ old V1 ltac:(cbn [s_len]; lia) h2 _ E2 V1) as V2.
      pose proof (reslice_valid h2 _ (hp_size p) c V2 ltac:(lia) ltac:(cbn [s_len]; lia)) as V3. cbn [s_arr s_off] in V3.
      destruct (hcopy_ok h2 _ d V3 ltac:(cbn [s_len]; lia)) as (h3 & E3 & _). rewrite E3. cbn [bind]. eauto.
    + cbn [bind]. rewrite reslice_ok by lia. cbn [bind].
      pose proof (reslice_valid h _ (hp_size p) (s_len (hp_data p)) V ltac:(lia) ltac:(lia)) as V3.
      destruct (hcopy_ok h _ d V3 ltac:(cbn [s_len]; lia)) as (h3 & E3 & _). rewrite E3. cbn [bind]. eauto.
Qed.

Lemma read_prefix h p a t : live h p a -> prefix_of p t -> read h t = Ok (firstn (Z.to_nat (s_len t)) a).
Proof.
  intros (Ea & O & La & _) (A & B & C). unfold read. rewrite A, B, Ea. cbn [of_opt bind]. rewrite slice_some by lia. cbn [of_opt Z.to_nat skipn]. do 2 f_equal. lia.
Qed.

(** One call. *)
Lemma pp_call_live h p a o h' p' x : live h p a -> pp_call h p o = Ok (h', p', x) ->
  exists a', live h' p' a' /\ (zlen a', hp_size p') = geom (zlen a, hp_size p) o /\ (length h <= length h')%nat /\
    (forall t, frozen h p t -> read h' t = read h t /\ frozen h' p' t) /\
    (forall t, prefix_of p t -> match o with
      | PWrite d => if zlen a - hp_size p <? zlen d then read h' t = read h t /\ frozen h' p' t
                    else exists l, read h t = Ok l /\ read h' t = Ok (overlay l (Z.to_nat (hp_size p)) d) /\ prefix_of p' t
      | _ => read h' t = read h t /\ prefix_of p' t end).
Proof.
  intros L E. destruct o; cbn [pp_call] in E.
  - destruct (hp_write h p d) as [[[h1 p1] n]| | |] eqn:W; try discriminate E. cbn [bind] in E. injection E as <- <- <-.
    destruct (hp_write_cases _ _ _ _ _ _ _ L W) as (-> & Sz & [(C & D & Lh & L' & Hf & Ot)|(C & Hl & Ar & Lh & L' & Ot)]); cbn [geom]; rewrite C.
    + assert (Z1 : zlen (firstn (Z.to_nat (hp_size p)) a ++ d ++ skipn (Z.to_nat (hp_size p) + length d) a) = zlen a).
      { destruct L' as (_ & _ & La' & _). rewrite D in La'. destruct L as (_ & _ & La & _). lia. }
      eexists. split; [exact L'|]. split; [now rewrite Z1, Sz|]. split; [lia|]. split.
      * intros t [T1 T2]. unfold read, frozen. rewrite Ot by auto. rewrite D, Lh. auto.
      * intros t T. pose proof T as (T1 & T2 & T3). assert (T' : prefix_of p1 t) by (unfold prefix_of; rewrite D; auto).
        eexists. split; [apply (read_prefix _ _ _ _ L T)|]. split; [|exact T']. rewrite (read_prefix _ _ _ _ L' T').
        rewrite overlay_firstn; [reflexivity|]. destruct L as (_ & _ & _ & Hs). unfold zlen in *. lia.
    + eexists. split; [exact L'|]. split.
      { rewrite Sz. f_equal. pose proof (zlen_nonneg d). destruct L as (_ & _ & _ & Hs). rewrite !zlen_app. unfold zlen in *. rewrite zeros_length, firstn_length. lia. }
      split; [lia|]. destruct L as (Ea & L). assert (La : (s_arr (hp_data p) < length h)%nat) by (apply nth_error_Some; congruence). split.
      * intros t [T1 T2]. unfold read, frozen. rewrite Ot by auto. split; [reflexivity|lia].
      * intros t (T1 & T2 & T3). unfold read, frozen. rewrite Ot by lia. split; [reflexivity|lia].
  - unfold hp_fetch in E. destruct (reslice _ _ _) as [s| | |]; try discriminate E. cbn [bind] in E. injection E as <- <- <-. exists a. destruct L as (Ea & O & La & Hs).
    split; [unfold live; cbn [hp_data hp_size]; auto with zarith|]. cbn [hp_size geom]. split; [reflexivity|]. split; [lia|]. split; intros t T; split; auto.
  - injection E as <- <- <-. exists a. destruct L as (Ea & O & La & Hs). split; [unfold live, hp_seek; cbn [hp_data hp_size]; repeat split; auto; lia|]. cbn [hp_seek hp_size geom].
    split; [reflexivity|]. split; [lia|]. split; intros t T; split; auto.
  - injection E as <- <- <-. exists a. cbn [geom]. split; [exact L|]. split; [reflexivity|]. split; [lia|]. split; intros t T; split; auto.
  - injection E as <- <- <-. exists a. cbn [geom]. split; [exact L|]. split; [reflexivity|]. split; [lia|]. split; intros t T; split; auto.
Qed.

Lemma pp_calls_live ops : forall h p a h' p' xs, live h p a -> pp_calls h p ops = Ok (h', p', xs) ->
  exists a', live h' p' a' /\ (zlen a', hp_size p') = fold_left geom ops (zlen a, hp_size p) /\
    (forall t, frozen h p t -> read h' t = read h t) /\
    (forall t l, prefix_of p t -> read h t = Ok l -> read h' t = Ok (seen_through (zlen a, hp_size p) l ops)).
Proof.
  induction ops as [|o ops IH]; intros h p a h' p' xs L E; cbn [pp_calls] in E.
  - injection E as <- <- <-. exists a. split; [exact L|]. split; [reflexivity|]. split; auto.
  - destruct (pp_call h p o) as [[[h1 p1] x]| | |] eqn:E1; try discriminate E. cbn [bind] in E.
    destruct (pp_calls h1 p1 ops) as [[[h2 p2] xs']| | |] eqn:E2; try discriminate E. cbn [bind] in E. injection E as <- <- <-.
    destruct (pp_call_live _ _ _ _ _ _ _ L E1) as (a1 & L1 & G1 & _ & F1 & P1). destruct (IH _ _ _ _ _ _ L1 E2) as (a2 & L2 & G2 & F2 & P2).
    exists a2. split; [exact L2|]. cbn [fold_left]. rewrite <- G1. split; [exact G2|]. split.
    + intros t T. destruct (F1 t T) as [R T1]. rewrite (F2 t T1). exact R.
    + intros t l T R. specialize (P1 t T). cbn [seen_through fst snd]. rewrite <- G1.
      destruct o; try (destruct P1 as [Q T1]; apply P2; [exact T1|congruence]).
      destruct (zlen a - hp_size p <? zlen d); [destruct P1 as [Q T1]; rewrite (F2 t T1); congruence|].
      destruct P1 as (l' & R' & Q & T1). assert (l' = l) by congruence. subst l'. now apply P2.
Qed.

Lemma live_new h h0 p0 : hp_new h = Ok (h0, p0) -> live h0 p0 [].
Proof.
  unfold hp_new. rewrite make_ok by lia. cbn [bind]. intros E. injection E as <- <-. unfold live. cbn [hp_data hp_size s_arr s_off s_len].
  rewrite nth_error_app2, Nat.sub_diag by lia. repeat split; lia.
Qed.

Lemma pp_calls_app a b : forall h p h' p' xs, pp_calls h p (a ++ b) = Ok (h', p', xs) ->
  exists h1 p1 x1 x2, pp_calls h p a = Ok (h1, p1, x1) /\ pp_calls h1 p1 b = Ok (h', p', x2) /\ xs = x1 ++ x2.
Proof.
  induction a as [|o a IH]; intros h p h' p' xs E; cbn [pp_calls app] in *; [exists h, p, [], xs; auto|].
  destruct (pp_call h p o) as [[[h1 p1] x]| | |]; try discriminate E. cbn [bind] in *.
  destruct (pp_calls h1 p1 (a ++ b)) as [[[h2 p2] xs']| | |] eqn:E2; try discriminate E. cbn [bind] in E. injection E as <- <- <-.
  destruct (IH _ _ _ _ _ E2) as (h3 & p3 & x1 & x2 & E3 & E4 & ->). exists h3, p3, (x :: x1), x2. rewrite E3. auto.
Qed.

(** Every slice Fetch returns, after any further calls. *)
Lemma fetched_exact h ops1 ops2 h0 p0 h1 p1 xs1 p2 s h' p' xs2 : hp_new h = Ok (h0, p0) -> pp_calls h0 p0 ops1 = Ok (h1, p1, xs1) ->
  hp_fetch p1 = Ok (p2, s) -> pp_calls h1 p2 ops2 = Ok (h', p', xs2) ->
  exists l, read h1 s = Ok l /\ read h' s = Ok (seen_through (fst (fold_left geom ops1 (0, 0)), 0) l ops2).
Proof.
  intros N R1 F R2. destruct (pp_calls_live _ _ _ _ _ _ _ (live_new _ _ _ N) R1) as (a & L & G & _). 
  assert (S0 : hp_size p0 = 0) by (unfold hp_new in N; rewrite make_ok in N by lia; cbn [bind] in N; now injection N as <- <-).
  rewrite S0 in G. change (zlen (@nil Z)) with 0 in G. rewrite <- G. cbn [fst].
  unfold hp_fetch in F. destruct (Z_le_dec (hp_size p1) (s_len (hp_data p1))) as [Hl|Hl].
  2:{ unfold reslice in F. replace ((0 <=? 0) && (0 <=? hp_size p1) && (hp_size p1 <=? s_len (hp_data p1))) with false in F by lia. discriminate F. }
  destruct L as (Ea & O & La & Hs). rewrite reslice_ok in F by lia. cbn [bind] in F. injection F as <- <-.
  assert (L2 : live h1 (mkHP (hp_data p1) 0) a) by (unfold live; cbn [hp_data hp_size]; auto with zarith).
  assert (T : prefix_of (mkHP (hp_data p1) 0) (mkSlice (s_arr (hp_data p1)) (s_off (hp_data p1) + 0) (hp_size p1 - 0))) by (unfold prefix_of; cbn [hp_data s_arr s_off s_len]; lia).
  destruct (pp_calls_live _ _ _ _ _ _ _ L2 R2) as (_ & _ & _ & _ & P). pose proof (read_prefix _ _ _ _ L2 T) as R. eexists. split; [exact R|]. apply (P _ _ T R).
Qed.

(** The same results as the value model. *)
Lemma value_sim h p a s o : live h p a -> dp_data s = a -> dp_size s = hp_size p ->
  match pp_call h p o, value_call s o with
  | Ok (h', p', x), Ok (s', y) => pp_observe h' x = Ok y /\ live h' p' (dp_data s') /\ dp_size s' = hp_size p'
  | Panic, Panic => True
  | _, _ => False
  end.
Proof.
  intros L Da Ds. subst a. pose proof (live_valid _ _ _ L) as V. pose proof L as (Ea & O & La & Hs).
  destruct o; cbn [pp_call value_call].
  - pose proof (hp_write_total _ _ _ d L) as T. destruct (zlen (dp_data s) <? hp_size p) eqn:Z0.
    { rewrite T. cbn [bind]. unfold ddp_write. rewrite Ds. pose proof (zlen_nonneg d). replace (zlen (dp_data s) - hp_size p <? zlen d) with true by lia.
      rewrite slice_none by lia. exact I. }
    destruct T as (h1 & p1 & n & W). rewrite W.
    destruct (hp_write_cases _ _ _ _ _ _ _ L W) as (-> & Sz & [(C & D & Lh & L' & Hf & Ot)|(C & Hl & Ar & Lh & L' & Ot)]); cbn [bind]; unfold ddp_write; rewrite Ds, C.
      * cbn [bind]. rewrite copy_at_fits by lia. cbn [of_opt bind pp_observe dp_data dp_size]. split; [reflexivity|]. split; [|lia].
        replace (Z.to_nat (hp_size p + zlen d)) with (Z.to_nat (hp_size p) + length d)%nat by (unfold zlen in *; lia). exact L'.
      * rewrite slice_some by lia. cbn [of_opt bind Z.to_nat skipn]. rewrite Z.sub_0_r. pose proof (zlen_nonneg d).
        set (c := (hp_size p + zlen d) * 2) in *. assert (Lf : length (firstn (Z.to_nat (hp_size p)) (dp_data s)) = Z.to_nat (hp_size p)) by (rewrite firstn_length; unfold zlen in *; lia).
        assert (Cp : copy (zeros (Z.to_nat c)) (firstn (Z.to_nat (hp_size p)) (dp_data s)) = firstn (Z.to_nat (hp_size p)) (dp_data s) ++ zeros (Z.to_nat (hp_size p + 2 * zlen d))).
        { unfold copy. rewrite zeros_length, Lf. rewrite (firstn_all2 (firstn _ _)) by (rewrite Lf; unfold c; lia). f_equal. rewrite skipn_zeros. f_equal. unfold c. lia. }
        rewrite Cp. rewrite copy_at_fits by (rewrite ?zlen_app; unfold zlen in *; rewrite ?zeros_length, ?Lf; lia). cbn [of_opt bind pp_observe dp_data dp_size].
        split; [reflexivity|]. split; [|lia].
        rewrite firstn_app, Lf, Nat.sub_diag, firstn_all2 by lia. cbn [firstn]. rewrite app_nil_r.
        rewrite skipn_app, skipn_all2 by (rewrite Lf; lia). cbn [app]. rewrite skipn_zeros, Lf.
        replace (Z.to_nat (hp_size p + 2 * zlen d) - (Z.to_nat (hp_size p + zlen d) - Z.to_nat (hp_size p)))%nat with (Z.to_nat (hp_size p + zlen d)) by (unfold zlen; lia). exact L'.
  - unfold hp_fetch, ddp_fetch. rewrite Ds. destruct (Z_le_dec (hp_size p) (zlen (dp_data s))) as [Hl|Hl].
    + rewrite reslice_ok by lia. cbn [bind]. rewrite slice_some by lia. cbn [of_opt bind pp_observe].
      assert (T : prefix_of p (mkSlice (s_arr (hp_data p)) (s_off (hp_data p) + 0) (hp_size p - 0))) by (unfold prefix_of; cbn [s_arr s_off s_len]; lia).
      rewrite (read_prefix _ _ _ _ L T). cbn [bind s_len Z.to_nat skipn]. split; [reflexivity|]. cbn [dp_data dp_size hp_size]. split; [|reflexivity]. unfold live. cbn [hp_data hp_size]. auto with zarith.
    + unfold reslice. replace ((0 <=? 0) && (0 <=? hp_size p) && (hp_size p <=? s_len (hp_data p))) with false by lia. cbn [bind].
      rewrite slice_none by lia. exact I.
  - cbn [pp_observe dp_data dp_size hp_seek ddp_seek hp_size]. rewrite Ds. split; [reflexivity|]. split; [|reflexivity]. unfold live, hp_seek. cbn [hp_data hp_size]. split; [exact Ea|]. split; [exact O|]. split; [exact La|lia].
  - unfold hp_pending, ddp_pending. cbn [pp_observe]. rewrite Ds. auto.
  - cbn [pp_observe]. auto.
Qed.

Lemma value_watch ops : forall h p s, live h p (dp_data s) -> dp_size s = hp_size p -> pp_watch h p ops = value_calls s ops.
Proof.
  induction ops as [|o ops IH]; intros h p s L Z; cbn [pp_watch value_calls]; [reflexivity|].
  pose proof (value_sim _ _ _ _ o L eq_refl Z) as V. destruct (pp_call h p o) as [[[h1 p1] x]| | |], (value_call s o) as [[s1 y]| | |]; try contradiction; cbn [bind]; [|reflexivity].
  destruct V as (-> & L1 & Z1). cbn [bind]. now rewrite (IH _ _ _ L1 Z1).
Qed.

Lemma no_write_keeps ops : forall g l, Forall (fun o => match o with PWrite d => d = [] | _ => True end) ops -> seen_through g l ops = l.
Proof.
  assert (O0 : forall k l, overlay l k [] = l) by (induction k as [|k IH]; intros [|x l]; cbn; auto; now rewrite IH).
  induction ops as [|o ops IH]; intros g l F; cbn [seen_through]; [reflexivity|]. apply Forall_cons_iff in F as [K F].
  destruct o; try (now apply IH). subst d. rewrite O0. destruct (_ <? _); [reflexivity|now apply IH].
Qed.

Lemma pp_call_total h p a o : live h p a ->
  (pp_panics (zlen a, hp_size p) o = true -> pp_call h p o = Panic) /\ (pp_panics (zlen a, hp_size p) o = false -> exists x, pp_call h p o = Ok x).
Proof.
  intros L. destruct o; cbn [pp_panics pp_call fst snd]; try (split; [discriminate|intros _; eauto]).
  - pose proof (hp_write_total _ _ _ d L) as T. destruct (zlen a <? hp_size p); (split; [|]; intros K; try discriminate K); [now rewrite T|]. destruct T as (h1 & p1 & n & ->). cbn [bind]. eauto.
  - destruct L as (Ea & O & La & Hs). unfold hp_fetch, reslice. rewrite La. split; intros K.
    + replace ((0 <=? 0) && (0 <=? hp_size p) && (hp_size p <=? zlen a)) with false by lia. reflexivity.
    + replace ((0 <=? 0) && (0 <=? hp_size p) && (hp_size p <=? zlen a)) with true by lia. cbn [bind]. eauto.
Qed.

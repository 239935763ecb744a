(** * SafeProofs: which calls of RBBlockBuffer and StreamsBuffer panic. *)
From Verif Require Import Base RingProofs CollectionsSpec BlockModel BlockSpec HeapProofs DirectProofs RBProofs StreamsSpec StreamsProofs SafeSpec.

Definition unseal (r : rbuf) : rbuf :=
  mkRB (mkD (d_data (rb_d r)) (d_next (rb_d r)) false (d_blocks (rb_d r))) (rb_capacity r) (rb_discard r).

Definition wfs (h : heap) (r : rbuf) : Prop := rb_wf h (unseal r) /\ d_next (rb_d r) = 0.

Lemma rb_alloc_ok h r n : wfs h r -> 0 <= n -> exists h' r' s, rb_alloc h r n = Ok (h', r', s) /\ wfs h' r' /\ valid h' s /\ s_len s = n /\ d_sealed (rb_d r') = d_sealed (rb_d r).
Proof.
  intros [W N] Hn. rewrite rb_alloc_place. unfold rb_place. destruct (rb_pick r) as [[[[head tail] c] front] ob] eqn:E.
  pose proof (rb_pick_ok h (unseal r) head tail c front ob W E) as [Pob Ptl Pbk Phd Pcp Pfr].
  destruct W as (V & S & C & D & F). cbn [unseal rb_d d_data d_blocks rb_capacity rb_discard] in *. set (data := d_data (rb_d r)) in *.
  destruct Pbk as (B1 & B2 & B3). cbv zeta.
  assert (Fin : forall h1 dat cp fr ix tl ds, valid h1 dat -> 0 <= cp <= s_len dat -> 0 <= ds -> Forall (blk_ok (s_len dat)) fr -> 0 <= ix -> tl = ix + bk_size ob -> tl + n <= s_len dat ->
    exists h' r' s, (bytes <- reslice dat tl (tl + n);; Ok (h1, mkRB (mkD dat (d_next (rb_d r)) (d_sealed (rb_d r)) (fr ++ [mkBlock ix (bk_size ob + n) (bk_completed ob)])) cp ds, bytes)) = Ok (h', r', s) /\
      wfs h' r' /\ valid h' s /\ s_len s = n /\ d_sealed (rb_d r') = d_sealed (rb_d r)).
  { intros h1 dat cp fr ix tl ds V1 Hc Hd Hf Hi Ht Hl. rewrite reslice_ok by lia. cbn [bind]. do 3 eexists. split; [reflexivity|].
    split; [|split; [apply reslice_valid; auto; lia|split; [cbn [s_len]; lia|reflexivity]]].
    split; [|exact N]. unfold unseal, rb_wf. cbn [rb_d d_data d_sealed d_blocks rb_capacity rb_discard]. repeat (split; [solve [auto]|]).
    apply Forall_app. split; [exact Hf|]. apply Forall_cons; [|constructor]. unfold blk_ok. cbn [bk_index bk_size]. lia. }
  assert (Vob : valid h (mkSlice (s_arr data) (s_off data + bk_index ob) (bk_index ob + bk_size ob - bk_index ob))) by (apply reslice_valid; auto; lia).
  destruct (valid_read _ _ Vob) as (src & Rs & Ls). cbn [s_len] in Ls.
  destruct ((tail <? head) && (head - tail >=? n)) eqn:C1; [cbn [bind]; apply Fin; auto; lia|].
  destruct (negb (tail <? head) && (c - tail >=? n)) eqn:C2; [cbn [bind]; apply Fin; auto; lia|].
  destruct (negb (tail <? head) && (head >=? bk_size ob + n)) eqn:C3.
  - rewrite reslice_ok by lia. cbn [bind]. rewrite Rs. cbn [bind]. destruct (hcopy_ok h data src V ltac:(lia)) as (h1 & E1 & _). rewrite E1. cbn [bind].
    apply Fin; auto; try lia. now apply (hcopy_valid h data src V ltac:(lia) h1 data E1).
  - set (c1 := (s_len data + n) * 3 / 2). assert (Hl : 0 <= s_len data) by (destruct V as (a & _ & _ & X & _); exact X).
    assert (Hc1 : s_len data + n <= c1) by (subst c1; Z.div_mod_to_equations; lia).
    rewrite make_ok by lia. cbn [bind]. rewrite reslice_ok by lia. cbn [bind]. rewrite read_app by (apply (valid_lt _ _ V)). rewrite Rs. cbn [bind].
    set (h1 := h ++ [zeros (Z.to_nat c1)]). assert (V1 : valid h1 (mkSlice (length h) 0 c1)) by (apply make_valid; lia).
    destruct (hcopy_ok h1 _ src V1 ltac:(cbn [s_len]; lia)) as (h2 & E2 & _). rewrite E2. cbn [bind].
    pose proof (hcopy_valid h1 _ src V1 ltac:(cbn [s_len]; lia) h2 _ E2 V1) as V2.
    assert (Dc : Z.max (zlen (front ++ [ob]) - 1) 0 = zlen front).
    { rewrite zlen_app. change (zlen [ob]) with 1. pose proof (zlen_nonneg front). lia. }
    rewrite Dc. replace (skipn (Z.to_nat (zlen front)) front) with (@nil block) by (unfold zlen; rewrite Nat2Z.id; symmetry; apply skipn_all).
    pose proof (zlen_nonneg front). apply Fin; cbn [s_len]; auto; try lia.
Qed.

Lemma rb_alloc_negative h r n : n < 0 -> rb_alloc h r n = Panic.
Proof.
  intros Hn. rewrite rb_alloc_place. unfold rb_place. destruct (rb_pick r) as [[[[head tail] c] front] ob]. cbv zeta.
  assert (P : forall dat tl, reslice dat tl (tl + n) = Panic).
  { intros dat tl. unfold reslice. replace ((0 <=? tl) && (tl <=? tl + n) && (tl + n <=? s_len dat)) with false by lia. reflexivity. }
  assert (R : forall s lo hi, (exists t, reslice s lo hi = Ok t) \/ reslice s lo hi = Panic) by (intros; unfold reslice; destruct (_ && _); eauto).
  assert (Rd : forall g s, (exists t, read g s = Ok t) \/ read g s = Panic).
  { intros. unfold read. destruct (nth_error _ _); cbn [of_opt bind]; [|eauto]. destruct (slice _ _ _); cbn [of_opt]; eauto. }
  assert (Hc : forall g s d, (exists t, hcopy g s d = Ok t) \/ hcopy g s d = Panic).
  { intros. unfold hcopy. destruct (nth_error _ _); cbn [of_opt bind]; [|eauto]. destruct (copy_at _ _ _); cbn [of_opt bind]; eauto. }
  destruct (_ && _); [cbn [bind]; now rewrite P|]. destruct (_ && _); [cbn [bind]; now rewrite P|]. destruct (_ && _).
  - destruct (R (d_data (rb_d r)) (bk_index ob) (bk_index ob + bk_size ob)) as [(s & ->)| ->]; cbn [bind]; [|reflexivity].
    destruct (Rd h s) as [(src & ->)| ->]; cbn [bind]; [|reflexivity]. destruct (Hc h (d_data (rb_d r)) src) as [(h1 & ->)| ->]; cbn [bind]; [now rewrite P|reflexivity].
  - unfold make, assert. destruct (0 <=? _); cbn [bind]; [|reflexivity].
    destruct (R (d_data (rb_d r)) (bk_index ob) (bk_index ob + bk_size ob)) as [(s & ->)| ->]; cbn [bind]; [|reflexivity].
    match goal with |- context [read ?g s] => destruct (Rd g s) as [(src & ->)| ->] end; cbn [bind]; [|reflexivity].
    match goal with |- context [hcopy ?g ?s src] => destruct (Hc g s src) as [(h1 & ->)| ->] end; cbn [bind]; [now rewrite P|reflexivity].
Qed.

Lemma wfs_intro h r r' : wfs h r -> d_data (rb_d r') = d_data (rb_d r) -> d_next (rb_d r') = 0 -> 0 <= rb_capacity r' <= s_len (d_data (rb_d r)) -> 0 <= rb_discard r' ->
  Forall (blk_ok (s_len (d_data (rb_d r)))) (d_blocks (rb_d r')) -> wfs h r'.
Proof.
  intros [(V & S & C & D & F) N] E N' C' D' F'. split; [|exact N']. unfold unseal, rb_wf in *. cbn [rb_d d_data d_sealed d_blocks rb_capacity rb_discard] in *. rewrite E. auto.
Qed.

Lemma Forall_tl {A} (P : A -> Prop) l : Forall P l -> Forall P (tl l).
Proof. intros F. destruct F; [constructor|assumption]. Qed.
Lemma Forall_removelast {A} (P : A -> Prop) l : Forall P l -> Forall P (removelast l).
Proof. intros F. destruct (snoc_cases l) as [->|(f & x & ->)]; [constructor|]. rewrite removelast_snoc. now apply Forall_app in F as [F _]. Qed.

Definition seals (b : bool) (o : rb_op) : bool := match o with XSplitOff => true | XClear => false | _ => b end.

(** One call: when it panics, and the invariant afterwards. *)
Lemma rb_call_ok h r o : wfs h r ->
  (rb_panics (d_sealed (rb_d r)) (rb_size r) o = true -> rb_call h r o = Panic) /\
  (rb_panics (d_sealed (rb_d r)) (rb_size r) o = false -> (forall s d, o <> XStore s d) -> exists x, rb_call h r o = Ok x) /\
  (forall h' r' x, rb_call h r o = Ok (h', r', x) -> wfs h' r' /\ d_sealed (rb_d r') = seals (d_sealed (rb_d r)) o).
Proof.
  intros W. pose proof W as [(V & S & C & D & F) N]. cbn [unseal rb_d d_data d_sealed d_blocks rb_capacity rb_discard] in *.
  assert (L : 0 <= s_len (d_data (rb_d r))) by (destruct V as (a & _ & _ & X & _); exact X).
  destruct o; cbn [rb_panics rb_call rb_impl seals].
  - (* Write *) destruct (rb_alloc_ok h r (zlen d) W (zlen_nonneg d)) as (h1 & r1 & s & E & W1 & V1 & L1 & S1). unfold rb_write. rewrite E. cbn [bind].
    destruct (hcopy_ok h1 s d V1 ltac:(lia)) as (h2 & E2 & _). rewrite E2. cbn [bind]. split; [discriminate|]. split; [eauto|].
    intros h' r' x Q. injection Q as <- <- <-. split; [|exact S1]. destruct W1 as [(A1 & A2) A3]. split; [|exact A3]. split; [|exact A2].
    now apply (hcopy_valid h1 s d V1 ltac:(lia) h2 _ E2).
  - (* Alloc *) split; [intros Q; rewrite rb_alloc_negative by lia; reflexivity|].
    destruct (Z_lt_dec n 0) as [Ln|Ln]; [rewrite rb_alloc_negative by lia; cbn [bind]; split; [lia|discriminate]|].
    destruct (rb_alloc_ok h r n W ltac:(lia)) as (h1 & r1 & s & E & W1 & V1 & L1 & S1). rewrite E. cbn [bind]. split; [eauto|].
    intros h' r' x Q. injection Q as <- <- <-. auto.
  - (* Fetch *) unfold rb_fetch, d_fetch, rb_size, d_size. destruct (d_sealed (rb_d r)) eqn:Sl; cbn [negb assert bind orb]; [split; [auto|split; discriminate]|].
    destruct (snoc_cases (d_blocks (rb_d r))) as [B|(f & t & B)]; rewrite B in *.
    + cbn [last_of of_opt bind zlen length Z.of_nat Z.eqb]. split; [auto|split; discriminate].
    + rewrite last_of_snoc, removelast_snoc. cbn [of_opt bind]. split; [rewrite zlen_app; change (zlen [t]) with 1; pose proof (zlen_nonneg f); lia|].
      pose proof (proj1 (Forall_app _ _ _) F) as [Ff Ft]. apply Forall_cons_iff in Ft as [Ht _].
      destruct (bk_completed t) eqn:Ct; cbn [bind].
      * split; [eauto|]. intros h' r' x Q. injection Q as <- <- <-. split; [|exact Sl]. apply (wfs_intro h r); cbn [rb_d rb_capacity rb_discard]; auto. now rewrite B.
      * destruct Ht as (H1 & H2 & H3). rewrite reslice_ok by lia. cbn [bind]. split; [eauto|]. intros h' r' x Q. injection Q as <- <- <-. split; [|cbn [rb_d d_sealed]; auto].
        apply (wfs_intro h r); cbn [rb_d d_data d_next d_blocks rb_capacity rb_discard]; auto. apply Forall_app. split; [exact Ff|]. apply Forall_cons; [|constructor]. unfold blk_ok. cbn [bk_index bk_size]. lia.
  - (* Pop *) unfold rb_pop, d_pop. destruct (d_sealed (rb_d r)) eqn:Sl; cbn [negb assert bind]; [split; [auto|split; discriminate]|].
    split; [discriminate|]. destruct (rb_discard r >? 0) eqn:Dg; cbn [bind].
    + split; [eauto|]. intros h' r' x Q. injection Q as <- <- <-. split; [|exact Sl]. apply (wfs_intro h r); cbn [rb_d rb_capacity rb_discard]; auto. lia.
    + split; [eauto|]. intros h' r' x Q. injection Q as <- <- <-. cbn [rb_d d_sealed]. split; [|auto].
      apply (wfs_intro h r); cbn [rb_d d_data d_next d_blocks rb_capacity rb_discard]; auto; [destruct (_ =? 0); auto| |now apply Forall_tl].
      destruct (match first_of _ with None => _ | Some _ => _ end); lia.
  - (* PopBack *) unfold rb_pop_back, d_pop_back, rb_size, d_size. destruct (d_sealed (rb_d r)) eqn:Sl; cbn [negb assert bind orb]; [split; [auto|split; discriminate]|].
    pose proof (zlen_nonneg (d_blocks (rb_d r))) as Hz. destruct (zlen (d_blocks (rb_d r)) >? 0) eqn:Z0; cbn [assert bind]; [|split; [auto|split; [intros; lia|discriminate]]].
    split; [lia|]. split; [eauto|]. intros h' r' x Q. injection Q as <- <- <-. cbn [rb_d d_sealed]. split; [|auto].
    apply (wfs_intro h r); cbn [rb_d d_data d_next d_blocks rb_capacity rb_discard]; auto; [destruct (_ =? 0); auto|now apply Forall_removelast].
  - split; [discriminate|]. split; [eauto|]. intros h' r' x Q. injection Q as <- <- <-. auto.
  - split; [discriminate|]. split; [eauto|]. intros h' r' x Q. injection Q as <- <- <-. auto.
  - split; [discriminate|]. split; [eauto|]. intros h' r' x Q. injection Q as <- <- <-. split; [|reflexivity].
    apply (wfs_intro h r); cbn [rb_clear d_clear rb_d d_data d_next d_blocks rb_capacity rb_discard]; auto; lia.
  - unfold d_split_off. rewrite N, reslice_ok by lia. cbn [bind]. split; [discriminate|]. split; [eauto|]. intros h' r' x Q. injection Q as <- <- <-. split; [|reflexivity].
    apply (wfs_intro h r); cbn [rb_d d_data d_next d_blocks rb_capacity rb_discard]; auto.
  - split; [discriminate|]. split; [intros _ Q; now destruct (Q s d)|]. intros h' r' x Q. destruct (hcopy h s d) as [h1| | |] eqn:E; try discriminate Q. cbn [bind] in Q. injection Q as <- <- <-.
    split; [|reflexivity]. split; [|exact N]. unfold unseal, rb_wf. cbn [rb_d d_data d_sealed d_blocks rb_capacity rb_discard]. split; [|auto].
    clear - V E. destruct V as (a & Ea & A). unfold hcopy in E. destruct (nth_error h (s_arr s)) as [b|] eqn:Eb; [|discriminate]. cbn [of_opt bind] in E.
    destruct (copy_at b _ _) as [b'|] eqn:Cb; [|discriminate]. cbn [of_opt bind] in E. injection E as <-. apply copy_at_length in Cb.
    destruct (Nat.eq_dec (s_arr (d_data (rb_d r))) (s_arr s)) as [Eq|Ne].
    + unfold valid. rewrite Eq in Ea |- *. exists b'. rewrite set_nth_same by (apply nth_error_Some; congruence). split; [reflexivity|]. assert (a = b) by congruence. subst a. lia.
    + exists a. rewrite set_nth_other by auto. auto.
Qed.

Lemma rb_calls_ok ops : forall h r h' r', wfs h r -> rb_calls h r ops = Ok (h', r') -> wfs h' r' /\ d_sealed (rb_d r') = fold_left seals ops (d_sealed (rb_d r)).
Proof.
  induction ops as [|o ops IH]; intros h r h' r' W E; cbn [rb_calls fold_left] in *; [injection E as <- <-; auto|].
  destruct (rb_call h r o) as [[[h1 r1] x]| | |] eqn:E1; try discriminate E. cbn [bind] in E.
  destruct (rb_call_ok h r o W) as (_ & _ & K). destruct (K _ _ _ E1) as [W1 S1]. rewrite <- S1. now apply (IH h1 r1).
Qed.

Lemma wfs_new h c h0 r0 : rb_new h c = Ok (h0, r0) -> wfs h0 r0 /\ d_sealed (rb_d r0) = false.
Proof.
  unfold rb_new, d_new. intros E. destruct (Z_le_dec 0 c) as [Hc|Hc].
  - rewrite make_ok in E by lia. cbn [bind] in E. injection E as <- <-. split; [|reflexivity]. split; [|reflexivity].
    unfold unseal, rb_wf. cbn [rb_d d_data d_sealed d_blocks rb_capacity rb_discard s_len]. split; [now apply make_valid|]. repeat split; auto; lia.
  - unfold make, assert in E. replace (0 <=? c) with false in E by lia. discriminate.
Qed.

(* ---------------------------------------------------------------------------------------- *)
Lemma fetch_panics h r : rb_wf h r -> (rb_size r = 0 -> rb_fetch r = Panic) /\ (rb_size r <> 0 -> exists x, rb_fetch r = Ok x).
Proof.
  intros (V & S & C & D & F). unfold rb_fetch, d_fetch, rb_size, d_size. rewrite S. cbn [negb assert bind].
  destruct (snoc_cases (d_blocks (rb_d r))) as [B|(f & t & B)]; rewrite B in *.
  - cbn [last_of of_opt bind]. split; [reflexivity|]. now intros [].
  - rewrite last_of_snoc. cbn [of_opt bind]. pose proof (zlen_nonneg f). split; [rewrite zlen_app; change (zlen [t]) with 1; lia|]. intros _.
    destruct (bk_completed t); cbn [bind]; [eauto|]. apply Forall_app in F as [_ Ft]. apply Forall_cons_iff in Ft as [(H1 & H2 & H3) _].
    rewrite reslice_ok by lia. cbn [bind]. eauto.
Qed.
Lemma pop_back_panics h r : rb_wf h r -> (rb_size r = 0 -> rb_pop_back r = Panic) /\ (rb_size r <> 0 -> exists x, rb_pop_back r = Ok x).
Proof.
  intros (V & S & C & D & F). unfold rb_pop_back, d_pop_back, rb_size, d_size. rewrite S. cbn [negb assert bind]. pose proof (zlen_nonneg (d_blocks (rb_d r))).
  split; intros Z0.
  - replace (zlen (d_blocks (rb_d r)) >? 0) with false by lia. reflexivity.
  - replace (zlen (d_blocks (rb_d r)) >? 0) with true by lia. cbn [assert bind]. eauto.
Qed.
Lemma pop_ok h r : rb_wf h r -> exists x, rb_pop r = Ok x.
Proof. intros (V & S & _). unfold rb_pop, d_pop. rewrite S. cbn [negb assert bind]. destruct (rb_discard r >? 0); cbn [bind]; eauto. Qed.

Lemma idx_map {A B} (f : A -> B) l i : idx (map f l) i = option_map f (idx l i).
Proof.
  unfold idx. destruct (i <? 0); [reflexivity|]. apply nth_error_map.
Qed.

Lemma create_ok h s al own sl i v : sb_inv h s al own sl -> 0 <= i <= zlen s ->
  exists h1 s1 r, sb_find_or_create h s i v = Ok (h1, s1, r) /\ rb_wf h1 r /\ (idx s i = Some r /\ s1 = s \/ i = zlen s /\ rb_size r = 0).
Proof.
  intros I Hi. unfold sb_find_or_create. destruct (i <? zlen s) eqn:L.
  - destruct (idx_some s i) as [r E]; [lia|]. cbn [bind]. rewrite E. cbn [of_opt bind]. do 3 eexists. split; [reflexivity|]. split; [apply (si_buf _ _ _ _ _ I _ _ E)|auto].
  - assert (i = zlen s) as -> by lia. destruct (rb_new_inv false h (stream_capacity v)) as (g & r0 & En & (W0 & _)); [destruct v; cbn; lia|]. rewrite En. cbn [bind].
    rewrite idx_app_r, Z.sub_diag by lia. cbn [idx nth_error of_opt bind]. do 3 eexists. split; [reflexivity|]. split; [exact W0|]. right. split; [reflexivity|].
    unfold rb_new, d_new in En. destruct (make h (stream_capacity v)) as [[h1 s1]| | |]; try discriminate En. now injection En as <- <-.
Qed.
Lemma create_panics h s i v : (i <? 0) || (zlen s <? i) = true -> sb_find_or_create h s i v = Panic.
Proof.
  intros Hi. unfold sb_find_or_create. pose proof (zlen_nonneg s). destruct (i <? zlen s) eqn:L; cbn [bind].
  - assert (i < 0) by lia. unfold idx. replace (i <? 0) with true by lia. reflexivity.
  - destruct (rb_new_inv false h (stream_capacity v)) as (g & r0 & En & _); [destruct v; cbn; lia|]. rewrite En. cbn [bind].
    destruct (idx (s ++ [r0]) i) eqn:E; [|reflexivity]. apply idx_inv in E. rewrite zlen_app in E. change (zlen [r0]) with 1 in E. lia.
Qed.

Lemma sb_call_ok h s al own sl i o : sb_inv h s al own sl ->
  (sb_panics (map rb_size s) i o = true -> sb_impl h s i o = Panic) /\ (sb_panics (map rb_size s) i o = false -> exists x, sb_impl h s i o = Ok x).
Proof.
  intros I. pose proof (zlen_nonneg s) as Hs. assert (Zl : zlen (map rb_size s) = zlen s) by (unfold zlen; now rewrite map_length).
  assert (Some_ : forall r, idx s i = Some r -> rb_wf h r /\ 0 <= i < zlen s) by (intros r E; split; [apply (si_buf _ _ _ _ _ I _ _ E)|now apply idx_inv in E]).
  assert (None_ : idx s i = None -> i < 0 \/ zlen s <= i).
  { intros E. destruct (Z_lt_dec i 0); [auto|]. destruct (Z_lt_dec i (zlen s)); [|lia]. destruct (idx_some s i) as [x X]; [lia|congruence]. }
  destruct o; cbn [sb_panics sb_impl]; rewrite ?Zl, ?idx_map.
  - unfold sb_write. split; intros P; [rewrite create_panics by auto; reflexivity|].
    destruct (create_ok h s al own sl i video I ltac:(lia)) as (h1 & s1 & r & E & W & _). rewrite E. cbn [bind].
    destruct (rb_write_frame h1 r d W) as (h2 & r2 & E2 & _). rewrite E2. cbn [bind]. eauto.
  - unfold sb_fetch. destruct (idx s i) as [r|] eqn:E; cbn [option_map].
    + destruct (Some_ r eq_refl) as [W Hi]. destruct (create_ok h s al own sl i false I ltac:(lia)) as (h1 & s1 & r' & E' & W' & [[Eq ->]|[Eq _]]); [|lia].
      assert (r' = r) by congruence. subst r'. rewrite E'. cbn [bind]. destruct (fetch_panics h1 r W') as [P1 P2]. split; intros P; [rewrite P1 by lia; reflexivity|].
      destruct P2 as [[r2 x] ->]; [lia|]. cbn [bind]. eauto.
    + split; [intros _|discriminate]. destruct (None_ eq_refl) as [Hi|Hi]; [rewrite create_panics by lia; reflexivity|].
      destruct (Z.eq_dec i (zlen s)) as [Hz|Hz]; [|rewrite create_panics by lia; reflexivity].
      destruct (create_ok h s al own sl i false I ltac:(lia)) as (h1 & s1 & r' & E' & W' & [[Eq ->]|[_ Z0]]); [congruence|].
      rewrite E'. cbn [bind]. destruct (fetch_panics h1 r' W') as [P1 _]. now rewrite P1.
  - unfold sb_discard_head. destruct (idx s i) as [r|] eqn:E; cbn [of_opt bind].
    + destruct (Some_ r eq_refl) as [W Hi]. split; [lia|]. intros _. destruct (pop_ok h r W) as [x ->]. cbn [bind]. eauto.
    + destruct (None_ eq_refl); split; [auto|lia|auto|lia].
  - unfold sb_discard_back. destruct (idx s i) as [r|] eqn:E; cbn [of_opt bind option_map].
    + destruct (Some_ r eq_refl) as [W Hi]. destruct (pop_back_panics h r W) as [P1 P2]. split; intros P; [rewrite P1 by lia; reflexivity|].
      destruct P2 as [x ->]; [lia|]. cbn [bind]. eauto.
    + split; [auto|discriminate].
  - unfold sb_pending. split; intros P; [rewrite create_panics by auto; reflexivity|].
    destruct (create_ok h s al own sl i false I ltac:(lia)) as (h1 & s1 & r & E & W & _). rewrite E. cbn [bind]. eauto.
Qed.

(* ---------------------------------------------------------------------------------------- *)
(** ** Writes to the buffer a ring was split off to *)

Lemma painted_nil p q l : painted p q [] l l.
Proof. split; [reflexivity|]. intros k Hk. change (zlen (@nil Z)) with 0. replace (_ && _) with false by lia. reflexivity. Qed.

Lemma painted_app p q a b l m n : painted p q a l m -> painted p (q + zlen a) b m n -> painted p q (a ++ b) l n.
Proof.
  intros [L1 P1] [L2 P2]. split; [congruence|]. intros k Hk. rewrite P2, P1 by lia. rewrite zlen_app. pose proof (zlen_nonneg a). pose proof (zlen_nonneg b).
  destruct ((q + zlen a <=? p + Z.of_nat k) && (p + Z.of_nat k <? q + zlen a + zlen b)) eqn:E1.
  - replace ((q <=? p + Z.of_nat k) && (p + Z.of_nat k <? q + (zlen a + zlen b))) with true by lia.
    rewrite nth_error_app2 by (unfold zlen in *; lia). f_equal. unfold zlen in *. lia.
  - destruct ((q <=? p + Z.of_nat k) && (p + Z.of_nat k <? q + zlen a)) eqn:E2.
    + replace ((q <=? p + Z.of_nat k) && (p + Z.of_nat k <? q + (zlen a + zlen b))) with true by lia. rewrite nth_error_app1 by (unfold zlen in *; lia). reflexivity.
    + replace ((q <=? p + Z.of_nat k) && (p + Z.of_nat k <? q + (zlen a + zlen b))) with false by lia. reflexivity.
Qed.

Lemma nth_error_before {A} (l : list A) n k : (k < n)%nat -> nth_error (firstn n l) k = nth_error l k.
Proof. revert l k. induction n as [|n IH]; intros l k H; [lia|]. destruct l as [|x l]; [reflexivity|]. destruct k as [|k]; [reflexivity|]. cbn. apply IH. lia. Qed.

Lemma copy_at_nth {A} (l src l' : list A) off i : copy_at l off src = Some l' -> 0 <= off -> off + zlen src <= zlen l ->
  nth_error l' i = if (off <=? Z.of_nat i) && (Z.of_nat i <? off + zlen src) then nth_error src (Z.to_nat (Z.of_nat i - off)) else nth_error l i.
Proof.
  intros C H1 H2. pose proof (zlen_nonneg src). rewrite copy_at_some in C by lia. injection C as <-. rewrite copy_fits by (rewrite skipn_length; unfold zlen in *; lia). rewrite skipn_skipn.
  assert (L : length (firstn (Z.to_nat off) l) = Z.to_nat off) by (rewrite firstn_length; unfold zlen in *; lia).
  destruct (Z_lt_dec (Z.of_nat i) off) as [B|B].
  - replace (_ && _) with false by lia. rewrite nth_error_app1 by lia. apply nth_error_before. lia.
  - rewrite nth_error_app2, L by lia. destruct (Z_lt_dec (Z.of_nat i) (off + zlen src)) as [D|D].
    + replace (_ && _) with true by lia. rewrite nth_error_app1 by (unfold zlen in *; lia). f_equal. lia.
    + replace (_ && _) with false by lia. rewrite nth_error_app2 by (unfold zlen in *; lia). rewrite nth_error_skipn. f_equal. unfold zlen in *. lia.
Qed.

Lemma hcopy_painted h dst src h' t l : valid h dst -> zlen src <= s_len dst -> hcopy h dst src = Ok h' -> read h t = Ok l ->
  exists l', read h' t = Ok l' /\ (if (s_arr t =? s_arr dst)%nat then painted (s_off t) (s_off dst) src l l' else l' = l).
Proof.
  intros V Hs E R. destruct (Nat.eqb_spec (s_arr t) (s_arr dst)) as [Ea|Na].
  - destruct (hcopy_ok h dst src V Hs) as (h1 & E1 & _ & (a & a' & N & N' & C & F) & _). assert (h1 = h') by congruence. subst h1.
    unfold read in *. rewrite Ea in *. rewrite N in R. rewrite N'. cbn [of_opt bind] in *. destruct (slice a _ _) as [x|] eqn:S; [|discriminate]. injection R as ->.
    apply slice_inv in S as (-> & S1 & S2). pose proof (copy_at_length _ _ _ _ C) as Lc. rewrite slice_some by lia. cbn [of_opt]. eexists. split; [reflexivity|].
    split; [rewrite !firstn_length, !skipn_length; unfold zlen in *; lia|]. intros k Hk. rewrite firstn_length, skipn_length in Hk.
    rewrite !nth_error_before by lia. rewrite !nth_error_skipn. destruct V as (a0 & E0 & V0 & _). rewrite (copy_at_nth _ _ _ _ _ C V0 F).
    replace (Z.of_nat (Z.to_nat (s_off t) + k)) with (s_off t + Z.of_nat k) by lia. reflexivity.
  - exists l. split; [|reflexivity]. rewrite (hcopy_read_other h dst src V Hs h' t E); [exact R|]. left. exact Na.
Qed.

Lemma d_write_fits h b w : d_wf h b -> d_next b + zlen w <= s_len (d_data b) -> exists h' b', d_write h b w = Ok (h', b') /\
  d_wf h' b' /\ length h' = length h /\ d_data b' = d_data b /\ d_next b' = d_next b + zlen w /\
  hcopy h (mkSlice (s_arr (d_data b)) (s_off (d_data b) + d_next b) (zlen w)) w = Ok h' /\ valid h (mkSlice (s_arr (d_data b)) (s_off (d_data b) + d_next b) (zlen w)).
Proof.
  intros (V & N & S) F. pose proof (zlen_nonneg w). unfold d_write, d_alloc. rewrite S. cbn [negb assert bind]. fold (d_pick b). destruct (d_pick b) as [front blk].
  replace (d_next b + zlen w >? s_len (d_data b)) with false by lia. cbn [bind]. rewrite reslice_ok by lia. cbn [bind].
  pose proof (reslice_valid h (d_data b) (d_next b) (d_next b + zlen w) V ltac:(lia) F) as V1. replace (d_next b + zlen w - d_next b) with (zlen w) in * by lia.
  destruct (hcopy_ok h _ w V1 ltac:(cbn [s_len]; lia)) as (h1 & E1 & L1 & _). rewrite E1. cbn [bind]. do 2 eexists. split; [reflexivity|].
  split; [split; [|split; [cbn [d_data d_next]; lia|reflexivity]]; cbn [d_data]; now apply (hcopy_valid h _ w V1 ltac:(cbn [s_len]; lia) h1 _ E1)|]. auto 6.
Qed.

(** A write that does not fit changes no array there is. *)
Lemma d_write_moves h b w h' b' : d_wf h b -> s_len (d_data b) < d_next b + zlen w -> d_write h b w = Ok (h', b') -> forall t, (s_arr t < length h)%nat -> read h' t = read h t.
Proof.
  intros (V & N & S) F E t Ht. pose proof (zlen_nonneg w). unfold d_write, d_alloc in E. rewrite S in E. cbn [negb assert bind] in E. fold (d_pick b) in E. destruct (d_pick b) as [front blk].
  replace (d_next b + zlen w >? s_len (d_data b)) with true in E by lia. set (c := (d_next b + zlen w) * 3 / 2) in *.
  assert (Hc : d_next b + zlen w <= c) by (subst c; Z.div_mod_to_equations; lia).
  unfold d_grow in E. rewrite make_ok in E by lia. cbn [bind] in E. rewrite reslice_ok in E by lia. cbn [bind] in E. set (h1 := h ++ [zeros (Z.to_nat c)]) in *.
  assert (V1 : valid h1 (mkSlice (length h) 0 c)) by (apply make_valid; lia).
  destruct (read h1 _) as [old| | |] eqn:R; try discriminate E. cbn [bind] in E. destruct (read_valid _ _ _ R) as [_ L]. cbn [s_len] in L.
  destruct (hcopy_ok h1 _ old V1 ltac:(cbn [s_len]; lia)) as (h2 & E2 & L2 & _ & O2). rewrite E2 in E. cbn [bind] in E. rewrite reslice_ok in E by (cbn [s_len]; lia). cbn [bind s_arr s_off s_len] in E.
  assert (V3 : valid h2 (mkSlice (length h) 0 c)) by (apply (hcopy_valid h1 (mkSlice (length h) 0 c) old V1 ltac:(cbn [s_len]; lia) h2); auto).
  pose proof (reslice_valid h2 _ (d_next b) (d_next b + zlen w) V3 ltac:(lia) ltac:(cbn [s_len]; lia)) as V4. cbn [s_arr s_off s_len] in V4.
  destruct (hcopy_ok h2 _ w V4 ltac:(cbn [s_len]; lia)) as (h3 & E3 & L3 & _ & O3). rewrite E3 in E. cbn [bind s_arr] in *. injection E as <- _.
  unfold read. rewrite O3, O2 by lia. unfold h1. now rewrite nth_error_app1 by lia.
Qed.

(** Once the new buffer has moved to another array, the old memory is left alone. *)
Lemma d_writes_elsewhere ws : forall n h b, d_wf h b -> (n <= s_arr (d_data b))%nat -> (n <= length h)%nat ->
  exists h' b', d_writes h b ws = Ok (h', b') /\ forall t, (s_arr t < n)%nat -> read h' t = read h t.
Proof.
  induction ws as [|w ws IH]; intros n h b W A L; cbn [d_writes]; [eauto|]. destruct (d_write_ok h b w W) as (h1 & b1 & E1 & [W1 _ L1 D1 _ _ F1 _ _]). rewrite E1. cbn [bind].
  destruct (IH n h1 b1 W1) as (h2 & b2 & E2 & F2); [destruct D1 as [->|D1]; lia|lia|]. exists h2, b2. split; [exact E2|]. intros t Ht. rewrite F2 by exact Ht. apply F1; [lia|]. left. unfold d_free. cbn [s_arr]. lia.
Qed.

Lemma d_writes_painted ws : forall h b, d_wf h b -> exists h' b', d_writes h b ws = Ok (h', b') /\ forall t l, read h t = Ok l ->
  exists l', read h' t = Ok l' /\
    if (s_arr t =? s_arr (d_data b))%nat then painted (s_off t) (s_off (d_data b) + d_next b) (landed (s_len (d_data b) - d_next b) ws) l l' else l' = l.
Proof.
  induction ws as [|w ws IH]; intros h b W; cbn [d_writes landed].
  - exists h, b. split; [reflexivity|]. intros t l R. exists l. split; [exact R|]. destruct (_ =? _)%nat; [apply painted_nil|reflexivity].
  - destruct (zlen w <=? s_len (d_data b) - d_next b) eqn:F.
    + destruct (d_write_fits h b w W ltac:(lia)) as (h1 & b1 & E1 & W1 & L1 & D1 & N1 & C1 & V1). rewrite E1. cbn [bind]. destruct (IH h1 b1 W1) as (h2 & b2 & E2 & P2). exists h2, b2. split; [exact E2|].
      intros t l R. destruct (hcopy_painted h _ w h1 t l V1 ltac:(cbn [s_len]; lia) C1 R) as (l1 & R1 & Q1). destruct (P2 t l1 R1) as (l2 & R2 & Q2). exists l2. split; [exact R2|].
      cbn [s_arr s_off] in Q1. rewrite D1 in Q2. destruct (_ =? _)%nat; [|congruence]. eapply painted_app; [exact Q1|]. rewrite N1 in Q2. replace (s_len (d_data b) - (d_next b + zlen w)) with (s_len (d_data b) - d_next b - zlen w) in Q2 by lia. now rewrite <- Z.add_assoc.
    + destruct (d_write_ok h b w W) as (h1 & b1 & E1 & [W1 N1 L1 D1 _ _ F1 _ _]). rewrite E1. cbn [bind]. destruct D1 as [D1|D1].
      { destruct W1 as (_ & W1 & _). rewrite D1, N1 in W1. lia. }
      destruct (d_writes_elsewhere ws (length h) h1 b1 W1 D1 L1) as (h2 & b2 & E2 & P2). exists h2, b2. split; [exact E2|]. intros t l R. exists l.
      destruct (read_valid _ _ _ R) as [Vt _]. apply valid_lt in Vt. split; [|destruct (_ =? _)%nat; [apply painted_nil|reflexivity]]. rewrite P2 by exact Vt.
      rewrite <- R. apply (d_write_moves h b w h1 b1 W ltac:(lia) E1). exact Vt.
Qed.

(** * BytesProofs: bytes_buffer.go, bytes_reader.go, bytes_wirter.go and util.go. *)
From Verif Require Import Base BufioModel BytesSpec.

(** Dispatch of the API calls on the model. *)
Definition lift_unit (x : bytes_buffer * res unit) : bytes_buffer * res bval :=
  (fst x, match snd x with Ok _ => Ok VUnit | Err => Err | Panic => Panic | NoFuel => NoFuel end).
Definition lift_num (x : bytes_buffer * res Z) : bytes_buffer * res bval :=
  (fst x, match snd x with Ok v => Ok (VNum v) | Err => Err | Panic => Panic | NoFuel => NoFuel end).
Definition lift_list (x : bytes_buffer * res (list Z)) : bytes_buffer * res bval :=
  (fst x, match snd x with Ok v => Ok (VList v) | Err => Err | Panic => Panic | NoFuel => NoFuel end).

Definition bb_step (b : bytes_buffer) (o : bop) : bytes_buffer * res bval :=
  match o with
  | OSeek n => lift_unit (bb_seek b n)
  | OSeekBack n => lift_unit (bb_seek_back b n)
  | OClear => (bb_clear b, Ok VUnit)
  | OReset d => (bb_new d, Ok VUnit)
  | ORead n =>
    match n with
    | 1%nat => lift_num (rd_u8 b)
    | 3%nat => lift_num (rd_u24 b)
    | _ => lift_num (rd_uint n b)
    end
  | OBytes n => lift_list (rd_bytes b n)
  | OWrite n v => match n with 1%nat => lift_unit (wr_u8 b v) | _ => lift_unit (wr_uint n b v) end
  | OWriteBytes d => lift_unit (wr_bytes b d)
  end.

Fixpoint bb_run (b : bytes_buffer) (ops : list bop) : bytes_buffer * list (res bval) :=
  match ops with
  | [] => (b, [])
  | o :: ops' =>
    let '(b1, r) := bb_step b o in
    let '(b2, rs) := bb_run b1 ops' in (b2, r :: rs)
  end.

Definition bb_inv (b : bytes_buffer) : Prop :=
  bb_length b = zlen (bb_data b) /\ zlen (bb_data b) < 2 ^ 63 /\ 0 <= bb_offset b <= zlen (bb_data b) /\
  bytes_ok (bb_data b).

Lemma peekN_spec b size : bb_inv b -> is_i64 size ->
  peekN b size =
  if (0 <=? bb_offset b + size) && (bb_offset b + size <=? zlen (bb_data b))
  then Some (bb_set_offset b (bb_offset b + size)) else None.
Proof.
  intros (L & B & O & _) Hs. unfold peekN. rewrite L. unfold is_i64 in Hs. unfold i64.
  set (x := bb_offset b + size). set (len := zlen (bb_data b)) in *.
  assert (x = (x + 2 ^ 63) mod 2 ^ 64 - 2 ^ 63 \/ (x >= 2 ^ 63 /\ (x + 2 ^ 63) mod 2 ^ 64 - 2 ^ 63 < 0)) as [E|[E1 E2]].
  { unfold x in *. Z.div_mod_to_equations. lia. }
  - rewrite <- E. destruct ((0 <=? x) && (x <=? len)) eqn:Q.
    + replace ((len <? x) || (x <? 0)) with false by lia. reflexivity.
    + replace ((len <? x) || (x <? 0)) with true by lia. reflexivity.
  - replace ((len <? _) || (_ <? 0)) with true by lia.
    replace ((0 <=? x) && (x <=? len)) with false by lia. reflexivity.
Qed.

Lemma list_eq_split3 {A} (l : list A) a b c : l = a ++ b ++ c ->
  firstn (length a) l = a /\ skipn (length a + length b) l = c.
Proof.
  intros ->. split.
  - rewrite firstn_app, firstn_all, Nat.sub_diag, firstn_O, app_nil_r. reflexivity.
  - rewrite app_assoc, skipn_app, skipn_all2 by (rewrite app_length; lia).
    rewrite app_length. replace (_ - _)%nat with 0%nat by lia. reflexivity.
Qed.

Lemma lor_add_disjoint a b n : 0 <= n -> 0 <= b < 2 ^ n -> Z.lor (a * 2 ^ n) b = a * 2 ^ n + b.
Proof.
  intros Hn Hb. assert (E : Z.land (a * 2 ^ n) b = 0); [|now rewrite Z.add_nocarry_lxor, Z.lxor_lor].
  apply Z.bits_inj'. intros k Hk. rewrite Z.land_spec, Z.bits_0.
  destruct (Z.lt_ge_cases k n) as [L|L].
  - rewrite Z.mul_pow2_bits_low by lia. reflexivity.
  - rewrite (Z.testbit_eqb b) by lia. rewrite Z.div_small; [now rewrite andb_false_r|].
    split; [lia|]. assert (2 ^ n <= 2 ^ k) by (apply Z.pow_le_mono_r; lia). lia.
Qed.

Lemma uint24_value a b c rest : byte_ok a -> byte_ok b -> byte_ok c ->
  uint24 (a :: b :: c :: rest) = Ok (be_value [a; b; c]).
Proof.
  unfold byte_ok. intros Ha Hb Hc. unfold uint24.
  change (idx (a :: b :: c :: rest) 0) with (Some a). change (idx (a :: b :: c :: rest) 1) with (Some b).
  change (idx (a :: b :: c :: rest) 2) with (Some c). cbn [of_opt bind].
  f_equal. unfold u32. rewrite !Z.shiftl_mul_pow2 by lia. rewrite !Z.mod_small by lia.
  rewrite <- Z.lor_assoc. rewrite (lor_add_disjoint b c 8) by lia.
  rewrite (lor_add_disjoint a _ 16) by lia. unfold be_value. cbn [fold_left]. lia.
Qed.

Lemma skipn_3 (l : list Z) : (3 <= length l)%nat -> exists a b c r, l = a :: b :: c :: r.
Proof. destruct l as [|a [|b [|c r]]]; cbn; try lia. intros _. now exists a, b, c, r. Qed.

Lemma bb_step_spec b o : bb_inv b -> bop_ok o ->
  exists b' r, bb_step b o = (b', r) /\ bb_inv b' /\
    spec_step (bb_data b) (bb_offset b) o = ((bb_data b', bb_offset b'), r).
Proof.
  intros Hi Ho. pose proof Hi as (L & B & O & K).
  destruct o as [n|n| |d|n|n|n v|d]; cbn [bb_step spec_step bop_delta bop_ok] in *.
  - unfold bb_seek. rewrite peekN_spec by auto. destruct (_ && _) eqn:E.
    + do 2 eexists. split; [reflexivity|]. split; [|reflexivity].
      unfold bb_inv. cbn. repeat split; auto; lia.
    + do 2 eexists. split; [reflexivity|]. split; [exact Hi|reflexivity].
  - unfold bb_seek_back.
    assert (E0 : peekN b (i64 (0 - n)) =
       if (0 <=? bb_offset b + - n) && (bb_offset b + - n <=? zlen (bb_data b))
       then Some (bb_set_offset b (bb_offset b + - n)) else None).
    { destruct (Z.eq_dec n (- 2 ^ 63)) as [->|Hn].
      - rewrite peekN_spec by (auto; apply i64_range).
        replace (i64 (0 - - 2 ^ 63)) with (- 2 ^ 63) by reflexivity.
        replace ((0 <=? bb_offset b + - 2 ^ 63) && _) with false by lia.
        replace ((0 <=? bb_offset b + - - 2 ^ 63) && _) with false by lia. reflexivity.
      - unfold is_i64 in Ho. rewrite i64_id by (unfold is_i64; lia). change (0 - n) with (- n). rewrite peekN_spec by (auto; unfold is_i64; lia). reflexivity. }
    rewrite E0. destruct (_ && _) eqn:E.
    + do 2 eexists. split; [reflexivity|]. split; [|reflexivity].
      unfold bb_inv. cbn. repeat split; auto; lia.
    + do 2 eexists. split; [reflexivity|]. split; [exact Hi|reflexivity].
  - do 2 eexists. split; [reflexivity|]. split; [|reflexivity].
    unfold bb_inv. cbn. repeat split; auto; lia.
  - do 2 eexists. split; [reflexivity|]. split; [|reflexivity].
    unfold bb_inv. cbn. destruct Ho. repeat split; auto; try lia. apply zlen_nonneg.
  - (* reads *)
    assert (R : forall m, (m = 2 \/ m = 4 \/ m = 8)%nat ->
       exists b' r, lift_num (rd_uint m b) = (b', r) /\ bb_inv b' /\
         (if (0 <=? bb_offset b + Z.of_nat m) && (bb_offset b + Z.of_nat m <=? zlen (bb_data b))
          then (bb_data b, bb_offset b + Z.of_nat m, Ok (VNum (be_value (firstn m (skipn (Z.to_nat (bb_offset b)) (bb_data b))))))
          else (bb_data b, bb_offset b, Err)) = ((bb_data b', bb_offset b'), r)).
    { intros m Hm. unfold rd_uint. rewrite peekN_spec by (auto; unfold is_i64; lia). destruct (_ && _) eqn:E.
      - cbn [bb_data bb_offset bb_set_offset]. rewrite Z.add_simpl_r. rewrite slice_from_some by lia. cbn [of_opt bind].
        unfold be_get. rewrite slice_some by (try lia; unfold zlen in *; rewrite skipn_length; lia).
        cbn [of_opt bind lift_num fst snd]. change (Z.to_nat 0) with 0%nat. rewrite skipn_O, Z.sub_0_r, Nat2Z.id.
        do 2 eexists. split; [reflexivity|]. split; [|reflexivity].
        unfold bb_inv. cbn. repeat split; auto; lia.
      - do 2 eexists. split; [reflexivity|]. split; [exact Hi|reflexivity]. }
    destruct Ho as [->|[->|[->|[->| ->]]]]; try (apply R; lia).
    + (* u8 *) unfold rd_u8. rewrite peekN_spec by (auto; unfold is_i64; lia). cbn [Z.of_nat Pos.of_succ_nat]. destruct (_ && _) eqn:E.
      * cbn [bb_data bb_offset bb_set_offset]. rewrite Z.add_simpl_r.
        destruct (idx_some (bb_data b) (bb_offset b)) as [x Hx]; [lia|]. rewrite Hx. cbn [lift_num fst snd of_opt].
        do 2 eexists. split; [reflexivity|]. split; [unfold bb_inv; cbn; repeat split; auto; lia|].
        cbn [bb_data bb_offset bb_set_offset]. do 2 f_equal.
        unfold idx in Hx. destruct (_ <? 0) in Hx; [discriminate|].
        replace (skipn (Z.to_nat (bb_offset b)) (bb_data b)) with (x :: skipn (S (Z.to_nat (bb_offset b))) (bb_data b)).
        2:{ clear - Hx. revert Hx. generalize (bb_data b) as l, (Z.to_nat (bb_offset b)) as k. induction l as [|y l IH]; intros [|k] H; cbn in H; try discriminate; [now injection H as ->|]. cbn [skipn]. now apply IH. }
        reflexivity.
      * do 2 eexists. split; [reflexivity|]. split; [exact Hi|reflexivity].
    + (* u24 *) unfold rd_u24. rewrite peekN_spec by (auto; unfold is_i64; lia). change (Z.of_nat 3) with 3. destruct (_ && _) eqn:E.
      * cbn [bb_data bb_offset bb_set_offset]. rewrite Z.add_simpl_r. rewrite slice_from_some by lia. cbn [of_opt bind].
        destruct (skipn_3 (skipn (Z.to_nat (bb_offset b)) (bb_data b))) as (x & y & z & r & Es).
        { rewrite skipn_length. unfold zlen in *. lia. }
        assert (Kb : bytes_ok (x :: y :: z :: r)) by (rewrite <- Es; now apply bytes_ok_skipn).
        inversion Kb as [|? ? Kx Kb1]; inversion Kb1 as [|? ? Ky Kb2]; inversion Kb2 as [|? ? Kz Kb3]; subst.
        rewrite Es. rewrite uint24_value by auto. cbn [lift_num fst snd firstn].
        do 2 eexists. split; [reflexivity|]. split; [unfold bb_inv; cbn; repeat split; auto; lia|].
        reflexivity.
      * do 2 eexists. split; [reflexivity|]. split; [exact Hi|reflexivity].
  - (* ReadBytes *)
    destruct Ho as [Ho1 Ho2]. unfold rd_bytes. rewrite peekN_spec by auto. destruct (_ && _) eqn:E.
    + cbn [bb_data bb_offset bb_set_offset]. rewrite slice_some by lia. rewrite Z.add_simpl_l. cbn [lift_list fst snd of_opt].
      do 2 eexists. split; [reflexivity|]. split; [unfold bb_inv; cbn; repeat split; auto; lia|].
      reflexivity.
    + do 2 eexists. split; [reflexivity|]. split; [exact Hi|reflexivity].
  - (* typed writes *)
    destruct Ho as [Ho Hv].
    assert (INV : forall enc, length enc = n -> bytes_ok enc -> (0 <=? bb_offset b + Z.of_nat n) && (bb_offset b + Z.of_nat n <=? zlen (bb_data b)) = true ->
       bb_inv {| bb_data := overwrite (bb_data b) (bb_offset b) enc; bb_length := bb_length b; bb_offset := bb_offset b + Z.of_nat n |}).
    { intros enc Le Ke E. assert (zlen (overwrite (bb_data b) (bb_offset b) enc) = zlen (bb_data b)).
      { unfold overwrite, zlen in *. rewrite !app_length, firstn_length, skipn_length. lia. }
      unfold bb_inv. cbn. rewrite H. repeat split; auto; try lia.
      unfold overwrite. apply bytes_ok_app; split; [now apply bytes_ok_firstn|apply bytes_ok_app; split; [exact Ke|now apply bytes_ok_skipn]]. }
    assert (R : forall m, m = n -> (m = 2 \/ m = 4 \/ m = 8)%nat ->
       exists b' r, lift_unit (wr_uint m b v) = (b', r) /\ bb_inv b' /\
         (if (0 <=? bb_offset b + Z.of_nat m) && (bb_offset b + Z.of_nat m <=? zlen (bb_data b))
          then (overwrite (bb_data b) (bb_offset b) (be_bytes m v), bb_offset b + Z.of_nat m, Ok VUnit)
          else (bb_data b, bb_offset b, Err)) = ((bb_data b', bb_offset b'), r)).
    { intros m -> Hm. unfold wr_uint. rewrite peekN_spec by (auto; unfold is_i64; lia). destruct (_ && _) eqn:E.
      - cbn [bb_data bb_offset bb_set_offset]. rewrite Z.add_simpl_r. unfold write_sub. rewrite slice_from_some by lia. cbn [of_opt bind].
        unfold be_put. set (s := skipn (Z.to_nat (bb_offset b)) (bb_data b)).
        assert (Ls : zlen s = zlen (bb_data b) - bb_offset b) by (unfold s, zlen in *; rewrite skipn_length; lia).
        replace (zlen s <? Z.of_nat n) with false by lia.
        assert (Lb : zlen (be_bytes n v) = Z.of_nat n) by (unfold zlen; now rewrite be_bytes_length).
        rewrite copy_at_fits by lia. cbn [of_opt bind]. change (Z.to_nat 0) with 0%nat. rewrite firstn_O, Z.add_0_l. cbn [app].
        cbn [finish_write lift_unit fst snd].
        replace (firstn (Z.to_nat (bb_offset b)) (bb_data b) ++ be_bytes n v ++ skipn (Z.to_nat (zlen (be_bytes n v))) s)
          with (overwrite (bb_data b) (bb_offset b) (be_bytes n v)).
        2:{ unfold overwrite, s. do 2 f_equal. rewrite skipn_skipn. f_equal. lia. }
        do 2 eexists. split; [reflexivity|]. split; [|reflexivity].
        apply INV; [apply be_bytes_length|apply be_bytes_ok|lia].
      - do 2 eexists. split; [reflexivity|]. split; [exact Hi|reflexivity]. }
    destruct Ho as [->|Ho]; [|destruct Ho as [->|[->| ->]]; apply R; auto].
    unfold wr_u8. rewrite peekN_spec by (auto; unfold is_i64; lia). cbn [Z.of_nat Pos.of_succ_nat] in *. destruct (_ && _) eqn:E.
    + cbn [bb_data bb_offset bb_set_offset]. rewrite Z.add_simpl_r. rewrite upd_some by lia. cbn [of_opt finish_write lift_unit fst snd].
      change (256 ^ 1) with 256 in Hv.
      replace (set_nth (Z.to_nat (bb_offset b)) v (bb_data b)) with (overwrite (bb_data b) (bb_offset b) (be_bytes 1 v)).
      2:{ unfold overwrite. rewrite set_nth_split by (unfold zlen in *; lia). cbn [be_bytes app]. change (Z.of_nat 0) with 0.
          rewrite Z.pow_0_r, Z.div_1_r, Z.mod_small by lia. do 2 f_equal. f_equal. change (zlen [v]) with 1. lia. }
      do 2 eexists. split; [reflexivity|]. split; [|reflexivity].
      apply INV; [reflexivity|apply be_bytes_ok|lia].
    + do 2 eexists. split; [reflexivity|]. split; [exact Hi|reflexivity].
  - (* Write *)
    destruct Ho as [Hd Kd]. unfold wr_bytes. pose proof (zlen_nonneg d). rewrite peekN_spec by (auto; unfold is_i64; lia). destruct (_ && _) eqn:E.
    + cbn [bb_data bb_offset bb_set_offset]. rewrite Z.add_simpl_r. rewrite copy_at_fits by lia. cbn [of_opt finish_write lift_unit fst snd].
      do 2 eexists. split; [reflexivity|]. split; [|reflexivity].
      assert (E2 : zlen (overwrite (bb_data b) (bb_offset b) d) = zlen (bb_data b)).
      { unfold overwrite, zlen in *. rewrite !app_length, firstn_length, skipn_length. lia. }
      unfold bb_inv. cbn. fold (overwrite (bb_data b) (bb_offset b) d). rewrite E2. repeat split; auto; try lia.
      unfold overwrite. apply bytes_ok_app; split; [now apply bytes_ok_firstn|apply bytes_ok_app; split; [exact Kd|now apply bytes_ok_skipn]].
    + do 2 eexists. split; [reflexivity|]. split; [exact Hi|reflexivity].
Qed.

Lemma bb_run_spec ops : forall b, bb_inv b -> Forall bop_ok ops ->
  exists b' rs, bb_run b ops = (b', rs) /\ bb_inv b' /\
    spec_run (bb_data b) (bb_offset b) ops = ((bb_data b', bb_offset b'), rs).
Proof.
  induction ops as [|o ops IH]; intros b Hi Ho; cbn [bb_run spec_run].
  - do 2 eexists. split; [reflexivity|]. auto.
  - inversion Ho; subst. destruct (bb_step_spec b o Hi) as (b1 & r & E1 & I1 & S1); auto.
    destruct (IH b1 I1) as (b2 & rs & E2 & I2 & S2); auto.
    rewrite E1, S1, E2, S2. do 2 eexists. auto.
Qed.

Lemma bb_new_inv d : zlen d < 2 ^ 63 -> bytes_ok d -> bb_inv (bb_new d).
Proof. intros. unfold bb_inv. cbn. repeat split; auto; try lia. apply zlen_nonneg. Qed.

(* ---- C06 ---- *)

(** A typed value: n-byte unsigned (n = 1, 2, 4, 8) or a byte string. *)
Inductive item := INum (n : nat) (v : Z) | IBytes (d : list Z).
Definition item_ok (i : item) : Prop :=
  match i with
  | INum n v => (n = 1%nat \/ n = 2%nat \/ n = 4%nat \/ n = 8%nat) /\ 0 <= v < 256 ^ Z.of_nat n
  | IBytes d => bytes_ok d /\ zlen d < 2 ^ 63
  end.
Definition item_write (i : item) : bop := match i with INum n v => OWrite n v | IBytes d => OWriteBytes d end.
Definition item_read (i : item) : bop := match i with INum n v => ORead n | IBytes d => OBytes (zlen d) end.
Definition item_val (i : item) : bval := match i with INum n v => VNum v | IBytes d => VList d end.
Definition item_enc (i : item) : list Z := match i with INum n v => be_bytes n v | IBytes d => d end.
Definition items_enc (l : list item) : list Z := flat_map item_enc l.

Lemma item_delta_w i : bop_delta (item_write i) = zlen (item_enc i).
Proof. destruct i; cbn; auto. unfold zlen. now rewrite be_bytes_length. Qed.
Lemma item_delta_r i : bop_delta (item_read i) = zlen (item_enc i).
Proof. destruct i; cbn; auto. unfold zlen. now rewrite be_bytes_length. Qed.

Lemma spec_write_item pre buf i : 
  zlen (item_enc i) <= zlen buf ->
  spec_step (pre ++ buf) (zlen pre) (item_write i) =
  ((pre ++ item_enc i ++ skipn (length (item_enc i)) buf, zlen pre + zlen (item_enc i)), Ok VUnit).
Proof.
  intros H. pose proof (zlen_nonneg (item_enc i)). pose proof (zlen_nonneg pre).
  assert (E : overwrite (pre ++ buf) (zlen pre) (item_enc i) = pre ++ item_enc i ++ skipn (length (item_enc i)) buf).
  { unfold overwrite. unfold zlen at 1. rewrite Nat2Z.id, firstn_app, firstn_all, Nat.sub_diag, firstn_O, app_nil_r.
    do 2 f_equal. rewrite skipn_app, skipn_all2 by (unfold zlen; lia). cbn [app]. f_equal. unfold zlen. lia. }
  pose proof (item_delta_w i) as D.
  destruct i as [n v|d]; cbn [item_write spec_step item_enc] in *; rewrite D, zlen_app;
  replace ((0 <=? _) && _) with true by lia; rewrite E; reflexivity.
Qed.

Lemma spec_write_item_err data off i : 0 <= off ->
  zlen data < off + zlen (item_enc i) -> spec_step data off (item_write i) = ((data, off), Err).
Proof.
  intros H0 H. pose proof (item_delta_w i) as D. pose proof (zlen_nonneg (item_enc i)).
  destruct i as [n v|d]; cbn [item_write spec_step] in *; rewrite D; cbn [item_enc] in *;
  replace ((0 <=? _) && _) with false by lia; reflexivity.
Qed.

Lemma spec_writes items : forall pre buf st rs,
  spec_run (pre ++ buf) (zlen pre) (map item_write items) = (st, rs) -> Forall (fun r => r = Ok VUnit) rs ->
  zlen (items_enc items) <= zlen buf /\
  st = (pre ++ items_enc items ++ skipn (length (items_enc items)) buf, zlen pre + zlen (items_enc items)).
Proof.
  induction items as [|i items IH]; intros pre buf st rs H F; cbn [map spec_run items_enc flat_map] in *.
  - injection H as <- <-. split; [apply zlen_nonneg|]. rewrite zlen_nil, Z.add_0_r. reflexivity.
  - destruct (Z.le_gt_cases (zlen (item_enc i)) (zlen buf)) as [L|L].
    + rewrite spec_write_item in H by auto.
      destruct (spec_run _ _ _) as [s2 rs2] eqn:E in H. injection H as <- <-.
      inversion F; subst. rewrite app_assoc in E. rewrite <- zlen_app in E.
      destruct (IH _ _ _ _ E) as [L2 ->]; auto. fold (items_enc items).
      rewrite !zlen_app, app_length. unfold zlen in *. rewrite skipn_length in L2. split; [lia|].
      rewrite skipn_skipn, <- !app_assoc. f_equal. lia.
    + rewrite spec_write_item_err in H; [|apply zlen_nonneg|rewrite zlen_app; lia].
      destruct (spec_run _ _ _) in H. injection H as <- <-. inversion F; subst. discriminate.
Qed.

Lemma spec_reads items : forall pre suf, Forall item_ok items ->
  spec_run (pre ++ items_enc items ++ suf) (zlen pre) (map item_read items) =
  ((pre ++ items_enc items ++ suf, zlen pre + zlen (items_enc items)), map (fun i => Ok (item_val i)) items).
Proof.
  induction items as [|i items IH]; intros pre suf F; cbn [map spec_run items_enc flat_map].
  - rewrite zlen_nil, Z.add_0_r. reflexivity.
  - inversion F as [|? ? Fi Fr]; subst. fold (items_enc items).
    pose proof (zlen_nonneg (item_enc i)). pose proof (zlen_nonneg pre). pose proof (zlen_nonneg suf). pose proof (zlen_nonneg (items_enc items)).
    assert (S1 : spec_step (pre ++ (item_enc i ++ items_enc items) ++ suf) (zlen pre) (item_read i) =
       ((pre ++ (item_enc i ++ items_enc items) ++ suf, zlen pre + zlen (item_enc i)), Ok (item_val i))).
    { pose proof (item_delta_r i) as D.
      assert (Sk : skipn (Z.to_nat (zlen pre)) (pre ++ (item_enc i ++ items_enc items) ++ suf) = item_enc i ++ items_enc items ++ suf).
      { unfold zlen. rewrite Nat2Z.id, skipn_app, skipn_all, Nat.sub_diag, skipn_O, <- !app_assoc. reflexivity. }
      assert (Fi2 : firstn (length (item_enc i)) (item_enc i ++ items_enc items ++ suf) = item_enc i).
      { rewrite firstn_app, firstn_all, Nat.sub_diag, firstn_O, app_nil_r. reflexivity. }
      destruct i as [n v|d]; cbn [item_read spec_step] in *; rewrite D; rewrite !zlen_app; cbn [item_enc item_val] in *.
      - replace ((0 <=? _) && _) with true by lia. rewrite Sk. rewrite be_bytes_length in Fi2. rewrite Fi2, be_bytes_value.
        destruct Fi as [_ Fv]. rewrite Z.mod_small by exact Fv. reflexivity.
      - replace ((0 <=? _) && _) with true by lia. rewrite Sk. replace (Z.to_nat (zlen d)) with (length d) by (unfold zlen; lia). rewrite Fi2. reflexivity. }
    rewrite S1. specialize (IH (pre ++ item_enc i) suf Fr). rewrite zlen_app in IH.
    rewrite <- !app_assoc in IH. rewrite <- !app_assoc. rewrite IH. rewrite zlen_app, Z.add_assoc. reflexivity.
Qed.

Lemma Forall_map_write items : Forall item_ok items -> Forall bop_ok (map item_write items).
Proof. induction 1 as [|i l H Hl IH]; constructor; auto. destruct i; cbn in *; tauto. Qed.
Lemma Forall_map_read items : Forall item_ok items -> Forall bop_ok (map item_read items).
Proof.
  induction 1 as [|i l H Hl IH]; constructor; auto. destruct i as [n v|d]; cbn in *; [tauto|].
  pose proof (zlen_nonneg d). unfold is_i64. lia.
Qed.

Lemma typed_round_trip items buf b rs : Forall item_ok items -> bytes_ok buf -> zlen buf < 2 ^ 63 ->
  bb_run (bb_new buf) (map item_write items) = (b, rs) -> Forall (fun r => r = Ok VUnit) rs ->
  exists w b2, wr_written b = Ok w /\ bb_data b = w ++ skipn (length w) buf /\
    bb_run (bb_new w) (map item_read items) = (b2, map (fun i => Ok (item_val i)) items) /\
    bb_readable b2 = 0.
Proof.
  intros Fi Kb Lb H F.
  destruct (bb_run_spec (map item_write items) (bb_new buf)) as (b' & rs' & E & I & S); [now apply bb_new_inv|now apply Forall_map_write|].
  rewrite H in E. injection E as <- <-. cbn [bb_new bb_data bb_offset] in S.
  destruct (spec_writes items [] buf _ _ S F) as [L St]. cbn [app] in St. rewrite zlen_nil, Z.add_0_l in St.
  injection St as D O.
  pose proof (zlen_nonneg (items_enc items)).
  assert (W : wr_written b = Ok (items_enc items)).
  { unfold wr_written. rewrite slice_some; [|lia|rewrite D, O; rewrite zlen_app; pose proof (zlen_nonneg (skipn (length (items_enc items)) buf)); lia].
    cbn [of_opt]. rewrite D, O. change (Z.to_nat 0) with 0%nat. rewrite skipn_O, Z.sub_0_r. unfold zlen. rewrite Nat2Z.id.
    rewrite firstn_app, firstn_all, Nat.sub_diag, firstn_O, app_nil_r. reflexivity. }
  assert (K2 : bytes_ok (items_enc items)).
  { destruct I as (_ & _ & _ & K). rewrite D in K. now apply bytes_ok_app in K. }
  destruct (bb_run_spec (map item_read items) (bb_new (items_enc items))) as (b2 & rs2 & E2 & I2 & S2).
  { apply bb_new_inv; [lia|exact K2]. }
  { now apply Forall_map_read. }
  exists (items_enc items), b2. rewrite E2. cbn [bb_new bb_data bb_offset] in S2.
  pose proof (spec_reads items [] [] Fi) as S3. rewrite app_nil_r in S3. cbn [app] in S3. rewrite zlen_nil in S3.
  rewrite S3 in S2. injection S2 as D2 O2 <-.
  repeat split; auto. unfold bb_readable. destruct I2 as (L2 & _). rewrite L2, <- D2, <- O2. lia.
Qed.

(* ---- C05 ---- *)
Lemma rd_bytes_char b size : bb_inv b -> is_i64 size ->
  snd (rd_bytes b size) <> NoFuel /\
  (snd (rd_bytes b size) = Panic <-> (size < 0 /\ 0 <= bb_offset b + size)).
Proof.
  intros Hi Hs. pose proof Hi as (L & B & O & K). unfold rd_bytes. rewrite peekN_spec by auto.
  destruct (_ && _) eqn:E; cbn [snd].
  - cbn [bb_set_offset bb_data bb_offset]. destruct (Z.lt_ge_cases size 0) as [N|N].
    + rewrite slice_none by lia. cbn [of_opt]. split; [discriminate|]. split; intros; [lia|reflexivity].
    + rewrite slice_some by lia. cbn [of_opt]. split; [discriminate|]. split; [discriminate|lia].
  - split; [discriminate|]. split; [discriminate|lia].
Qed.

(* ---- C07 ---- *)
Lemma put_uint24_correct dst v : 3 <= zlen dst -> 0 <= v ->
  put_uint24 dst v = Ok (be_bytes 3 v ++ skipn 3 dst).
Proof.
  intros H Hv. unfold zlen in H. destruct (skipn_3 dst ltac:(lia)) as (a & b & c & r & ->).
  unfold put_uint24. rewrite upd_some by (unfold zlen; cbn [length] in *; lia). cbn [of_opt bind Z.to_nat set_nth].
  rewrite upd_some by (unfold zlen; cbn [length] in *; lia). cbn [of_opt bind]. change (Z.to_nat 1) with 1%nat. cbn [set_nth].
  rewrite upd_some by (unfold zlen; cbn [length] in *; lia). cbn [of_opt bind]. change (Z.to_nat 2) with 2%nat. cbn [set_nth skipn].
  rewrite !Z.shiftr_div_pow2 by lia. unfold u8. cbn [be_bytes app].
  change (256 ^ Z.of_nat 2) with (2 ^ 16). change (256 ^ Z.of_nat 1) with (2 ^ 8). change (256 ^ Z.of_nat 0) with 1.
  rewrite Z.div_1_r. reflexivity.
Qed.

Lemma put_uint24_short dst v : zlen dst < 3 -> put_uint24 dst v = Panic.
Proof.
  intros H. destruct dst as [|a [|b [|c r]]]; try reflexivity.
  rewrite !zlen_cons in H. pose proof (zlen_nonneg r). lia.
Qed.

Lemma uint24_correct data : bytes_ok data -> 3 <= zlen data -> uint24 data = Ok (be_value (firstn 3 data)).
Proof.
  intros K H. unfold zlen in H. destruct (skipn_3 data ltac:(lia)) as (a & b & c & r & ->).
  inversion K as [|? ? K1 K2]; inversion K2 as [|? ? K3 K4]; inversion K4 as [|? ? K5 K6]; subst.
  now rewrite uint24_value.
Qed.

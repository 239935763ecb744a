(** * GolombProofs: golomb_reader.go against the bit-string specification. *)
From Verif Require Import Base BitSpec BufioModel BitsProofs.

(** The bits the reader has not consumed yet. *)
Definition g_bits (g : golomb) : list bool := be_bits (Z.to_nat (g_left g)) (g_buf g) ++ bits_of_bytes (g_rest g).
Definition g_wf (g : golomb) : Prop := 0 <= g_left g <= 7.

Lemma golomb_new_bits data : g_bits (golomb_new data) = bits_of_bytes data.
Proof. reflexivity. Qed.
Lemma golomb_new_wf data : g_wf (golomb_new data).
Proof. unfold g_wf; cbn; lia. Qed.

Lemma g_read_bit_nil g : g_wf g -> g_bits g = [] -> g_read_bit g = (g, Err).
Proof.
  unfold g_wf, g_bits, g_read_bit. intros W H. apply app_eq_nil in H as [H1 H2].
  apply (f_equal (@length _)) in H1. rewrite be_bits_length in H1. cbn in H1.
  replace (g_left g =? 0) with true by lia.
  destruct (g_rest g) as [|b l]; [reflexivity|]. discriminate.
Qed.

Lemma g_read_bit_cons g b t : g_wf g -> g_bits g = b :: t ->
  exists g', g_read_bit g = (g', Ok (Z.b2z b)) /\ g_wf g' /\ g_bits g' = t.
Proof.
  unfold g_wf, g_bits, g_read_bit. intros W H.
  destruct (g_left g =? 0) eqn:E.
  - replace (g_left g) with 0 in H by lia. cbn [Z.to_nat be_bits app] in H.
    destruct (g_rest g) as [|x l]; [discriminate|]. rewrite bits_of_bytes_cons in H.
    change (bits_of_byte x) with (Z.testbit x 7 :: be_bits 7 x) in H. cbn [app] in H. injection H as <- <-.
    rewrite land_1_testbit by lia. eexists. split; [reflexivity|]. cbn [g_left g_buf g_rest]. split; [lia|].
    change (Z.to_nat (8 - 1)) with 7%nat. reflexivity.
  - assert (Z.to_nat (g_left g) = S (Z.to_nat (g_left g - 1))) as L by lia.
    rewrite L in H. cbn [be_bits app] in H. injection H as <- <-.
    rewrite land_1_testbit by lia. eexists. split; [rewrite Z2Nat.id by lia; reflexivity|]. cbn [g_left g_buf g_rest]. split; [lia|reflexivity].
Qed.

Lemma lor_mod_pow2 x y n : 0 <= n -> Z.lor (x mod 2 ^ n) (y mod 2 ^ n) = (Z.lor x y) mod 2 ^ n.
Proof. intros H. rewrite <- !Z.land_ones by lia. symmetry. apply Z.land_lor_distr_l. Qed.

Lemma mod_pow2_bits_double x n : 0 <= n -> Z.lor (x mod 2 ^ n) 0 = x mod 2 ^ n.
Proof. intros. apply Z.lor_0_r. Qed.

(** ReadBits *)
Lemma g_read_bits_loop_ok k : forall g l a, g_wf g -> g_bits g = l -> (k <= length l)%nat ->
  exists g', g_read_bits_loop k ((a * 2 ^ Z.of_nat k) mod 2 ^ 64) g =
     (g', Ok ((a * 2 ^ Z.of_nat k + bits_value (firstn k l)) mod 2 ^ 64)) /\ g_wf g' /\ g_bits g' = skipn k l.
Proof.
  induction k as [|k IH]; intros g l a W H L; cbn [g_read_bits_loop].
  - exists g. unfold g_ret. cbn [firstn skipn]. change (bits_value []) with 0. rewrite Z.add_0_r. auto.
  - destruct l as [|b t]; [cbn in L; lia|]. destruct (g_read_bit_cons g b t W H) as (g1 & R & W1 & B1).
    unfold g_bind. rewrite R.
    replace (Z.lor ((a * 2 ^ Z.of_nat (S k)) mod 2 ^ 64) (u64 (Z.shiftl (Z.b2z b) (Z.of_nat k))))
      with (((2 * a + Z.b2z b) * 2 ^ Z.of_nat k) mod 2 ^ 64).
    2:{ unfold u64. rewrite lor_mod_pow2 by lia. f_equal. rewrite <- lor_b2z.
        rewrite <- !Z.shiftl_mul_pow2 by lia. rewrite Z.shiftl_lor. f_equal.
        rewrite !Z.shiftl_mul_pow2 by lia. rewrite Nat2Z.inj_succ, Z.pow_succ_r by lia. ring. }
    destruct (IH g1 t (2 * a + Z.b2z b) W1 B1) as (g2 & R2 & W2 & B2); [cbn in L; lia|].
    exists g2. rewrite R2. cbn [firstn skipn]. split; [|auto]. do 3 f_equal.
    rewrite bits_value_cons. unfold zlen. rewrite firstn_length_le by (cbn in L; lia).
    rewrite Nat2Z.inj_succ, Z.pow_succ_r by lia. ring.
Qed.

Lemma g_read_bits_loop_err k : forall g l acc, g_wf g -> g_bits g = l -> (length l < k)%nat ->
  exists g', g_read_bits_loop k acc g = (g', Err) /\ g_wf g' /\ g_bits g' = [].
Proof.
  induction k as [|k IH]; intros g l acc W H L; cbn [g_read_bits_loop]; [lia|].
  unfold g_bind. destruct l as [|b t].
  - rewrite (g_read_bit_nil g W H). exists g. auto.
  - destruct (g_read_bit_cons g b t W H) as (g1 & R & W1 & B1). rewrite R.
    apply (IH g1 t); auto. cbn in L. lia.
Qed.

Lemma g_read_bits_ok n g l : g_wf g -> g_bits g = l -> (Z.to_nat n <= length l)%nat ->
  exists g', g_read_bits n g = (g', Ok (bits_value (firstn (Z.to_nat n) l) mod 2 ^ 64)) /\ g_wf g' /\
    g_bits g' = skipn (Z.to_nat n) l.
Proof.
  intros W H L. destruct (g_read_bits_loop_ok (Z.to_nat n) g l 0 W H L) as (g' & R & W' & B').
  exists g'. unfold g_read_bits. rewrite Z.mul_0_l in R. auto.
Qed.

Lemma g_read_bits_err n g l : g_wf g -> g_bits g = l -> (length l < Z.to_nat n)%nat ->
  exists g', g_read_bits n g = (g', Err) /\ g_wf g' /\ g_bits g' = [].
Proof. intros. unfold g_read_bits. eapply g_read_bits_loop_err; eauto. Qed.

(** One step of the shift registers of ReadBits32/64. *)
Lemma shift_step w a b : 1 <= w ->
  Z.lor ((Z.shiftl (a mod 2 ^ w) 1) mod 2 ^ w) (Z.b2z b mod 2 ^ w) = (2 * a + Z.b2z b) mod 2 ^ w.
Proof.
  intros H. rewrite lor_mod_pow2 by lia. rewrite Z.shiftl_mul_pow2, Z.mul_comm by lia. change (2 ^ 1) with 2.
  rewrite lor_b2z. assert (0 < 2 ^ w) by (apply Z.pow_pos_nonneg; lia).
  rewrite Z.add_mod, Z.mul_mod_idemp_r, <- Z.add_mod by lia. reflexivity.
Qed.

Lemma g_read_bits32_loop_ok k : forall g l a, g_wf g -> g_bits g = l -> (k <= length l)%nat ->
  exists g', g_read_bits32_loop k (a mod 2 ^ 32) g =
     (g', Ok ((fold_left (fun a b => 2 * a + Z.b2z b) (firstn k l) a) mod 2 ^ 32)) /\ g_wf g' /\ g_bits g' = skipn k l.
Proof.
  induction k as [|k IH]; intros g l a W H L; cbn [g_read_bits32_loop].
  - exists g. unfold g_ret. cbn [firstn skipn fold_left]. auto.
  - destruct l as [|b t]; [cbn in L; lia|]. destruct (g_read_bit_cons g b t W H) as (g1 & R & W1 & B1).
    unfold g_bind. rewrite R. unfold u32. rewrite shift_step by lia.
    cbn [firstn skipn fold_left]. apply IH; auto. cbn in L. lia.
Qed.

Lemma g_read_bits64_loop_ok k : forall g l a, g_wf g -> g_bits g = l -> (k <= length l)%nat ->
  exists g', g_read_bits64_loop k (a mod 2 ^ 64) g =
     (g', Ok ((fold_left (fun a b => 2 * a + Z.b2z b) (firstn k l) a) mod 2 ^ 64)) /\ g_wf g' /\ g_bits g' = skipn k l.
Proof.
  induction k as [|k IH]; intros g l a W H L; cbn [g_read_bits64_loop].
  - exists g. unfold g_ret. cbn [firstn skipn fold_left]. auto.
  - destruct l as [|b t]; [cbn in L; lia|]. destruct (g_read_bit_cons g b t W H) as (g1 & R & W1 & B1).
    unfold g_bind. rewrite R. unfold u64. rewrite shift_step by lia.
    cbn [firstn skipn fold_left]. apply IH; auto. cbn in L. lia.
Qed.

Lemma g_read_bits32_loop_err k : forall g l acc, g_wf g -> g_bits g = l -> (length l < k)%nat ->
  exists g', g_read_bits32_loop k acc g = (g', Err) /\ g_wf g' /\ g_bits g' = [].
Proof.
  induction k as [|k IH]; intros g l acc W H L; cbn [g_read_bits32_loop]; [lia|].
  unfold g_bind. destruct l as [|b t].
  - rewrite (g_read_bit_nil g W H). exists g. auto.
  - destruct (g_read_bit_cons g b t W H) as (g1 & R & W1 & B1). rewrite R.
    apply (IH g1 t); auto. cbn in L. lia.
Qed.

Lemma g_read_bits64_loop_err k : forall g l acc, g_wf g -> g_bits g = l -> (length l < k)%nat ->
  exists g', g_read_bits64_loop k acc g = (g', Err) /\ g_wf g' /\ g_bits g' = [].
Proof.
  induction k as [|k IH]; intros g l acc W H L; cbn [g_read_bits64_loop]; [lia|].
  unfold g_bind. destruct l as [|b t].
  - rewrite (g_read_bit_nil g W H). exists g. auto.
  - destruct (g_read_bit_cons g b t W H) as (g1 & R & W1 & B1). rewrite R.
    apply (IH g1 t); auto. cbn in L. lia.
Qed.

(** Leading zeros: the three shapes of a bit string. *)
Lemma zeros_shape (m : nat) : forall l : list bool,
  (exists z t, (z <= m)%nat /\ l = repeat false z ++ true :: t) \/
  (exists t, l = repeat false (S m) ++ t) \/
  (exists z, (z <= m)%nat /\ l = repeat false z).
Proof.
  induction m as [|m IH]; intros l.
  - destruct l as [|[] t].
    + right; right. exists 0%nat. auto.
    + left. exists 0%nat, t. auto.
    + right; left. exists t. reflexivity.
  - destruct l as [|[] t].
    + right; right. exists 0%nat. split; [lia|auto].
    + left. exists 0%nat, t. split; [lia|auto].
    + destruct (IH t) as [(z & u & Hz & ->)|[(u & ->)|(z & Hz & ->)]].
      * left. exists (S z), u. split; [lia|reflexivity].
      * right; left. exists u. reflexivity.
      * right; right. exists (S z). split; [lia|reflexivity].
Qed.

Lemma g_zeros_one z : forall fuel i g t, (z < fuel)%nat -> 0 <= i -> i + Z.of_nat z <= 32 -> g_wf g ->
  g_bits g = repeat false z ++ true :: t ->
  exists g', g_zeros_loop fuel i g = (g', Ok (i + Z.of_nat z)) /\ g_wf g' /\ g_bits g' = t.
Proof.
  induction z as [|z IH]; intros fuel i g t Hf Hi Hz W H; destruct fuel as [|fuel]; try lia; cbn [g_zeros_loop]; unfold g_bind.
  - destruct (g_read_bit_cons g _ _ W H) as (g1 & R & W1 & B1). rewrite R. cbn [Z.b2z Z.eqb andb negb].
    exists g1. unfold g_ret. rewrite Z.add_0_r. auto.
  - destruct (g_read_bit_cons g _ _ W H) as (g1 & R & W1 & B1). rewrite R. cbn [Z.b2z]. rewrite Z.eqb_refl.
    replace (i <? 32) with true by lia. cbn [andb negb].
    destruct (IH fuel (i + 1) g1 t) as (g2 & R2 & W2 & B2); auto; try lia.
    exists g2. rewrite R2. split; [do 2 f_equal; lia|auto].
Qed.

Lemma g_zeros_max z : forall fuel i g t, (z < fuel)%nat -> 0 <= i -> i + Z.of_nat z = 32 -> g_wf g ->
  g_bits g = repeat false (S z) ++ t ->
  exists g', g_zeros_loop fuel i g = (g', Ok 32) /\ g_wf g' /\ g_bits g' = t.
Proof.
  induction z as [|z IH]; intros fuel i g t Hf Hi Hz W H; destruct fuel as [|fuel]; try lia; cbn [g_zeros_loop]; unfold g_bind.
  - destruct (g_read_bit_cons g _ _ W H) as (g1 & R & W1 & B1). rewrite R. replace (i <? 32) with false by lia. rewrite andb_false_r. cbn [negb].
    exists g1. unfold g_ret. replace i with 32 by lia. auto.
  - destruct (g_read_bit_cons g _ _ W H) as (g1 & R & W1 & B1). rewrite R. cbn [Z.b2z]. rewrite Z.eqb_refl.
    replace (i <? 32) with true by lia. cbn [andb negb].
    apply (IH fuel (i + 1) g1 t); auto; lia.
Qed.

Lemma g_zeros_err z : forall fuel i g, (z < fuel)%nat -> 0 <= i -> i + Z.of_nat z <= 32 -> g_wf g ->
  g_bits g = repeat false z ->
  exists g', g_zeros_loop fuel i g = (g', Err) /\ g_wf g' /\ g_bits g' = [].
Proof.
  induction z as [|z IH]; intros fuel i g Hf Hi Hz W H; destruct fuel as [|fuel]; try lia; cbn [g_zeros_loop]; unfold g_bind.
  - rewrite (g_read_bit_nil g W H). exists g. auto.
  - destruct (g_read_bit_cons g _ _ W H) as (g1 & R & W1 & B1). rewrite R. cbn [Z.b2z]. rewrite Z.eqb_refl.
    replace (i <? 32) with true by lia. cbn [andb negb].
    apply (IH fuel (i + 1) g1); auto; lia.
Qed.

(** value and rest after z zeros and a one *)
Lemma g_read_ue_tail z g t : (z <= 32)%nat -> g_wf g -> g_bits g = t ->
  let k := g_bind (g_read_bits (Z.of_nat z)) (fun res => g_ret (u64 (res + u64 (Z.shiftl 1 (Z.of_nat z) - 1)))) in
  ((z <= length t)%nat -> exists g', k g = (g', Ok (2 ^ Z.of_nat z - 1 + bits_value (firstn z t))) /\ g_wf g' /\ g_bits g' = skipn z t) /\
  ((length t < z)%nat -> exists g', k g = (g', Err) /\ g_wf g' /\ g_bits g' = []).
Proof.
  intros Hz W H k. unfold k, g_bind. split; intros L.
  - destruct (g_read_bits_ok (Z.of_nat z) g t W H) as (g' & R & W' & B'); [lia|]. rewrite R. rewrite Nat2Z.id in *.
    exists g'. unfold g_ret. split; [|auto]. do 2 f_equal.
    pose proof (bits_value_bound (firstn z t)) as Bd. unfold zlen in Bd. rewrite firstn_length_le in Bd by lia.
    assert (P : 2 ^ Z.of_nat z <= 2 ^ 32) by (apply Z.pow_le_mono_r; lia).
    assert (P0 : 0 < 2 ^ Z.of_nat z) by (apply Z.pow_pos_nonneg; lia).
    change (2 ^ 32) with 4294967296 in P.
    rewrite Z.shiftl_1_l. unfold u64. change (2 ^ 64) with 18446744073709551616.
    rewrite (Z.mod_small (bits_value _)) by lia. rewrite (Z.mod_small (_ - 1)) by lia. rewrite Z.mod_small by lia. lia.
  - destruct (g_read_bits_err (Z.of_nat z) g t W H) as (g' & R & W' & B'); [lia|]. rewrite R. exists g'. auto.
Qed.

(** The complete behaviour of ReadExponentialGolombCode. *)
Lemma g_read_ue_one z g t : (z <= 32)%nat -> g_wf g -> g_bits g = repeat false z ++ true :: t -> (z <= length t)%nat ->
  exists g', g_read_ue g = (g', Ok (2 ^ Z.of_nat z - 1 + bits_value (firstn z t))) /\ g_wf g' /\ g_bits g' = skipn z t.
Proof.
  intros Hz W H L. unfold g_read_ue.
  destruct (g_zeros_one z 100 0 g t) as (g1 & R1 & W1 & B1); auto; try lia.
  unfold g_bind at 1. rewrite R1. rewrite Z.add_0_l.
  apply (g_read_ue_tail z g1 t Hz W1 B1). exact L.
Qed.

Lemma g_read_ue_short z g t : (z <= 32)%nat -> g_wf g -> g_bits g = repeat false z ++ true :: t -> (length t < z)%nat ->
  exists g', g_read_ue g = (g', Err) /\ g_wf g' /\ g_bits g' = [].
Proof.
  intros Hz W H L. unfold g_read_ue.
  destruct (g_zeros_one z 100 0 g t) as (g1 & R1 & W1 & B1); auto; try lia.
  unfold g_bind at 1. rewrite R1. rewrite Z.add_0_l.
  apply (g_read_ue_tail z g1 t Hz W1 B1). exact L.
Qed.

Lemma ue_code_ok v : 0 <= v < 2 ^ 33 - 1 -> (Z.to_nat (Z.log2 (v + 1)) <= 32)%nat.
Proof.
  intros H. assert (Z.log2 (v + 1) < 33) by (apply Z.log2_lt_pow2; lia). lia.
Qed.

Lemma g_read_ue_code g v rest : 0 <= v < 2 ^ 33 - 1 -> g_wf g -> g_bits g = ue_code v ++ rest ->
  exists g', g_read_ue g = (g', Ok v) /\ g_wf g' /\ g_bits g' = rest.
Proof.
  intros Hv W H. rewrite ue_code_shape in H by lia. set (k := Z.to_nat (Z.log2 (v + 1))) in *.
  assert (Hk : (k <= 32)%nat) by (apply ue_code_ok; lia).
  rewrite <- app_assoc in H. cbn [app] in H.
  destruct (g_read_ue_one k g _ Hk W H) as (g' & R & W' & B'); [rewrite app_length, be_bits_length; lia|].
  exists g'. rewrite R. rewrite skipn_app, skipn_all2 in B' by (rewrite be_bits_length; lia).
  rewrite be_bits_length, Nat.sub_diag in B'. cbn [app skipn] in B'. split; [|auto]. do 2 f_equal.
  rewrite firstn_app, be_bits_length, Nat.sub_diag, firstn_O, app_nil_r.
  rewrite firstn_all2 by (rewrite be_bits_length; lia). rewrite be_bits_value.
  pose proof (Z.log2_spec (v + 1) ltac:(lia)) as [L1 L2]. pose proof (Z.log2_nonneg (v + 1)).
  unfold k in *. rewrite Z2Nat.id by lia. rewrite Z.pow_succ_r in L2 by lia.
  assert ((v + 1) mod 2 ^ Z.log2 (v + 1) = v + 1 - 2 ^ Z.log2 (v + 1)); [|lia].
  symmetry. apply Z.mod_unique with (q := 1); lia.
Qed.

Lemma be_bits_add_high n (a : Z) l : length l = n -> be_bits n (a * 2 ^ Z.of_nat n + bits_value l) = l.
Proof.
  intros <-. transitivity (be_bits (length l) (bits_value l)); [|apply be_bits_eq_bits].
  apply nth_error_ext. intros i. destruct (Nat.lt_ge_cases i (length l)) as [L|L].
  - rewrite !nth_be_bits by lia. f_equal. apply Z.b2z_inj. rewrite !Z.testbit_spec' by lia.
    set (e := Z.of_nat (length l) - 1 - Z.of_nat i).
    replace (a * 2 ^ Z.of_nat (length l)) with (a * 2 ^ (Z.of_nat (length l) - e - 1) * 2 * 2 ^ e).
    + rewrite Z.div_add_l by (apply Z.pow_nonzero; unfold e; lia). rewrite Z.add_comm, Z.mod_add by lia. reflexivity.
    + rewrite <- (Z.mul_assoc (a * _)), <- Z.mul_assoc. f_equal.
      replace (2 * 2 ^ e) with (2 ^ (1 + e)) by (rewrite Z.pow_add_r; unfold e; lia).
      rewrite <- Z.pow_add_r by (unfold e; lia). f_equal. lia.
  - rewrite !(proj2 (nth_error_None _ _)); auto; rewrite be_bits_length; lia.
Qed.

(** Totality: a value together with the code it decodes, or an end of data. *)
Lemma g_read_ue_total g : g_wf g ->
  exists g' r, g_read_ue g = (g', r) /\ g_wf g' /\
  ((exists v, r = Ok v /\ 0 <= v < 2 ^ 33 - 1 /\ g_bits g = ue_code v ++ g_bits g') \/
   (exists v x, r = Ok v /\ v = 2 ^ 32 - 1 + bits_value x /\ length x = 32%nat /\ g_bits g = repeat false 33 ++ x ++ g_bits g') \/
   (r = Err /\ g_bits g' = [] /\ (length (g_bits g) < 65)%nat)).
Proof.
  intros W. destruct (zeros_shape 32 (g_bits g)) as [(z & t & Hz & H)|[(t & H)|(z & Hz & H)]].
  - destruct (Nat.le_gt_cases z (length t)) as [L|L].
    + destruct (g_read_ue_one z g t Hz W H L) as (g' & R & W' & B'). do 2 eexists. split; [exact R|]. split; [exact W'|].
      left. eexists. split; [reflexivity|].
      pose proof (bits_value_bound (firstn z t)) as Bd. unfold zlen in Bd. rewrite firstn_length_le in Bd by lia.
      assert (P : 2 ^ Z.of_nat z <= 2 ^ 32) by (apply Z.pow_le_mono_r; lia).
      assert (P0 : 0 < 2 ^ Z.of_nat z) by (apply Z.pow_pos_nonneg; lia).
      change (2 ^ 33) with (2 * 2 ^ 32). split; [lia|].
      rewrite H, B', ue_code_shape by lia.
      replace (2 ^ Z.of_nat z - 1 + bits_value (firstn z t) + 1) with (1 * 2 ^ Z.of_nat z + bits_value (firstn z t)) by lia.
      assert (E : Z.log2 (1 * 2 ^ Z.of_nat z + bits_value (firstn z t)) = Z.of_nat z).
      { apply Z.log2_unique; [lia|]. rewrite Z.pow_succ_r by lia. lia. }
      rewrite E, Nat2Z.id, be_bits_add_high by (rewrite firstn_length_le; lia).
      rewrite <- app_assoc. cbn [app]. rewrite firstn_skipn. reflexivity.
    + destruct (g_read_ue_short z g t Hz W H L) as (g' & R & W' & B'). do 2 eexists. split; [exact R|]. split; [exact W'|].
      right; right. split; [reflexivity|]. split; [exact B'|]. rewrite H, app_length, repeat_length. cbn [length]. lia.
  - destruct (g_zeros_max 32 100 0 g t) as (g1 & R1 & W1 & B1); auto; try lia.
    destruct (g_read_ue_tail 32 g1 t ltac:(lia) W1 B1) as [T1 T2].
    unfold g_read_ue. unfold g_bind at 1. rewrite R1. change 32 with (Z.of_nat 32).
    destruct (Nat.le_gt_cases 32 (length t)) as [L|L].
    + destruct (T1 L) as (g' & R & W' & B'). do 2 eexists. split; [exact R|]. split; [exact W'|].
      right; left. eexists. exists (firstn 32 t). split; [reflexivity|].
      split; [reflexivity|]. rewrite firstn_length_le by lia. split; [reflexivity|]. rewrite B', firstn_skipn. exact H.
    + destruct (T2 L) as (g' & R & W' & B'). do 2 eexists. split; [exact R|]. split; [exact W'|].
      right; right. split; [reflexivity|]. split; [exact B'|]. rewrite H, app_length, repeat_length. lia.
  - destruct (g_zeros_err z 100 0 g) as (g1 & R1 & W1 & B1); auto; try lia.
    unfold g_read_ue. unfold g_bind at 1. rewrite R1. do 2 eexists. split; [reflexivity|]. split; [exact W1|].
    right; right. split; [reflexivity|]. split; [exact B1|]. rewrite H, repeat_length. lia.
Qed.

(** ReadSE: positive and zero are right, negative -k comes out as 2^63 - k. *)
Lemma land1_odd x : negb (Z.land x 1 =? 0) = Z.odd x.
Proof.
  replace (Z.land x 1) with (x mod 2) by (symmetry; apply (Z.land_ones x 1); lia).
  rewrite Zmod_odd. destruct (Z.odd x); reflexivity.
Qed.

Lemma g_read_se_code g v rest : - (2 ^ 32 - 1) <= v <= 2 ^ 32 - 1 -> g_wf g -> g_bits g = se_code v ++ rest ->
  exists g', g_read_se g = (g', Ok (if 0 <=? v then v else 2 ^ 63 + v)) /\ g_wf g' /\ g_bits g' = rest.
Proof.
  intros Hv W H. unfold se_code in H. unfold g_read_se, g_bind.
  destruct (0 <? v) eqn:E.
  - destruct (g_read_ue_code g (2 * v - 1) rest) as (g' & R & W' & B'); auto; [change (2 ^ 32) with 4294967296 in *; change (2 ^ 33) with 8589934592; lia|].
    rewrite R, land1_odd. replace (Z.odd (2 * v - 1)) with true.
    2:{ replace (2 * v - 1) with (1 + 2 * (v - 1)) by lia. now rewrite Z.odd_add_mul_2. }
    exists g'. unfold g_ret. split; [|auto]. do 2 f_equal. replace (0 <=? v) with true by lia.
    unfold u64. rewrite Z.mod_small by (change (2 ^ 32) with 4294967296 in *; lia).
    replace (2 * v - 1 + 1) with (v * 2) by lia. apply Z.div_mul. lia.
  - destruct (g_read_ue_code g (- 2 * v) rest) as (g' & R & W' & B'); auto; [change (2 ^ 32) with 4294967296 in *; change (2 ^ 33) with 8589934592; lia|].
    rewrite R, land1_odd. replace (Z.odd (- 2 * v)) with false.
    2:{ replace (- 2 * v) with (0 + 2 * (- v)) by lia. now rewrite Z.odd_add_mul_2. }
    exists g'. unfold g_ret. split; [|auto]. do 2 f_equal.
    unfold u64. change (2 ^ 32) with 4294967296 in *. change (2 ^ 63) with 9223372036854775808. change (2 ^ 64) with 18446744073709551616.
    destruct (0 <=? v) eqn:E2; Z.div_mod_to_equations; lia.
Qed.

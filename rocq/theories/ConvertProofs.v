(** * ConvertProofs: ConvertTs as correctly rounded real arithmetic. *)
From Coq Require Import Reals Lra Psatz SpecFloat.
From Flocq Require Import Core BinarySingleNaN Relative.
From Verif Require Import Base FloatModel FloatProofs.
Open Scope Z_scope.

#[global] Instance H53 : Prec_gt_0 53. Proof. reflexivity. Qed.
#[global] Instance H1024 : Prec_lt_emax 53 1024. Proof. reflexivity. Qed.
#[global] Instance H24 : Prec_gt_0 24. Proof. reflexivity. Qed.
#[global] Instance H128 : Prec_lt_emax 24 128. Proof. reflexivity. Qed.

Notation rn := (rnd 53 1024).
Notation v64 := (val 53 1024).

Lemma bpow_Z e : 0 <= e -> bpow radix2 e = IZR (2 ^ e).
Proof. intros H. symmetry. apply (IZR_Zpower radix2 e H). Qed.

Lemma bpow_lt' a b : a < b -> (bpow radix2 a < bpow radix2 b)%R. Proof. apply bpow_lt. Qed.

Lemma emin64 : SpecFloat.emin 53 1024 = -1074. Proof. reflexivity. Qed.

Lemma rn_bound x e : -1074 <= e -> (Rabs x <= bpow radix2 e)%R -> (Rabs (rn x) <= bpow radix2 e)%R.
Proof. intros He. apply rnd_bound; auto using H53, H1024. Qed.
Lemma rn_le x y : (x <= y)%R -> (rn x <= rn y)%R. Proof. apply rnd_le. exact H53. Qed.
Lemma rn_0 : rn 0 = 0%R. Proof. apply rnd_0. Qed.
Lemma rn_pos x : (0 <= x)%R -> (0 <= rn x)%R. Proof. intros H. rewrite <- rn_0. now apply rn_le. Qed.
Lemma rn_Z z : Z.abs z <= 2 ^ 53 -> rn (IZR z) = IZR z.
Proof.
  intros H. destruct (Z.eq_dec (Z.abs z) (2 ^ 53)) as [E|E].
  - assert (z = 2 ^ 53 \/ z = - 2 ^ 53) as [->| ->] by lia.
    + rewrite <- bpow_Z by lia. apply rnd_bpow; [exact H53|]. rewrite emin64. lia.
    + rewrite opp_IZR, rnd_opp. f_equal. rewrite <- bpow_Z by lia. apply rnd_bpow; [exact H53|]. rewrite emin64. lia.
  - apply rnd_Z; [rewrite emin64; lia|lia].
Qed.
Lemma rn_opp x : rn (- x) = (- rn x)%R. Proof. apply rnd_opp. Qed.

Lemma IZR_abs_le z e : 0 <= e -> Z.abs z <= 2 ^ e -> (Rabs (IZR z) <= bpow radix2 e)%R.
Proof. intros He H. rewrite <- abs_IZR, bpow_Z by lia. now apply IZR_le. Qed.

Lemma small_ok x e : e < 1024 -> (Rabs x <= bpow radix2 e)%R -> (Rabs x < bpow radix2 1024)%R.
Proof. intros He H. eapply Rle_lt_trans; [exact H|]. now apply bpow_lt. Qed.

Lemma v64_Z z : Z.abs z <= 2 ^ 64 -> v64 (f64_of_Z z) (rn (IZR z)).
Proof. intros H. apply val_of_Z; try exact H53; try exact H1024. apply (small_ok _ 64); [lia|]. apply rn_bound; [lia|]. apply IZR_abs_le; lia. Qed.

Lemma rn_ge1 z : 1 <= z -> (1 <= rn (IZR z))%R.
Proof. intros H. rewrite <- (rn_Z 1) by lia. apply rn_le. now apply IZR_le. Qed.

Definition ratio (src dst : Z) : R := rn (rn (IZR dst) / rn (IZR src)).

Lemma ratio_bound src dst : 1 <= src <= 2 ^ 64 -> 0 <= dst <= 2 ^ 64 -> (0 <= ratio src dst)%R /\ (Rabs (ratio src dst) <= bpow radix2 64)%R.
Proof.
  intros Hs Hd. pose proof (rn_ge1 src ltac:(lia)) as H1. assert (H2 : (0 <= rn (IZR dst))%R) by (apply rn_pos, IZR_le; lia).
  assert (H3 : (Rabs (rn (IZR dst)) <= bpow radix2 64)%R) by (apply rn_bound; [lia|]; apply IZR_abs_le; lia). rewrite Rabs_pos_eq in H3 by exact H2.
  assert (H4 : (0 <= rn (IZR dst) / rn (IZR src))%R) by (apply Rmult_le_pos; [exact H2|]; left; apply Rinv_0_lt_compat; lra).
  split; [now apply rn_pos|]. apply rn_bound; [lia|]. rewrite Rabs_pos_eq by exact H4. apply (Rmult_le_reg_r (rn (IZR src))); [lra|]. unfold Rdiv. rewrite Rmult_assoc, Rinv_l, Rmult_1_r by lra.
  pose proof (bpow_gt_0 radix2 64). nra.
Qed.

Lemma v64_ratio src dst : 1 <= src <= 2 ^ 64 -> 0 <= dst <= 2 ^ 64 -> v64 (f64_div (f64_of_Z dst) (f64_of_Z src)) (ratio src dst).
Proof.
  intros Hs Hd. apply val_div; try apply v64_Z; try exact H53; try exact H1024; try lia.
  - pose proof (rn_ge1 src ltac:(lia)). lra.
  - apply (small_ok _ 64); [lia|]. now apply ratio_bound.
Qed.

Definition conv_real (ts src dst : Z) : R := rn (rn (IZR ts) * ratio src dst).

Lemma v64_convert ts src dst : Z.abs ts <= 2 ^ 64 -> 1 <= src <= 2 ^ 64 -> 0 <= dst <= 2 ^ 64 ->
  v64 (f64_mul (f64_of_Z ts) (f64_div (f64_of_Z dst) (f64_of_Z src))) (conv_real ts src dst).
Proof.
  intros Ht Hs Hd. apply val_mul; try exact H53; try exact H1024; [now apply v64_Z|now apply v64_ratio|]. apply (small_ok _ 128); [lia|]. apply rn_bound; [lia|].
  rewrite Rabs_mult. change 128 with (64 + 64). rewrite bpow_plus. apply Rmult_le_compat; try apply Rabs_pos; [|now apply ratio_bound].
  apply rn_bound; [lia|]. apply IZR_abs_le; lia.
Qed.

Lemma convert_ts_real ts src dst : Z.abs ts <= 2 ^ 64 -> 1 <= src <= 2 ^ 64 -> 0 <= dst <= 2 ^ 64 ->
  convert_ts ts src dst = if (- 2 ^ 63 <=? Ztrunc (conv_real ts src dst)) && (Ztrunc (conv_real ts src dst) <? 2 ^ 63) then Some (Ztrunc (conv_real ts src dst)) else None.
Proof.
  intros Ht Hs Hd. unfold convert_ts, f2i. cbv zeta. destruct (val_trunc 53 1024 _ _ (v64_convert ts src dst Ht Hs Hd)) as [F T]. rewrite F, T. reflexivity.
Qed.

Lemma conv_real_mono t1 t2 src dst : 1 <= src <= 2 ^ 64 -> 0 <= dst <= 2 ^ 64 -> t1 <= t2 -> (conv_real t1 src dst <= conv_real t2 src dst)%R.
Proof.
  intros Hs Hd H. apply rn_le. apply Rmult_le_compat_r; [now apply ratio_bound|]. apply rn_le. now apply IZR_le.
Qed.
Lemma conv_real_0 src dst : conv_real 0 src dst = 0%R.
Proof. unfold conv_real. rewrite rn_0, Rmult_0_l. apply rn_0. Qed.
Lemma conv_real_opp ts src dst : conv_real (- ts) src dst = (- conv_real ts src dst)%R.
Proof. unfold conv_real. rewrite opp_IZR, rn_opp, Ropp_mult_distr_l_reverse. apply rn_opp. Qed.

(** Two roundings: relative error below 2^-52 + 2^-106. *)
Definition delta : R := (/ 4503599627370496 + / 81129638414606681695789005144064)%R.

Lemma rn_rel x : (bpow radix2 (-1022) <= Rabs x)%R -> exists eps, (Rabs eps <= / 9007199254740992)%R /\ rn x = (x * (1 + eps))%R.
Proof.
  intros H. destruct (rnd_rel 53 1024 H53 x) as (eps & He & E).
  - rewrite emin64. exact H.
  - exists eps. split; [|exact E]. replace (/ 9007199254740992)%R with (/ 2 * bpow radix2 (- 53 + 1))%R; [exact He|].
    change (bpow radix2 (- 53 + 1)) with (/ IZR 4503599627370496)%R. lra.
Qed.

Lemma conv_error ts src dst : Z.abs ts <= 2 ^ 53 -> 1 <= src <= 2 ^ 53 -> 1 <= dst <= 2 ^ 53 ->
  (Rabs (conv_real ts src dst - IZR (ts * dst) / IZR src) <= Rabs (IZR (ts * dst) / IZR src) * delta)%R.
Proof.
  intros Ht Hs Hd. destruct (Z.eq_dec ts 0) as [->|Nz].
  { rewrite conv_real_0. replace (IZR (0 * dst) / IZR src)%R with 0%R by (rewrite Z.mul_0_l; unfold Rdiv; ring). rewrite Rminus_0_r, Rabs_R0. lra. }
  unfold conv_real, ratio. rewrite !rn_Z by lia.
  assert (Hs' : (1 <= IZR src <= 9007199254740992)%R) by (split; [apply IZR_le|apply (IZR_le src 9007199254740992)]; lia).
  assert (Hd' : (1 <= IZR dst)%R) by (apply IZR_le; lia).
  set (q := (IZR dst / IZR src)%R).
  assert (Hq : (/ 9007199254740992 <= q)%R).
  { unfold q, Rdiv. replace (/ 9007199254740992)%R with (1 * / 9007199254740992)%R by ring. apply Rmult_le_compat; try lra. apply Rinv_le; lra. }
  assert (B : (bpow radix2 (-1022) <= / 9007199254740992 * / 2)%R).
  { apply Rle_trans with (bpow radix2 (-54)); [apply bpow_le; lia|]. change (bpow radix2 (-54)) with (/ IZR 18014398509481984)%R. lra. }
  destruct (rn_rel q) as (e1 & He1 & E1); [rewrite Rabs_pos_eq by lra; lra|]. rewrite E1.
  assert (Ht' : (1 <= Rabs (IZR ts))%R) by (rewrite <- abs_IZR; apply IZR_le; lia).
  apply Rabs_le_inv in He1.
  destruct (rn_rel (IZR ts * (q * (1 + e1)))) as (e2 & He2 & E2).
  { rewrite !Rabs_mult. rewrite (Rabs_pos_eq q), (Rabs_pos_eq (1 + e1)) by lra. apply Rle_trans with (1 := B).
    assert (/ 9007199254740992 * / 2 <= q * (1 + e1))%R by (apply Rmult_le_compat; lra). nra. }
  rewrite E2. apply Rabs_le_inv in He2.
  replace (IZR (ts * dst) / IZR src)%R with (IZR ts * q)%R by (unfold q; rewrite mult_IZR; field; lra).
  replace (IZR ts * (q * (1 + e1)) * (1 + e2) - IZR ts * q)%R with (IZR ts * q * (e1 + e2 + e1 * e2))%R by ring.
  rewrite Rabs_mult. apply Rmult_le_compat_l; [apply Rabs_pos|]. unfold delta. apply Rabs_le. nra.
Qed.

(* ---------------------------------------------------------------------------------------- *)
(** ** Truncation *)
Lemma trunc_lt y : (Rabs (IZR (Ztrunc y) - y) < 1)%R.
Proof.
  destruct (Rle_or_lt 0 y) as [H|H].
  - rewrite Ztrunc_floor by exact H. pose proof (Zfloor_lb y). pose proof (Zfloor_ub y). apply Rabs_lt. lra.
  - rewrite Ztrunc_ceil by lra. pose proof (Zceil_ub y). pose proof (Zceil_lb y). apply Rabs_lt. lra.
Qed.

Lemma delta_bounds : (0 < delta < / 2251799813685248)%R.
Proof. unfold delta. lra. Qed.

Lemma IZR_pos n : 1 <= n -> (1 <= IZR n)%R. Proof. intros. now apply IZR_le. Qed.

Lemma conv_trunc_pos ts src dst : 0 <= ts <= 2 ^ 53 -> 1 <= src <= 2 ^ 53 -> 1 <= dst <= 2 ^ 53 -> ts * dst < 2 ^ 52 ->
  let q := ts * dst / src in
  Ztrunc (conv_real ts src dst) = q \/ ((ts * dst) mod src = 0 /\ (conv_real ts src dst < IZR q)%R /\ Ztrunc (conv_real ts src dst) = q - 1).
Proof.
  intros Ht Hs Hd HN q. pose proof (conv_error ts src dst ltac:(lia) Hs Hd) as E. set (N := ts * dst) in *.
  assert (HN0 : 0 <= N) by (unfold N; nia).
  pose proof (IZR_pos src ltac:(lia)) as Hs'. pose proof (IZR_le 0 N HN0) as HN0'. cbn in HN0'.
  set (y := conv_real ts src dst) in *.
  assert (Hy : (0 <= y)%R). { unfold y. rewrite <- (conv_real_0 src dst). apply conv_real_mono; lia. }
  assert (Hx : (0 <= IZR N / IZR src)%R) by (apply Rmult_le_pos; [exact HN0'|]; left; apply Rinv_0_lt_compat; lra).
  rewrite (Rabs_pos_eq (IZR N / IZR src)) in E by exact Hx. apply Rabs_le_inv in E.
  assert (HN' : (IZR N <= 4503599627370495)%R) by (apply IZR_le; lia).
  assert (D : (IZR N * delta < 1)%R).
  { unfold delta. apply Rle_lt_trans with (4503599627370495 * (/ 4503599627370496 + / 81129638414606681695789005144064))%R; [apply Rmult_le_compat_r; lra|lra]. }
  assert (Ys : (IZR N - 1 < y * IZR src < IZR N + 1)%R).
  { assert (Xe : (IZR N / IZR src * IZR src = IZR N)%R) by (field; lra). set (x := (IZR N / IZR src)%R) in *.
    assert (y * IZR src <= x * IZR src + x * IZR src * delta)%R by nra. assert (x * IZR src - x * IZR src * delta <= y * IZR src)%R by nra. rewrite Xe in *. lra. }
  rewrite Ztrunc_floor by exact Hy.
  pose proof (Z.div_mod N src ltac:(lia)) as DM. pose proof (Z.mod_pos_bound N src ltac:(lia)) as MB. fold q in DM.
  assert (DM' : (IZR N = IZR src * IZR q + IZR (N mod src))%R) by (rewrite <- mult_IZR, <- plus_IZR; f_equal; exact DM).
  assert (M1 : (IZR (N mod src) <= IZR src - 1)%R) by (rewrite <- minus_IZR; apply IZR_le; lia).
  assert (U : (y < IZR q + 1)%R) by nra.
  destruct (Rle_or_lt (IZR q) y) as [L|L].
  - left. apply Zfloor_imp. rewrite plus_IZR. lra.
  - right. assert (M0 : N mod src = 0).
    { destruct (Z.eq_dec (N mod src) 0) as [Z0|Z0]; [exact Z0|]. exfalso. assert (1 <= IZR (N mod src))%R by (apply IZR_pos; lia). nra. }
    split; [exact M0|]. split; [exact L|]. apply Zfloor_imp. rewrite plus_IZR, minus_IZR. rewrite M0 in DM'. split; [|lra]. nra.
Qed.

Lemma in_range r : Z.abs r < 2 ^ 63 -> (- 2 ^ 63 <=? r) && (r <? 2 ^ 63) = true.
Proof. intros. lia. Qed.

(** ConvertTs returns the quotient truncated toward zero, or, on an exact division only, that quotient one step closer to zero. *)
Lemma convert_near ts src dst : Z.abs ts <= 2 ^ 53 -> 1 <= src <= 2 ^ 53 -> 1 <= dst <= 2 ^ 53 -> Z.abs (ts * dst) < 2 ^ 52 ->
  exists r, convert_ts ts src dst = Some r /\
    (r = Z.quot (ts * dst) src \/ (Z.rem (ts * dst) src = 0 /\ ts <> 0 /\ r = Z.quot (ts * dst) src - Z.sgn ts)).
Proof.
  intros Ht Hs Hd HN. rewrite convert_ts_real by lia.
  assert (P : forall t, 0 <= t <= 2 ^ 53 -> t * dst < 2 ^ 52 -> exists r, Ztrunc (conv_real t src dst) = r /\ Z.abs r < 2 ^ 63 /\
     (r = Z.quot (t * dst) src \/ (Z.rem (t * dst) src = 0 /\ t <> 0 /\ r = Z.quot (t * dst) src - 1))).
  { intros t H1 H2. pose proof (conv_trunc_pos t src dst H1 Hs Hd H2) as C. cbv zeta in C.
    assert (0 <= t * dst / src <= t * dst) by (split; [apply Z.div_pos; nia|]; apply Z.div_le_upper_bound; nia).
    rewrite Z.quot_div_nonneg, Z.rem_mod_nonneg by nia. eexists. split; [reflexivity|]. destruct C as [->|(C1 & C2 & ->)].
    - split; [lia|]. now left.
    - split; [lia|]. right. split; [exact C1|]. split; [|reflexivity]. intros ->. rewrite conv_real_0 in C2. rewrite Z.mul_0_l, Z.div_0_l in C2 by lia. lra. }
  destruct (Z.le_gt_cases 0 ts) as [G|G].
  - destruct (P ts ltac:(lia) ltac:(nia)) as (r & -> & Hr & C). rewrite in_range by exact Hr. exists r. split; [reflexivity|].
    destruct C as [C|(C1 & C2 & C3)]; [now left|]. right. repeat split; auto. rewrite Z.sgn_pos by lia. exact C3.
  - destruct (P (- ts) ltac:(lia) ltac:(nia)) as (r & E & Hr & C). replace ts with (- - ts) by lia. rewrite conv_real_opp, Ztrunc_opp, E. rewrite in_range by lia. exists (- r). split; [reflexivity|].
    replace (- - ts * dst) with (- (- ts * dst)) by ring. rewrite Z.quot_opp_l, Z.rem_opp_l by lia. destruct C as [->|(C1 & C2 & ->)]; [now left|]. right. repeat split; [lia|lia|]. rewrite Z.sgn_neg by lia. lia.
Qed.

(** The general error bound, in integers. *)
Lemma convert_error ts src dst : Z.abs ts <= 2 ^ 53 -> 1 <= src <= 2 ^ 53 -> 1 <= dst <= 2 ^ 53 -> Z.abs (ts * dst) <= src * 2 ^ 62 ->
  exists r, convert_ts ts src dst = Some r /\ Z.abs (r * src - ts * dst) * 2 ^ 51 < src * 2 ^ 51 + Z.abs (ts * dst).
Proof.
  intros Ht Hs Hd HN. pose proof (conv_error ts src dst Ht Hs Hd) as E. rewrite convert_ts_real by lia.
  set (y := conv_real ts src dst) in *. set (N := ts * dst) in *. pose proof (IZR_pos src ltac:(lia)) as Hs'. pose proof delta_bounds as Db.
  set (x := (IZR N / IZR src)%R) in *. assert (Xe : (x * IZR src = IZR N)%R) by (unfold x; field; lra).
  assert (Ax : (Rabs x * IZR src = Rabs (IZR N))%R) by (rewrite <- Xe, Rabs_mult, (Rabs_pos_eq (IZR src)) by lra; reflexivity).
  rewrite <- abs_IZR in Ax.
  assert (AN : (IZR (Z.abs N) <= IZR src * 4611686018427387904)%R) by (rewrite <- mult_IZR; apply IZR_le; lia).
  assert (Xb : (Rabs x <= 4611686018427387904)%R) by (apply (Rmult_le_reg_r (IZR src)); lra).
  pose proof (Rabs_pos x) as X0. pose proof (trunc_lt y) as T. set (r := Ztrunc y) in *.
  assert (Er : (Rabs (IZR r - x) < 1 + Rabs x * delta)%R).
  { replace (IZR r - x)%R with ((IZR r - y) + (y - x))%R by ring. eapply Rle_lt_trans; [apply Rabs_triang|]. lra. }
  assert (Hr : Z.abs r < 2 ^ 63).
  { apply lt_IZR. rewrite abs_IZR. replace (IZR r) with ((IZR r - x) + x)%R by ring. eapply Rle_lt_trans; [apply Rabs_triang|].
    apply Rlt_le_trans with (1 + Rabs x * delta + Rabs x)%R; [lra|]. change (IZR (2 ^ 63)) with 9223372036854775808%R. assert (Rabs x * delta <= Rabs x * / 2251799813685248)%R by (apply Rmult_le_compat_l; lra). lra. }
  rewrite in_range by exact Hr. exists r. split; [reflexivity|]. apply lt_IZR. rewrite plus_IZR, !mult_IZR, abs_IZR, minus_IZR, mult_IZR. change (IZR (2 ^ 51)) with 2251799813685248%R.
  replace (IZR r * IZR src - IZR N)%R with ((IZR r - x) * IZR src)%R by (rewrite <- Xe; ring). rewrite Rabs_mult, (Rabs_pos_eq (IZR src)) by lra. rewrite <- Ax.
  assert (Rabs (IZR r - x) * IZR src < (1 + Rabs x * delta) * IZR src)%R by (apply Rmult_lt_compat_r; lra).
  assert (Rabs x * delta * IZR src <= Rabs x * / 2251799813685248 * IZR src)%R by (apply Rmult_le_compat_r; [lra|]; apply Rmult_le_compat_l; lra). lra.
Qed.

(* ---------------------------------------------------------------------------------------- *)
(** ** Ratios that do not round down *)
Definition rounds_up (src dst : Z) : bool :=
  match f64_div (f64_of_Z dst) (f64_of_Z src) with
  | S754_finite false m e => if 0 <=? e then dst <=? Zpos m * 2 ^ e * src else dst * 2 ^ (- e) <=? Zpos m * src
  | _ => false
  end.

Lemma rounds_up_real src dst : 1 <= src <= 2 ^ 53 -> 1 <= dst <= 2 ^ 53 -> rounds_up src dst = true -> (IZR dst / IZR src <= ratio src dst)%R.
Proof.
  intros Hs Hd H. unfold rounds_up in H. pose proof (val_SF2R 53 1024 _ _ (v64_ratio src dst ltac:(lia) ltac:(lia))) as V.
  destruct (f64_div (f64_of_Z dst) (f64_of_Z src)) as [s|s| |s m e]; try discriminate. destruct s; [discriminate|]. cbn [SF2R cond_Zopp] in V. rewrite <- V.
  pose proof (IZR_pos src ltac:(lia)) as Hs'. apply (Rmult_le_reg_r (IZR src)); [lra|]. replace (IZR dst / IZR src * IZR src)%R with (IZR dst) by (field; lra).
  unfold F2R. cbn [Fnum Fexp SpecFloat.cond_Zopp]. destruct (0 <=? e) eqn:E.
  - rewrite bpow_Z by lia. rewrite <- !mult_IZR. apply IZR_le. lia.
  - pose proof (bpow_gt_0 radix2 (- e)) as Bp. apply (Rmult_le_reg_r (bpow radix2 (- e))); [exact Bp|].
    replace (IZR (Z.pos m) * bpow radix2 e * IZR src * bpow radix2 (- e))%R with (IZR (Z.pos m) * IZR src * (bpow radix2 e * bpow radix2 (- e)))%R by ring.
    rewrite <- bpow_plus. replace (e + - e) with 0 by lia. cbn [bpow]. rewrite Rmult_1_r. rewrite bpow_Z by lia. rewrite <- !mult_IZR. apply IZR_le. lia.
Qed.

Lemma convert_exact ts src dst : Z.abs ts <= 2 ^ 53 -> 1 <= src <= 2 ^ 53 -> 1 <= dst <= 2 ^ 53 -> Z.abs (ts * dst) < 2 ^ 52 -> rounds_up src dst = true ->
  convert_ts ts src dst = Some (Z.quot (ts * dst) src).
Proof.
  intros Ht Hs Hd HN Hu. rewrite convert_ts_real by lia. pose proof (rounds_up_real src dst Hs Hd Hu) as Rr.
  assert (P : forall t, 0 <= t <= 2 ^ 53 -> t * dst < 2 ^ 52 -> Ztrunc (conv_real t src dst) = Z.quot (t * dst) src /\ 0 <= Z.quot (t * dst) src < 2 ^ 63).
  { intros t H1 H2. assert (Q : 0 <= t * dst / src <= t * dst) by (split; [apply Z.div_pos; nia|]; apply Z.div_le_upper_bound; nia).
    rewrite Z.quot_div_nonneg by nia. split; [|lia]. destruct (conv_trunc_pos t src dst H1 Hs Hd H2) as [C|(C1 & C2 & _)]; [exact C|]. exfalso.
    pose proof (IZR_pos src ltac:(lia)) as Hs'. apply (Rlt_irrefl (IZR (t * dst / src))). eapply Rle_lt_trans; [|exact C2]. unfold conv_real. rewrite (rn_Z t) by lia.
    rewrite <- (rn_Z (t * dst / src)) by lia. apply rn_le. pose proof (Z.div_mod (t * dst) src ltac:(lia)) as DM. rewrite C1 in DM.
    assert (Eq : (IZR (t * dst / src) = IZR t * (IZR dst / IZR src))%R).
    { apply (Rmult_eq_reg_r (IZR src)); [|lra]. rewrite <- mult_IZR. replace (t * dst / src * src) with (t * dst) by lia. rewrite mult_IZR. field. lra. }
    rewrite Eq. apply Rmult_le_compat_l; [apply (IZR_le 0); lia|exact Rr]. }
  destruct (Z.le_gt_cases 0 ts) as [G|G].
  - destruct (P ts ltac:(lia) ltac:(nia)) as (-> & R). rewrite in_range by lia. reflexivity.
  - destruct (P (- ts) ltac:(lia) ltac:(nia)) as (E & R). replace ts with (- - ts) by lia. rewrite conv_real_opp, Ztrunc_opp, E. rewrite in_range by lia. f_equal. replace (- - ts * dst) with (- (- ts * dst)) by ring. now rewrite Z.quot_opp_l by lia.
Qed.

(** An integral factor: exact in the whole 53-bit range. *)
Lemma convert_multiple ts src k : Z.abs ts <= 2 ^ 53 -> 1 <= src <= 2 ^ 53 -> 1 <= k -> src * k <= 2 ^ 53 -> Z.abs (ts * k) <= 2 ^ 53 ->
  convert_ts ts src (src * k) = Some (ts * k).
Proof.
  intros Ht Hs Hk Hd HN. rewrite convert_ts_real by nia. assert (E : conv_real ts src (src * k) = IZR (ts * k)).
  { unfold conv_real, ratio. rewrite (rn_Z (src * k)), (rn_Z src), (rn_Z ts) by nia. pose proof (IZR_pos src ltac:(lia)) as Hs'.
    replace (IZR (src * k) / IZR src)%R with (IZR k) by (rewrite mult_IZR; field; lra). rewrite (rn_Z k) by nia. rewrite <- mult_IZR. now apply rn_Z. }
  rewrite E, Ztrunc_IZR. rewrite in_range by lia. reflexivity.
Qed.

(* ---------------------------------------------------------------------------------------- *)
(** ** The frame rate of avc.ParseSPS *)
Lemma fps_exact ts nu : 0 <= ts < 2 ^ 32 -> 1 <= nu < 2 ^ 32 -> sps_fps ts nu = Some (ts / (2 * nu)).
Proof.
  intros Ht Hn. pose proof (v64_ratio nu ts ltac:(lia) ltac:(lia)) as V1. destruct (ratio_bound nu ts ltac:(lia) ltac:(lia)) as [R0 Rb].
  assert (V2 : v64 (f64_div (f64_div (f64_of_Z ts) (f64_of_Z nu)) (f64_of_Z 2)) (rn (ratio nu ts / 2))).
  { apply val_div; try exact H53; try exact H1024; [exact V1| |lra|].
    - rewrite <- (rn_Z 2) by lia. apply v64_Z. lia.
    - apply (small_ok _ 64); [lia|]. apply rn_bound; [lia|]. rewrite Rabs_pos_eq in Rb by exact R0. rewrite Rabs_pos_eq by lra. lra. }
  unfold sps_fps, f2i. cbv zeta. destruct (val_trunc 53 1024 _ _ V2) as [F T]. rewrite F, T. clear F T V1 V2.
  assert (E : Ztrunc (rn (ratio nu ts / 2)) = ts / (2 * nu)).
  { unfold ratio in *. rewrite (rn_Z nu), (rn_Z ts) in * by lia. pose proof (IZR_pos nu ltac:(lia)) as Hn'. pose proof (IZR_le 0 ts ltac:(lia)) as Ht'. cbn in Ht'.
    rewrite Ztrunc_floor by (apply rn_pos; lra). set (x := (IZR ts / IZR nu)%R) in *. assert (Xe : (x * IZR nu = IZR ts)%R) by (unfold x; field; lra).
    set (k := ts / (2 * nu)). pose proof (Z.div_mod ts (2 * nu) ltac:(lia)) as DM. pose proof (Z.mod_pos_bound ts (2 * nu) ltac:(lia)) as MB. fold k in DM.
    assert (K0 : 0 <= k) by (apply Z.div_pos; lia). assert (K1 : k <= 2 ^ 32) by (unfold k; apply Z.div_le_upper_bound; nia).
    assert (L1 : 2 * k * nu <= ts) by lia. assert (L2 : ts + 1 <= (2 * k + 2) * nu) by lia.
    apply IZR_le in L1. apply IZR_le in L2. rewrite !mult_IZR in L1. rewrite plus_IZR, mult_IZR, plus_IZR, mult_IZR in L2.
    apply Zfloor_imp. rewrite plus_IZR. split.
    - rewrite <- (rn_Z k) at 1 by lia. apply rn_le. assert (Hx : (IZR (2 * k) <= x)%R) by (apply (Rmult_le_reg_r (IZR nu)); [lra|]; rewrite mult_IZR; lra).
      apply rn_le in Hx. rewrite (rn_Z (2 * k)) in Hx by lia. rewrite mult_IZR in Hx. lra.
    - destruct (Z.eq_dec ts 0) as [Z0|Nz].
      { assert (Hx0 : x = 0%R) by (unfold x; rewrite Z0; unfold Rdiv; ring). rewrite Hx0, rn_0. unfold Rdiv. rewrite Rmult_0_l, rn_0. pose proof (IZR_le 0 k K0) as K0'. cbn in K0'. lra. }
      assert (Ht1 : (1 <= IZR ts <= 4294967295)%R) by (split; apply IZR_le; lia). assert (Hn1 : (IZR nu <= 4294967295)%R) by (apply IZR_le; lia).
      assert (Xl : (/ 4294967295 <= x)%R). { unfold x, Rdiv. replace (/ 4294967295)%R with (1 * / 4294967295)%R by ring. apply Rmult_le_compat; try lra. apply Rinv_le; lra. }
      assert (B : (bpow radix2 (-1022) <= / 18014398509481984)%R) by (change (/ 18014398509481984)%R with (bpow radix2 (-54)); apply bpow_le; lia).
      destruct (rn_rel x) as (e1 & He1 & E1); [rewrite Rabs_pos_eq by lra; lra|]. rewrite E1. apply Rabs_le_inv in He1.
      assert (X1 : (/ 4294967295 * / 2 <= x * (1 + e1))%R) by (apply Rmult_le_compat; lra).
      destruct (rn_rel (x * (1 + e1) / 2)) as (e2 & He2 & E2); [rewrite Rabs_pos_eq by lra; lra|]. rewrite E2. apply Rabs_le_inv in He2.
      assert (Up : (x * (1 + e1) / 2 * (1 + e2) <= x / 2 + x / 2 * delta)%R).
      { replace (x * (1 + e1) / 2 * (1 + e2))%R with (x / 2 + x / 2 * (e1 + e2 + e1 * e2))%R by field. apply Rplus_le_compat_l. apply Rmult_le_compat_l; [lra|]. unfold delta. nra. }
      eapply Rle_lt_trans; [exact Up|]. apply (Rmult_lt_reg_r (2 * IZR nu)); [lra|].
      replace ((x / 2 + x / 2 * delta) * (2 * IZR nu))%R with (x * IZR nu + x * IZR nu * delta)%R by field. rewrite Xe.
      assert (IZR ts * delta < 1)%R by (pose proof delta_bounds; apply Rle_lt_trans with (4294967295 * / 2251799813685248)%R; [apply Rmult_le_compat; lra|lra]). lra. }
  rewrite E. assert (0 <= ts / (2 * nu) <= ts) by (split; [apply Z.div_pos; lia|]; apply Z.div_le_upper_bound; nia). cbn [andb]. replace ((- 2 ^ 63 <=? ts / (2 * nu)) && (ts / (2 * nu) <? 2 ^ 63)) with true by lia. reflexivity.
Qed.

(* ---------------------------------------------------------------------------------------- *)
(** ** ComputeAACFrameDuration *)
Lemma aac_duration_real rate : 0 <= rate < 2 ^ 24 -> sf_finite (aac_frame_duration rate) = true /\ SF2R radix2 (aac_frame_duration rate) = (IZR rate / 1024)%R.
Proof.
  intros H. assert (Hb : (Rabs (IZR rate) <= bpow radix2 24)%R) by (apply IZR_abs_le; lia).
  assert (V1 : val 24 128 (f32_of_Z rate) (IZR rate)).
  { rewrite <- (rnd_Z 24 128 rate) by (cbn; lia). apply val_of_Z; try exact H24; try exact H128. rewrite (rnd_Z 24 128 rate) by (cbn; lia). eapply Rle_lt_trans; [exact Hb|]. apply bpow_lt. lia. }
  assert (V2 : val 24 128 (f32_of_Z 1024) 1024%R).
  { rewrite <- (rnd_Z 24 128 1024) by (cbn; lia). apply val_of_Z; try exact H24; try exact H128. rewrite (rnd_Z 24 128 1024) by (cbn; lia). change 1024%R with (bpow radix2 10). rewrite Rabs_pos_eq by apply bpow_ge_0. apply bpow_lt. lia. }
  assert (E : rnd 24 128 (IZR rate / 1024) = (IZR rate / 1024)%R).
  { apply round_generic; auto with typeclass_instances. apply generic_format_FLT. exists (Float radix2 rate (-10)).
    - unfold F2R. cbn [Fnum Fexp]. change (bpow radix2 (-10)) with (/ IZR 1024)%R. reflexivity.
    - cbn [Fnum]. change (radix2 ^ 24) with (2 ^ 24). lia.
    - cbn. lia. }
  assert (V : val 24 128 (aac_frame_duration rate) (IZR rate / 1024)%R).
  { rewrite <- E. apply val_div; try exact H24; try exact H128; [exact V1|exact V2|lra|]. rewrite E. assert (0 <= IZR rate)%R by (apply (IZR_le 0); lia). rewrite Rabs_pos_eq in Hb by lra. rewrite Rabs_pos_eq by lra.
    apply Rle_lt_trans with (IZR rate); [lra|]. eapply Rle_lt_trans; [exact Hb|]. apply bpow_lt. lia. }
  split; [apply (val_trunc 24 128 _ _ V)|apply (val_SF2R 24 128 _ _ V)].
Qed.

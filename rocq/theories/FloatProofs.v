(** * FloatProofs: the operations of FloatModel compute correctly rounded reals (by Flocq). *)
From Coq Require Import Reals Lra SpecFloat.
From Flocq Require Import Core BinarySingleNaN Relative.
From Verif Require Import Base FloatModel.
Open Scope Z_scope.

Section Format.
Context (prec emax : Z).
Context (Hprec : Prec_gt_0 prec) (Hmax : Prec_lt_emax prec emax).

Lemma round_aux_equiv sx mx ex lx :
  SpecFloat.binary_round_aux prec emax sx mx ex lx = BinarySingleNaN.binary_round_aux prec emax mode_NE sx mx ex lx.
Proof.
  unfold SpecFloat.binary_round_aux, BinarySingleNaN.binary_round_aux. set (m := shr_fexp _ _ _ _ _). destruct m as [mrs e]. cbn [fst snd].
  assert (E : forall m l, round_nearest_even m l = choice_mode mode_NE sx m l) by (intros m [|[]]; cbn; try reflexivity; unfold Round.cond_incr; now destruct (Z.even m)).
  now rewrite E.
Qed.

Lemma round_equiv s m e : SpecFloat.binary_round prec emax s m e = BinarySingleNaN.binary_round prec emax mode_NE s m e.
Proof.
  unfold SpecFloat.binary_round, BinarySingleNaN.binary_round, shl_align_fexp. destruct (shl_align _ _ _). apply round_aux_equiv.
Qed.

Lemma normalize_equiv m e s :
  SpecFloat.binary_normalize prec emax m e s = B2SF (BinarySingleNaN.binary_normalize prec emax Hprec Hmax mode_NE m e s).
Proof. destruct m; cbn; rewrite ?B2SF_SF2B; try reflexivity; apply round_equiv. Qed.

Lemma mul_equiv (x y : binary_float prec emax) : SFmul prec emax (B2SF x) (B2SF y) = B2SF (Bmult mode_NE x y).
Proof. destruct x, y; cbn; try reflexivity. rewrite B2SF_SF2B. apply round_aux_equiv. Qed.

Lemma div_equiv (x y : binary_float prec emax) : SFdiv prec emax (B2SF x) (B2SF y) = B2SF (Bdiv mode_NE x y).
Proof. destruct x, y; cbn; try reflexivity. rewrite B2SF_SF2B. destruct (SFdiv_core_binary _ _ _ _ _ _) as [[mz ez] lz]. apply round_aux_equiv. Qed.

Definition rnd (x : R) : R := round radix2 (FLT_exp (SpecFloat.emin prec emax) prec) ZnearestE x.

(** [f] is a finite float with real value [r]. *)
Definition val (f : spec_float) (r : R) : Prop := exists b : binary_float prec emax, B2SF b = f /\ is_finite b = true /\ B2R b = r.

Lemma val_of_Z z : (Rabs (rnd (IZR z)) < bpow radix2 emax)%R -> val (SpecFloat.binary_normalize prec emax z 0 false) (rnd (IZR z)).
Proof.
  intros H. exists (BinarySingleNaN.binary_normalize prec emax Hprec Hmax mode_NE z 0 false). split; [symmetry; apply normalize_equiv|].
  pose proof (binary_normalize_correct prec emax Hprec Hmax mode_NE z 0 false) as C. cbv zeta in C.
  replace (F2R {| Fnum := z; Fexp := 0 |}) with (IZR z) in C by (unfold F2R; cbn; ring).
  change (round radix2 (SpecFloat.fexp prec emax) (round_mode mode_NE) (IZR z)) with (rnd (IZR z)) in C.
  rewrite Rlt_bool_true in C by exact H. destruct C as (C1 & C2 & _). split; assumption.
Qed.

Lemma val_mul f g x y : val f x -> val g y -> (Rabs (rnd (x * y)) < bpow radix2 emax)%R -> val (SFmul prec emax f g) (rnd (x * y)).
Proof.
  intros (a & <- & Fa & Ra) (b & <- & Fb & Rb) H. exists (Bmult mode_NE a b). split; [symmetry; apply mul_equiv|].
  pose proof (Bmult_correct prec emax Hprec Hmax mode_NE a b) as C. rewrite Ra, Rb in C.
  change (round radix2 (SpecFloat.fexp prec emax) (round_mode mode_NE) (x * y)) with (rnd (x * y)) in C.
  rewrite Rlt_bool_true in C by exact H. destruct C as (C1 & C2 & _). split; [now rewrite C2, Fa, Fb|exact C1].
Qed.

Lemma val_div f g x y : val f x -> val g y -> y <> 0%R -> (Rabs (rnd (x / y)) < bpow radix2 emax)%R -> val (SFdiv prec emax f g) (rnd (x / y)).
Proof.
  intros (a & <- & Fa & Ra) (b & <- & Fb & Rb) Hy H. exists (Bdiv mode_NE a b). split; [symmetry; apply div_equiv|].
  assert (Hb : B2R b <> 0%R) by (now rewrite Rb).
  pose proof (Bdiv_correct prec emax Hprec Hmax mode_NE a b Hb) as C. rewrite Ra, Rb in C.
  change (round radix2 (SpecFloat.fexp prec emax) (round_mode mode_NE) (x / y)) with (rnd (x / y)) in C.
  rewrite Rlt_bool_true in C by exact H. destruct C as (C1 & C2 & _). split; [now rewrite C2, Fa|exact C1].
Qed.

Lemma val_SF2R f r : val f r -> SF2R radix2 f = r.
Proof. intros (b & <- & _ & <-). apply SF2R_B2SF. Qed.

Lemma val_trunc f r : val f r -> sf_finite f = true /\ sf_trunc f = Ztrunc r.
Proof.
  intros (b & <- & Fb & <-). destruct b as [s|s| |s m e Hb]; try discriminate Fb; cbn [B2SF sf_finite sf_trunc B2R].
  - split; [reflexivity|]. symmetry. apply (Ztrunc_IZR 0).
  - split; [reflexivity|].
    assert (P : Ztrunc (F2R (Float radix2 (Zpos m) e)) = if 0 <=? e then Zpos m * 2 ^ e else Zpos m / 2 ^ (- e)).
    { destruct (0 <=? e) eqn:E.
      - replace (F2R {| Fnum := Zpos m; Fexp := e |}) with (IZR (Zpos m * 2 ^ e)); [apply Ztrunc_IZR|]. unfold F2R. cbn [Fnum Fexp]. rewrite mult_IZR. f_equal. rewrite <- IZR_Zpower by lia. reflexivity.
      - replace (F2R {| Fnum := Zpos m; Fexp := e |}) with (IZR (Zpos m) / IZR (2 ^ (- e)))%R.
        + rewrite Ztrunc_floor; [apply Zfloor_div; apply Z.pow_nonzero; lia|]. apply Rmult_le_pos; [apply IZR_le; lia|]. left. apply Rinv_0_lt_compat. apply IZR_lt. apply Z.pow_pos_nonneg; lia.
        + unfold F2R, Rdiv. cbn [Fnum Fexp]. f_equal. change (2 ^ (- e)) with (radix_val radix2 ^ (- e)). rewrite IZR_Zpower by lia. rewrite <- bpow_opp. f_equal. lia. }
    destruct s; cbn [cond_Zopp SpecFloat.cond_Zopp].
    + change (Z.opp (Zpos m)) with (- Zpos m). rewrite F2R_Zopp, Ztrunc_opp. now rewrite P.
    + symmetry. exact P.
Qed.

Lemma rnd_le x y : (x <= y)%R -> (rnd x <= rnd y)%R.
Proof. apply round_le; auto with typeclass_instances. Qed.
Lemma rnd_0 : rnd 0 = 0%R.
Proof. apply round_0; auto with typeclass_instances. Qed.
Lemma rnd_opp x : rnd (- x) = (- rnd x)%R.
Proof. apply round_NE_opp. Qed.
Lemma rnd_abs x : Rabs (rnd x) = rnd (Rabs x).
Proof.
  unfold Rabs at 2. destruct (Rcase_abs x) as [L|L].
  - rewrite rnd_opp. apply Rabs_left1. rewrite <- rnd_0. apply rnd_le. lra.
  - apply Rabs_right. rewrite <- rnd_0. apply Rle_ge, rnd_le. lra.
Qed.

(** Integers of at most prec bits are exact. *)
Lemma rnd_Z z : SpecFloat.emin prec emax <= 0 -> Z.abs z < 2 ^ prec -> rnd (IZR z) = IZR z.
Proof.
  intros He Hz. apply round_generic; auto with typeclass_instances. apply generic_format_FLT. exists (Float radix2 z 0).
  - unfold F2R. cbn. ring.
  - cbn [Fnum]. exact Hz.
  - cbn [Fexp]. exact He.
Qed.

Lemma rnd_bpow e : SpecFloat.emin prec emax <= e -> rnd (bpow radix2 e) = bpow radix2 e.
Proof. intros H. apply round_generic; auto with typeclass_instances. apply generic_format_FLT_bpow; auto with typeclass_instances. Qed.

Lemma rnd_bound x e : SpecFloat.emin prec emax <= e -> (Rabs x <= bpow radix2 e)%R -> (Rabs (rnd x) <= bpow radix2 e)%R.
Proof. intros He H. rewrite rnd_abs, <- (rnd_bpow e He). now apply rnd_le. Qed.

(** Relative error in the normal range. *)
Lemma rnd_rel x : (bpow radix2 (SpecFloat.emin prec emax + prec - 1) <= Rabs x)%R ->
  exists eps, (Rabs eps <= / 2 * bpow radix2 (- prec + 1))%R /\ rnd x = (x * (1 + eps))%R.
Proof. intros H. apply (relative_error_N_FLT_ex radix2 (SpecFloat.emin prec emax) prec Hprec (fun z => negb (Z.even z)) x H). Qed.
End Format.

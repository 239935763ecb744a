(** * Theorems C53-C55, C81: timestamp conversion and the AAC frame duration.

    These theorems use the real numbers of the standard library and Flocq, hence the standard library's axioms of
    the reals listed by Print Assumptions. *)
From Coq Require Import Reals Lra SpecFloat.
From Flocq Require Import Core BinarySingleNaN.
From Verif Require Import Base FloatModel FloatProofs ConvertProofs.
Open Scope Z_scope.

(* ---------------------------------------------------------------------------------------- *)
(** ** C53 Order *)
Theorem C53_convert_monotone src dst : 1 <= src < 2 ^ 63 -> 1 <= dst < 2 ^ 63 ->
  (forall t1 t2 r1 r2, is_i64 t1 -> is_i64 t2 -> t1 <= t2 -> convert_ts t1 src dst = Some r1 -> convert_ts t2 src dst = Some r2 -> r1 <= r2) /\
  (forall t r, is_i64 t -> 0 <= t -> convert_ts t src dst = Some r -> 0 <= r) /\
  (* the same for the accessors ConvertDts, ConvertPts, GetDuration *)
  (forall t1 t2 r1 r2, is_i64 t1 -> is_i64 t2 -> t1 <= t2 -> convert_field t1 src dst = Some r1 -> convert_field t2 src dst = Some r2 -> r1 <= r2) /\
  (* a composition time offset keeps its sign *)
  (forall pts dts r, is_i64 (pts - dts) -> dts <= pts -> pts_dts_delta pts dts src dst = Some r -> 0 <= r) /\
  (* the result is implementation dependent only when it does not fit an int64: a smaller timestamp of the same sign is fine *)
  (forall t1 t2 r2, is_i64 t1 -> is_i64 t2 -> 0 <= t1 <= t2 -> convert_ts t2 src dst = Some r2 -> exists r1, convert_ts t1 src dst = Some r1).
Proof.
  intros Hs Hd.
  assert (A : forall t, is_i64 t -> Z.abs t <= 2 ^ 64) by (unfold is_i64; lia).
  assert (I : forall t r, is_i64 t -> convert_ts t src dst = Some r -> r = Ztrunc (conv_real t src dst)).
  { intros t r Ht E. rewrite convert_ts_real in E by (auto; lia). destruct (_ && _); congruence. }
  assert (M : forall t1 t2 r1 r2, is_i64 t1 -> is_i64 t2 -> t1 <= t2 -> convert_ts t1 src dst = Some r1 -> convert_ts t2 src dst = Some r2 -> r1 <= r2).
  { intros t1 t2 r1 r2 H1 H2 L E1 E2. rewrite (I _ _ H1 E1), (I _ _ H2 E2). apply Ztrunc_le, conv_real_mono; lia. }
  assert (P : forall t r, is_i64 t -> 0 <= t -> convert_ts t src dst = Some r -> 0 <= r).
  { intros t r Ht L E. rewrite (I _ _ Ht E). replace 0 with (Ztrunc (conv_real 0 src dst)) by (rewrite conv_real_0; apply (Ztrunc_IZR 0)). apply Ztrunc_le, conv_real_mono; lia. }
  split; [exact M|]. split; [exact P|]. split.
  { intros t1 t2 r1 r2 H1 H2 L. unfold convert_field. destruct (src =? dst); [intros E1 E2; congruence|]. now apply M. }
  split.
  { intros pts dts r Hi L. unfold pts_dts_delta. rewrite i64_id by exact Hi. destruct (src =? dst); [intros E; inversion E; lia|]. apply P; [exact Hi|lia]. }
  intros t1 t2 r2 H1 H2 L E. rewrite convert_ts_real in * by (auto; lia).
  destruct ((- 2 ^ 63 <=? Ztrunc (conv_real t2 src dst)) && (Ztrunc (conv_real t2 src dst) <? 2 ^ 63)) eqn:R2; [|discriminate].
  assert (Q0 : 0 <= Ztrunc (conv_real t1 src dst)) by (replace 0 with (Ztrunc (conv_real 0 src dst)) by (rewrite conv_real_0; apply (Ztrunc_IZR 0)); apply Ztrunc_le, conv_real_mono; lia).
  assert (Q1 : Ztrunc (conv_real t1 src dst) <= Ztrunc (conv_real t2 src dst)) by (apply Ztrunc_le, conv_real_mono; lia).
  rewrite in_range by lia. eauto.
Qed.
Print Assumptions C53_convert_monotone.
(** Without a time base (0 ticks per second) there is no result, whatever the timestamp. *)
Theorem C53_no_timebase : forall ts dst, convert_ts ts 0 dst = None.
Proof.
  intros ts dst. unfold convert_ts. change (f64_of_Z 0) with (S754_zero false). unfold f64_div, f64_mul, f2i.
  destruct (f64_of_Z dst) as [s|s| |s m e]; destruct (f64_of_Z ts) as [s'|s'| |s' m' e']; reflexivity.
Qed.
Print Assumptions C53_no_timebase.

Example C53_example : convert_ts 389 48000 1000000 = Some 8104 /\ convert_ts 390 48000 1000000 = Some 8124 /\ convert_ts (-3) 90000 1000 = Some 0 /\ convert_ts (2 ^ 62) 1 90000 = None.
Proof. repeat split; vm_compute; reflexivity. Qed.

(* ---------------------------------------------------------------------------------------- *)
(** ** C54 Accuracy *)
(** The full claim: strictly less than one tick. 390/48000 s is exactly 8125 us, the result is 8124. *)
Theorem C54_convert_accuracy_refuted :
  ~ (forall ts src dst, Z.abs ts < 2 ^ 50 -> 1 <= src < 2 ^ 53 -> 1 <= dst < 2 ^ 53 -> Z.abs (ts * dst) < src * 2 ^ 50 ->
       exists r, convert_ts ts src dst = Some r /\ Z.abs (r * src - ts * dst) < src).
Proof.
  intros H. destruct (H 390 48000 1000000 ltac:(lia) ltac:(lia) ltac:(lia) ltac:(lia)) as (r & E & L). vm_compute in E. inversion E; subst r. lia.
Qed.
Print Assumptions C54_convert_accuracy_refuted.

(** What holds in the same range: less than one and a half ticks; and at most one tick, reached only on exact divisions, while
    ts*dst is below 2^52. *)
Theorem C54_convert_accuracy_partial ts src dst : Z.abs ts <= 2 ^ 53 -> 1 <= src <= 2 ^ 53 -> 1 <= dst <= 2 ^ 53 ->
  (Z.abs (ts * dst) <= src * 2 ^ 62 ->
     exists r, convert_ts ts src dst = Some r /\ Z.abs (r * src - ts * dst) * 2 ^ 51 < src * 2 ^ 51 + Z.abs (ts * dst)) /\
  (Z.abs (ts * dst) <= src * 2 ^ 50 ->
     exists r, convert_ts ts src dst = Some r /\ 2 * Z.abs (r * src - ts * dst) < 3 * src) /\
  (Z.abs (ts * dst) < 2 ^ 52 ->
     exists r, convert_ts ts src dst = Some r /\ Z.abs (r * src - ts * dst) <= src /\
       (Z.abs (r * src - ts * dst) = src -> Z.rem (ts * dst) src = 0)).
Proof.
  intros Ht Hs Hd. split; [now apply convert_error|]. split.
  - intros HN. destruct (convert_error ts src dst Ht Hs Hd ltac:(lia)) as (r & E & B). exists r. split; [exact E|]. nia.
  - intros HN. destruct (convert_near ts src dst Ht Hs Hd HN) as (r & E & C). exists r. split; [exact E|].
    pose proof (Z.quot_rem' (ts * dst) src) as QR. pose proof (Z.rem_bound_abs (ts * dst) src ltac:(lia)) as RB.
    destruct C as [->|(C1 & C2 & ->)].
    + replace (ts * dst ÷ src * src - ts * dst) with (- Z.rem (ts * dst) src) by lia. split; lia.
    + replace ((ts * dst ÷ src - Z.sgn ts) * src - ts * dst) with (- (Z.sgn ts * src)) by lia. destruct (Z.sgn_spec ts) as [[? ->]|[[? ->]|[? ->]]]; split; lia.
Qed.
Print Assumptions C54_convert_accuracy_partial.

Example C54_example : convert_ts 1234567891234 44100 90000 = Some 2519526308640 /\ 1234567891234 * 90000 / 44100 = 2519526308640.
Proof. split; vm_compute; reflexivity. Qed.

(* ---------------------------------------------------------------------------------------- *)
(** ** C55 Exactness *)
Theorem C55_convert_exact_refuted :
  ~ (forall ts src dst, 0 < src -> 0 < dst -> Z.rem (ts * dst) src = 0 -> Z.abs (ts * dst) < 2 ^ 52 -> convert_ts ts src dst = Some (Z.quot (ts * dst) src)).
Proof. intros H. specialize (H 735 44100 15360 ltac:(lia) ltac:(lia) eq_refl ltac:(lia)). vm_compute in H. discriminate. Qed.
Print Assumptions C55_convert_exact_refuted.

(** Exact (truncated) whenever the float ratio dst/src is not rounded down, which [rounds_up] decides; in particular for the
    bases of the library. Integral factors are exact over the whole 53-bit range. *)
Theorem C55_convert_exact_partial :
  (forall ts src dst, 1 <= src <= 2 ^ 53 -> 1 <= dst <= 2 ^ 53 -> Z.abs ts <= 2 ^ 53 -> Z.abs (ts * dst) < 2 ^ 52 -> rounds_up src dst = true ->
     convert_ts ts src dst = Some (Z.quot (ts * dst) src)) /\
  (forall ts src k, Z.abs ts <= 2 ^ 53 -> 1 <= src <= 2 ^ 53 -> 1 <= k -> src * k <= 2 ^ 53 -> Z.abs (ts * k) <= 2 ^ 53 -> convert_ts ts src (src * k) = Some (ts * k)) /\
  (forall ts, Z.abs ts < 2 ^ 52 / 1000 -> convert_ts ts 90000 1000 = Some (Z.quot ts 90)) /\
  (forall ts, Z.abs ts <= 2 ^ 53 / 90 -> convert_ts ts 1000 90000 = Some (ts * 90)) /\
  (forall ts, Z.abs ts < 2 ^ 52 / 1000 -> forall src, In src [8000; 16000; 90000] -> convert_ts ts src 1000 = Some (Z.quot (ts * 1000) src)) /\
  (forall v src dst, src = dst -> convert_field v src dst = Some v).
Proof.
  split; [intros; now apply convert_exact|]. split; [intros; now apply convert_multiple|]. split.
  { intros ts H. rewrite convert_exact; try lia; [|reflexivity]. f_equal. change 90000 with (90 * 1000). apply Z.quot_mul_cancel_r; lia. }
  split. { intros ts H. apply (convert_multiple ts 1000 90); lia. }
  split. { intros ts H src [<-|[<-|[<-|[]]]]; apply convert_exact; try lia; reflexivity. }
  intros v src dst ->. unfold convert_field. now rewrite Z.eqb_refl.
Qed.
Print Assumptions C55_convert_exact_partial.

(** Which of the usual bases convert exactly to milliseconds. *)
Example C55_example :
  map (fun s => rounds_up s 1000) [8000; 16000; 22050; 24000; 44100; 48000; 90000] = [true; true; false; false; false; false; true] /\
  convert_ts 8640000 90000 1000 = Some 96000 /\ convert_ts 96000 1000 90000 = Some 8640000.
Proof. repeat split; vm_compute; reflexivity. Qed.

(* ---------------------------------------------------------------------------------------- *)
(** ** C81 The AAC frame duration *)
(** The full claim: [SF2R radix2 (aac_frame_duration rate)] is 1024/rate up to float32 rounding. The function returns rate/1024. *)
Theorem C81_aac_duration_refuted :
  ~ (forall rate, 0 < rate < 2 ^ 24 -> (Rabs (SF2R radix2 (aac_frame_duration rate) - 1024 / IZR rate) <= / 2)%R).
Proof.
  intros H. specialize (H 44100 ltac:(lia)). destruct (aac_duration_real 44100 ltac:(lia)) as [_ E]. rewrite E in H. apply Rabs_le_inv in H. lra.
Qed.
Print Assumptions C81_aac_duration_refuted.

Theorem C81_aac_duration_partial rate : 0 < rate < 2 ^ 24 ->
  sf_finite (aac_frame_duration rate) = true /\ SF2R radix2 (aac_frame_duration rate) = (IZR rate / 1024)%R /\
  (SF2R radix2 (aac_frame_duration rate) = (1024 / IZR rate)%R <-> rate = 1024).
Proof.
  intros H. destruct (aac_duration_real rate ltac:(lia)) as [F E]. split; [exact F|]. split; [exact E|]. rewrite E. pose proof (IZR_pos rate ltac:(lia)) as Hr.
  split; [|intros ->; lra]. intros Q. apply eq_IZR. assert (S : (IZR rate * IZR rate = 1024 * 1024)%R).
  { apply (Rmult_eq_compat_r (1024 * IZR rate)) in Q. replace (IZR rate / 1024 * (1024 * IZR rate))%R with (IZR rate * IZR rate)%R in Q by field. replace (1024 / IZR rate * (1024 * IZR rate))%R with (1024 * 1024)%R in Q by (field; lra). exact Q. }
  nra.
Qed.
Print Assumptions C81_aac_duration_partial.

Example C81_example : aac_frame_duration 44100 = S754_finite false 11289600 (-18) /\ 11289600 * 1024 = 44100 * 2 ^ 18.
Proof. split; vm_compute; reflexivity. Qed.

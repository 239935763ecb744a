(** * PropertiesTicks: C154, converted durations, and times converted back. *)
From Verif Require Import Base FloatModel ConvertProofs PropertiesConvert.
From Coq Require Import List.
Import ListNotations.
Local Open Scope list_scope.
Local Open Scope Z_scope.

Lemma abs_grow x y : 1 <= y -> Z.abs x <= Z.abs (x * y).
Proof. intros H. rewrite Z.abs_mul, (Z.abs_eq y) by lia. nia. Qed.
Lemma near_back a b c s d : 1 <= d -> Z.abs (b - a) <= s -> Z.abs (c * d - b) <= d -> forall t, a = t * d -> Z.abs (c - t) * d <= d + s.
Proof. intros Hd H1 H2 t ->. replace (Z.abs (c - t) * d) with (Z.abs (c * d - t * d)) by (rewrite <- Z.mul_sub_distr_r, Z.abs_mul, (Z.abs_eq d); lia). lia. Qed.

(** ** C154 *)
(** There and back: at most 1 + src/dst ticks off. *)
Theorem C154_back : forall ts src dst, Z.abs ts <= 2 ^ 53 -> 1 <= src <= 2 ^ 53 -> 1 <= dst <= 2 ^ 53 -> Z.abs (ts * dst) < 2 ^ 51 -> src < 2 ^ 51 ->
  exists r b, convert_ts ts src dst = Some r /\ convert_ts r dst src = Some b /\ Z.abs (b - ts) * dst <= dst + src.
Proof.
  intros ts src dst Ht Hs Hd Hp Hs'. destruct (C54_convert_accuracy_partial ts src dst Ht Hs Hd) as (_ & _ & H). destruct (H ltac:(lia)) as (r & E & A & _).
  assert (Hr : Z.abs (r * src) < 2 ^ 52) by lia. pose proof (abs_grow r src (proj1 Hs)) as Ha.
  destruct (C54_convert_accuracy_partial r dst src ltac:(lia) Hd Hs) as (_ & _ & H'). destruct (H' Hr) as (b & E' & A' & _). exists r, b. split; [exact E|]. split; [exact E'|].
  exact (near_back (ts * dst) (r * src) b src dst (proj1 Hd) A A' ts eq_refl).
Qed.
Print Assumptions C154_back.
(** Exactly back from a time base that is a multiple, when the quotient is not rounded down. *)
Theorem C154_back_exact : forall ts src k, Z.abs ts <= 2 ^ 53 -> 1 <= src <= 2 ^ 53 -> 1 <= k -> src * k <= 2 ^ 53 -> Z.abs (ts * k * src) < 2 ^ 52 -> rounds_up (src * k) src = true ->
  convert_ts ts src (src * k) = Some (ts * k) /\ convert_ts (ts * k) (src * k) src = Some ts.
Proof.
  intros ts src k Ht Hs Hk Hm Hp R. pose proof (abs_grow (ts * k) src (proj1 Hs)) as Ha. destruct C55_convert_exact_partial as (X & M & _). split; [apply M; lia|].
  rewrite X by (auto; lia). f_equal. replace (ts * k * src) with (ts * (src * k)) by lia. apply Z.quot_mul. lia.
Qed.
Print Assumptions C154_back_exact.
Theorem C154_back_90khz : forall ts, Z.abs ts < 2 ^ 52 / 90000 -> convert_ts ts 1000 90000 = Some (ts * 90) /\ convert_ts (ts * 90) 90000 1000 = Some ts.
Proof. intros ts H. apply (C154_back_exact ts 1000 90); try lia. vm_compute. reflexivity. Qed.
Print Assumptions C154_back_90khz.

(** The converted durations of consecutive packets and the converted distance. *)
Definition total (l : list Z) : Z := fold_right Z.add 0 l.
Lemma total_nonneg ds : Forall (fun d => 0 <= d) ds -> 0 <= total ds.
Proof. intros F. induction F as [|d l Hd F IH]; cbn [total fold_right] in *; [lia|]. fold (total l) in *. lia. Qed.
Lemma each_near src dst ds : 1 <= src <= 2 ^ 53 -> 1 <= dst <= 2 ^ 53 -> Forall (fun d => 0 <= d) ds -> total ds <= 2 ^ 53 -> total ds * dst < 2 ^ 52 ->
  exists rs, map (fun d => convert_ts d src dst) ds = map Some rs /\ Z.abs (total rs * src - total ds * dst) <= zlen ds * src.
Proof.
  intros Hs Hd F. induction F as [|d ds Hd' F IH]; intros L P; [exists []; split; [reflexivity|]; cbn; lia|]. cbn [total fold_right] in L, P. fold (total ds) in L, P. pose proof (total_nonneg ds F) as N.
  assert (P1 : 0 <= d * dst < 2 ^ 52) by nia. assert (P2 : total ds * dst < 2 ^ 52) by nia. destruct (IH ltac:(lia) P2) as (rs & M & A).
  destruct (C54_convert_accuracy_partial d src dst ltac:(lia) Hs Hd) as (_ & _ & H). destruct (H ltac:(lia)) as (r & E & B & _). exists (r :: rs). cbn [map]. rewrite E, M. split; [reflexivity|]. rewrite zlen_cons. cbn [total fold_right]. fold (total rs) (total ds).
  clear -A B. replace ((r + total rs) * src - (d + total ds) * dst) with ((r * src - d * dst) + (total rs * src - total ds * dst)) by ring. lia.
Qed.
Lemma each_exact src dst ds : 1 <= src <= 2 ^ 53 -> 1 <= dst <= 2 ^ 53 -> Forall (fun d => 0 <= d) ds -> total ds <= 2 ^ 53 -> total ds * dst < 2 ^ 52 -> rounds_up src dst = true ->
  map (fun d => convert_ts d src dst) ds = map Some (map (fun d => (d * dst) / src) ds) /\
  total (map (fun d => (d * dst) / src) ds) * src <= total ds * dst <= total (map (fun d => (d * dst) / src) ds) * src + zlen ds * (src - 1).
Proof.
  intros Hs Hd F. induction F as [|d ds Hd' F IH]; intros L P R; [split; [reflexivity|]; cbn; lia|]. cbn [total fold_right] in L, P. fold (total ds) in L, P. pose proof (total_nonneg ds F) as N.
  assert (P1 : 0 <= d * dst < 2 ^ 52) by nia. assert (P2 : total ds * dst < 2 ^ 52) by nia. destruct (IH ltac:(lia) P2 R) as (M & A1 & A2). cbn [map].
  rewrite (proj1 C55_convert_exact_partial d src dst Hs Hd ltac:(lia) ltac:(lia) R), M. rewrite Z.quot_div_nonneg by lia. split; [reflexivity|]. rewrite zlen_cons. cbn [total fold_right]. fold (total (map (fun d => d * dst / src) ds)) (total ds).
  pose proof (Z.div_mod (d * dst) src ltac:(lia)) as QR. pose proof (Z.mod_pos_bound (d * dst) src ltac:(lia)) as RB. clear -A1 A2 QR RB. rewrite !Z.mul_add_distr_r. lia.
Qed.
Theorem C154_durations : forall src dst ds, 1 <= src <= 2 ^ 53 -> 1 <= dst <= 2 ^ 53 -> Forall (fun d => 0 <= d) ds -> total ds <= 2 ^ 53 -> total ds * dst < 2 ^ 52 ->
  exists rs r, map (fun d => convert_ts d src dst) ds = map Some rs /\ convert_ts (total ds) src dst = Some r /\ Z.abs (r - total rs) <= zlen ds + 1 /\
  (rounds_up src dst = true -> ds <> [] -> total rs <= r < total rs + zlen ds).
Proof.
  intros src dst ds Hs Hd F L P. pose proof (total_nonneg ds F) as N. assert (P0 : 0 <= total ds * dst) by nia. destruct (each_near src dst ds Hs Hd F L P) as (rs & M & A). destruct (C54_convert_accuracy_partial (total ds) src dst ltac:(lia) Hs Hd) as (_ & _ & H). destruct (H ltac:(lia)) as (r & E & B & _).
  exists rs, r. split; [exact M|]. split; [exact E|]. split.
  - clear -A B Hs. assert (Z.abs ((r - total rs) * src) <= (zlen ds + 1) * src) by (rewrite Z.mul_sub_distr_r, Z.mul_add_distr_r; lia). rewrite Z.abs_mul, (Z.abs_eq src) in H by lia. nia.
  - intros R Ne. destruct (each_exact src dst ds Hs Hd F L P R) as (M' & A1 & A2). rewrite M in M'. assert (rs = map (fun d => d * dst / src) ds) by (clear -M'; revert M'; generalize (map (fun d => d * dst / src) ds) as l; induction rs as [|x rs IH]; intros [|y l] E; try discriminate E; [reflexivity|]; cbn in E; injection E as -> E; f_equal; now apply IH). subst rs.
    rewrite (proj1 C55_convert_exact_partial (total ds) src dst Hs Hd ltac:(lia) ltac:(lia) R) in E. rewrite Z.quot_div_nonneg in E by lia. assert (r = total ds * dst / src) by congruence. subst r. set (t := total (map (fun d => d * dst / src) ds)) in *.
    assert (1 <= zlen ds) by (destruct ds; [congruence|rewrite zlen_cons; pose proof (zlen_nonneg ds); lia]). split; [apply Z.div_le_lower_bound; lia|]. apply Z.div_lt_upper_bound; [lia|]. clear -A2 H0 Hs. rewrite Z.mul_add_distr_l. nia.
Qed.
Print Assumptions C154_durations.
(** Three AAC frames at 48 kHz in milliseconds: 21 + 21 + 21 against 64. 1 tick of 1/1000 s in a base 49 times as fine and back: 0. *)
Example C154_example : convert_ts 1024 48000 1000 = Some 21 /\ convert_ts (total [1024; 1024; 1024]) 48000 1000 = Some 64 /\
  convert_ts 1 1000 49000 = Some 49 /\ convert_ts 49 49000 1000 = Some 0 /\ rounds_up 49000 1000 = false.
Proof. repeat split; vm_compute; reflexivity. Qed.

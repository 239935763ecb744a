(** * KeyProofs: key frame detection on arbitrary bytes. *)
From Verif Require Import Base BufioModel RingProofs NaluModel NaluSpec NaluProofs SplitProofs SplitExact AvccProofs AnnexbProofs StretchSpec StretchProofs JoinProofs.
From Coq Require Import List.
Import ListNotations.
Local Open Scope list_scope.

(** The byte after a start code at [k]. *)
Definition header_at (p : list Z) (k c : Z) : Prop := sc_at p k /\ idx p (k + 3) = Some c.
(** The first header from [i] on that is not to be skipped is a hit. *)
Definition key_at (hit skip : Z -> bool) (p : list Z) (i : Z) : Prop :=
  exists k c, i <= k /\ header_at p k c /\ hit c = true /\ forall j d, i <= j < k -> header_at p j d -> skip d = true.
Definition avc_hit (c : Z) : bool := c mod 32 =? 5.
Definition avc_skip (c : Z) : bool := let t := c mod 32 in (t =? 6) || (t =? 9) || (t =? 8) || (t =? 7).
Definition hevc_hit (c : Z) : bool := let t := (c / 2) mod 64 in (16 <=? t) && (t <=? 23).
Definition hevc_skip (c : Z) : bool := let t := (c / 2) mod 64 in (t =? 33) || (t =? 34) || (t =? 32) || (t =? 39) || (t =? 40) || (t =? 35).

Lemma sc_at_skipn p i j : 0 <= i <= zlen p -> sc_at p (i + j) /\ 0 <= j <-> sc_at (skipn (Z.to_nat i) p) j.
Proof.
  intros Hi. assert (L : zlen (firstn (Z.to_nat i) p) = i) by (unfold zlen in *; rewrite firstn_length; lia). pose proof (sc_at_shift (firstn (Z.to_nat i) p) (skipn (Z.to_nat i) p) j) as H. rewrite firstn_skipn, L in H. exact H.
Qed.
Lemma sc_apart p j k : sc_at p j -> sc_at p k -> j < k -> j + 3 <= k.
Proof.
  intros [(A0 & A1 & A2) _] [(B0 & B1 & B2) _] H. destruct (Z.eq_dec k (j + 1)) as [->|]; [replace (j + 1 + 1) with (j + 2) in B1 by lia; congruence|]. destruct (Z.eq_dec k (j + 2)) as [->|]; [congruence|]. lia.
Qed.
Lemma key_none hit skip p i : 0 <= i <= zlen p -> (forall k, ~ sc_at (skipn (Z.to_nat i) p) k) -> ~ key_at hit skip p i.
Proof. intros Hi N (k & c & Hk & [S _] & _). apply (N (k - i)). apply (sc_at_skipn p i (k - i) Hi). replace (i + (k - i)) with k by lia. split; [exact S|lia]. Qed.
Lemma key_step hit skip p i k c : 0 <= i <= zlen p -> first_sc (skipn (Z.to_nat i) p) k -> idx p (i + (k + 3)) = Some c -> (hit c = true -> skip c = false) ->
  (key_at hit skip p i <-> if skip c then key_at hit skip p (i + (k + 3)) else hit c = true).
Proof.
  intros Hi [F1 F2] E X. apply (sc_at_skipn p i k Hi) in F1 as [S Hk]. assert (Hd : header_at p (i + k) c) by (split; [exact S|now replace (i + k + 3) with (i + (k + 3)) by lia]).
  assert (Fst : forall j, i <= j -> sc_at p j -> i + k <= j). { intros j Hj Sj. destruct (Z.lt_ge_cases j (i + k)) as [L|L]; [|exact L]. exfalso. apply (F2 (j - i)); [lia|]. apply (sc_at_skipn p i (j - i) Hi). replace (i + (j - i)) with j by lia. split; [exact Sj|lia]. }
  assert (Uq : forall d, header_at p (i + k) d -> d = c) by (intros d [_ Q]; replace (i + k + 3) with (i + (k + 3)) in Q by lia; congruence). split.
  - intros (k' & c' & Hk' & [S' E'] & H' & A). pose proof (Fst k' Hk' S') as L. destruct (Z.eq_dec k' (i + k)) as [->|Ne].
    + assert (c' = c) by (apply Uq; split; assumption). subst c'. now rewrite (X H').
    + rewrite (A (i + k) c ltac:(lia) Hd). exists k', c'. pose proof (sc_apart _ _ _ S S' ltac:(lia)). split; [lia|]. split; [split; assumption|]. split; [exact H'|]. intros j d Hj. apply A. lia.
  - destruct (skip c) eqn:Sk.
    + intros (k' & c' & Hk' & Hd' & H' & A). exists k', c'. split; [lia|]. split; [exact Hd'|]. split; [exact H'|]. intros j d Hj Hdj. destruct (Z.lt_ge_cases j (i + (k + 3))) as [L|L]; [|apply (A j d); [lia|exact Hdj]].
      pose proof (Fst j ltac:(lia) (proj1 Hdj)). destruct (Z.eq_dec j (i + k)) as [->|Ne]; [now rewrite (Uq d Hdj)|]. pose proof (sc_apart _ _ _ S (proj1 Hdj) ltac:(lia)). lia.
    + intros H. exists (i + k), c. split; [lia|]. split; [exact Hd|]. split; [exact H|]. intros j d Hj [Sj _]. pose proof (Fst j ltac:(lia) Sj). lia.
Qed.
Lemma land_mod c n : 0 <= n -> Z.land c (Z.ones n) = c mod 2 ^ n.
Proof. intros. now apply Z.land_ones. Qed.
Lemma avc_key_exact p : bytes_ok p -> forall f i, 0 <= i <= zlen p -> (Z.to_nat (zlen p - i) < f)%nat ->
  exists b, avc_is_key_frame_loop f p i = Ok b /\ (b = true <-> key_at avc_hit avc_skip p i).
Proof.
  intros B. induction f as [|f IH]; intros i Hi Hf; [lia|]. cbn [avc_is_key_frame_loop].
  rewrite slice_from_some by lia. cbn [of_opt bind]. set (q := skipn (Z.to_nat i) p).
  assert (Eq : slice_from p i = Some q) by (apply slice_from_some; lia). pose proof (slice_from_ok _ _ _ B Eq) as Bq.
  destruct (fsc_spec q Bq) as [(k & F & E)|[N E]]; rewrite E; cbn [bind].
  - pose proof F as [[(P0 & _) L] _]. apply idx_inv in P0. replace (k + 3 <? 0) with false by lia. cbv zeta. destruct (slice_from_idx p i (k + 3) q Eq) as (Ei & Lq & _); [lia|].
    destruct (idx_some p (i + (k + 3))) as [c Ec]; [lia|]. rewrite Ec. cbn [of_opt bind]. change 31 with (Z.ones 5). rewrite land_mod by lia. change (2 ^ 5) with 32.
    assert (X : avc_hit c = true -> avc_skip c = false) by (unfold avc_hit, avc_skip; cbv zeta; lia). pose proof (key_step _ _ p i k c Hi F Ec X) as K.
    change ((c mod 32 =? H264NalSEI) || (c mod 32 =? H264NalAUD) || (c mod 32 =? H264NalPPS) || (c mod 32 =? H264NalSPS)) with (avc_skip c). change (c mod 32 =? H264NalIDRSlice) with (avc_hit c).
    destruct (avc_skip c); [destruct (IH (i + (k + 3)) ltac:(lia) ltac:(lia)) as (b & Eb & Hb); exists b; split; [exact Eb|]; now rewrite Hb, K|]. exists (avc_hit c). split; [reflexivity|]. now rewrite K.
  - replace (-1 <? 0) with true by reflexivity. exists false. split; [reflexivity|]. split; [discriminate|]. intros K. destruct (key_none _ _ p i Hi N K).
Qed.
Lemma hevc_type_eq c : hevc_type c = (c / 2) mod 64.
Proof. unfold hevc_type. rewrite Z.shiftr_div_pow2 by lia. change 63 with (Z.ones 6). now rewrite land_mod by lia. Qed.
Lemma hevc_key_exact p : bytes_ok p -> forall f i, 0 <= i <= zlen p -> (Z.to_nat (zlen p - i) < f)%nat ->
  exists b, hevc_is_key_frame_loop f p i = Ok b /\ (b = true <-> key_at hevc_hit hevc_skip p i).
Proof.
  intros B. induction f as [|f IH]; intros i Hi Hf; [lia|]. cbn [hevc_is_key_frame_loop].
  rewrite slice_from_some by lia. cbn [of_opt bind]. set (q := skipn (Z.to_nat i) p).
  assert (Eq : slice_from p i = Some q) by (apply slice_from_some; lia). pose proof (slice_from_ok _ _ _ B Eq) as Bq.
  destruct (fsc_spec q Bq) as [(k & F & E)|[N E]]; rewrite E; cbn [bind].
  - pose proof F as [[(P0 & _) L] _]. apply idx_inv in P0. replace (k + 3 <? 0) with false by lia. cbv zeta. destruct (slice_from_idx p i (k + 3) q Eq) as (Ei & Lq & _); [lia|].
    destruct (idx_some p (i + (k + 3))) as [c Ec]; [lia|]. rewrite Ec. cbn [of_opt bind]. rewrite hevc_type_eq.
    assert (X : hevc_hit c = true -> hevc_skip c = false) by (unfold hevc_hit, hevc_skip; cbv zeta; lia). pose proof (key_step _ _ p i k c Hi F Ec X) as K. rewrite Z.geb_leb.
    change ((16 <=? (c / 2) mod 64) && ((c / 2) mod 64 <=? 23)) with (hevc_hit c).
    change (((c / 2) mod 64 =? HevcNalSPS) || ((c / 2) mod 64 =? HevcNalPPS) || ((c / 2) mod 64 =? HevcNalVPS) || ((c / 2) mod 64 =? HevcNalSeiPrefix) || ((c / 2) mod 64 =? HevcNalSeiSuffix) || ((c / 2) mod 64 =? HevcNalAUD)) with (hevc_skip c).
    destruct (hevc_hit c); [rewrite (X eq_refl) in K; exists true; split; [reflexivity|]; now rewrite K|].
    destruct (hevc_skip c); [destruct (IH (i + (k + 3)) ltac:(lia) ltac:(lia)) as (b & Eb & Hb); exists b; split; [exact Eb|]; now rewrite Hb, K|]. exists false. split; [reflexivity|]. now rewrite K.
  - replace (-1 <? 0) with true by reflexivity. exists false. split; [reflexivity|]. split; [discriminate|]. intros K. destruct (key_none _ _ p i Hi N K).
Qed.

(** ** Joined streams *)
Lemma header_join a four c0 m j d : closed_end a -> header_at (a ++ sc four ++ c0 :: m) j d <-> header_at a j d \/ header_at (sc four ++ c0 :: m) (j - zlen a) d.
Proof.
  intros Ca. set (b := sc four ++ c0 :: m). split.
  - intros [S E]. destruct (Z.lt_ge_cases j (zlen a + sc_len four - 3)) as [L|L].
    + left. pose proof (join_before a four c0 m j Ca S L) as Sa. split; [exact Sa|]. pose proof (proj2 Sa). pose proof (idx_inv _ _ _ (proj1 (proj1 Sa))). rewrite idx_app_l in E by lia. exact E.
    + right. assert (3 <= sc_len four) by (destruct four; cbn; lia). split; [apply (sc_at_shift a b (j - zlen a)); replace (zlen a + (j - zlen a)) with j by lia; split; [exact S|lia]|]. rewrite idx_app_r in E by lia. now replace (j - zlen a + 3) with (j + 3 - zlen a) by lia.
  - intros [[S E]|[S E]].
    + pose proof (proj2 S). pose proof (idx_inv _ _ _ (proj1 (proj1 S))). pose proof (zlen_nonneg b). split; [|rewrite idx_app_l by lia; exact E]. destruct S as [(P0 & P1 & P2) _]. split; [repeat split; rewrite idx_app_l by lia; assumption|rewrite zlen_app; lia].
    + pose proof (idx_inv _ _ _ (proj1 (proj1 S))). split; [apply (sc_at_shift a b) in S; replace (zlen a + (j - zlen a)) with j in S by lia; tauto|]. rewrite idx_app_r by lia. now replace (j + 3 - zlen a) with (j - zlen a + 3) by lia.
Qed.
Lemma key_join hit skip a four c0 m : closed_end a -> let b := sc four ++ c0 :: m in
  (key_at hit skip (a ++ b) 0 <-> key_at hit skip a 0 \/ ((forall k c, header_at a k c -> skip c = true) /\ key_at hit skip b 0)).
Proof.
  intros Ca b.
  assert (R : forall p k c, header_at p k c -> 0 <= k /\ k + 3 < zlen p) by (intros p k c [[(P & _) L] _]; apply idx_inv in P; lia). split.
  - intros (k & c & Hk & Hd & H & A). apply header_join in Hd; [|exact Ca]. destruct Hd as [Hd|Hd].
    + left. exists k, c. split; [exact Hk|]. split; [exact Hd|]. split; [exact H|]. intros j d Hj Hdj. apply (A j d Hj). apply header_join; auto.
    + right. pose proof (R _ _ _ Hd). split.
      * intros j d Hdj. pose proof (R _ _ _ Hdj). apply (A j d); [lia|]. apply header_join; auto.
      * exists (k - zlen a), c. split; [lia|]. split; [exact Hd|]. split; [exact H|]. intros j d Hj Hdj. apply (A (zlen a + j) d); [pose proof (zlen_nonneg a); lia|]. apply header_join; [exact Ca|]. right. now replace (zlen a + j - zlen a) with j by lia.
  - intros [(k & c & Hk & Hd & H & A)|[Al (k & c & Hk & Hd & H & A)]].
    + pose proof (R _ _ _ Hd). exists k, c. split; [exact Hk|]. split; [apply header_join; auto|]. split; [exact H|]. intros j d Hj Hdj. apply header_join in Hdj; [|exact Ca]. destruct Hdj as [Hdj|Hdj]; [exact (A j d Hj Hdj)|]. pose proof (R _ _ _ Hdj). lia.
    + exists (zlen a + k), c. pose proof (zlen_nonneg a). split; [lia|]. split; [apply header_join; [exact Ca|]; right; now replace (zlen a + k - zlen a) with k by lia|]. split; [exact H|]. intros j d Hj Hdj. apply header_join in Hdj; [|exact Ca]. destruct Hdj as [Hdj|Hdj]; [exact (Al j d Hdj)|]. pose proof (R _ _ _ Hdj). apply (A (j - zlen a) d); [lia|exact Hdj].
Qed.

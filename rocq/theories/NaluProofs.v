(** * NaluProofs: start code search, splitting, key frames, parameter set extraction. *)
From Verif Require Import Base BufioModel RingProofs NaluModel NaluSpec.

(* ---------------------------------------------------------------------------------------- *)
(** ** FindStartCode *)

Lemma bytes_ok_idx p i b : bytes_ok p -> idx p i = Some b -> byte_ok b.
Proof.
  intros F E. unfold idx in E. destruct (i <? 0); [discriminate|]. apply nth_error_In in E. unfold bytes_ok in F. rewrite Forall_forall in F. auto.
Qed.

Lemma lor_zero b0 b2 : b0 = 0 \/ b0 = 1 -> byte_ok b2 -> (Z.lor b2 (u8 (b0 - 1)) =? 0) = (b2 =? 0) && (b0 =? 1).
Proof.
  intros [->| ->] B.
  - replace (u8 (0 - 1)) with 255 by reflexivity. rewrite andb_comm. cbn [andb Z.eqb].
    destruct (Z.lor b2 255 =? 0) eqn:E; [|reflexivity]. apply Z.eqb_eq, Z.lor_eq_0_iff in E. lia.
  - replace (u8 (1 - 1)) with 0 by reflexivity. rewrite Z.lor_0_r. now rewrite Z.eqb_refl, andb_true_r.
Qed.

Lemma fsc_loop_spec p : bytes_ok p -> forall f i, (Z.to_nat (zlen p - i) < f)%nat -> 2 <= i ->
  (forall k, k < i - 2 -> ~ pat p k) ->
  exists j, find_start_code_loop f p i = Ok j /\
    ((zlen p <= j /\ forall k, sc_at p k -> False) \/ (j < zlen p /\ first_sc p (j - 3))).
Proof.
  intros B. induction f as [|f IH]; intros i Hf Hi Hn; [lia|]. cbn [find_start_code_loop].
  destruct (i <? zlen p) eqn:L.
  - destruct (idx_some p i) as [b0 E0]; [lia|]. rewrite E0. cbn [of_opt bind].
    destruct (idx_some p (i - 1)) as [b1 E1]; [lia|]. destruct (idx_some p (i - 2)) as [b2 E2]; [lia|].
    pose proof (bytes_ok_idx _ _ _ B E0) as K0. pose proof (bytes_ok_idx _ _ _ B E2) as K2. unfold byte_ok in K0.
    destruct (b0 >? 1) eqn:C0.
    + apply IH; [lia|lia|]. intros k Hk (P0 & P1 & P2).
      destruct (Z.lt_ge_cases k (i - 2)) as [Lt|Ge]; [apply (Hn k Lt); now repeat split|].
      assert (k = i - 2 \/ k = i - 1 \/ k = i) as [->|[->| ->]] by lia.
      * replace (i - 2 + 2) with i in P2 by lia. rewrite E0 in P2. injection P2 as ->. lia.
      * replace (i - 1 + 1) with i in P1 by lia. rewrite E0 in P1. injection P1 as ->. lia.
      * rewrite E0 in P0. injection P0 as ->. lia.
    + rewrite E1. cbn [of_opt bind]. destruct (b1 =? 0) eqn:C1; cbn [negb].
      * rewrite E2. cbn [of_opt bind]. rewrite lor_zero by (auto; lia). destruct ((b2 =? 0) && (b0 =? 1)) eqn:C2; cbn [negb].
        -- exists (i + 1). split; [reflexivity|]. assert (b0 = 1 /\ b1 = 0 /\ b2 = 0) as (-> & -> & ->) by lia.
           assert (P : pat p (i - 2)).
           { split; [exact E2|]. split; [replace (i - 2 + 1) with (i - 1) by lia; exact E1|replace (i - 2 + 2) with i by lia; exact E0]. }
           destruct (Z.lt_ge_cases (i + 1) (zlen p)) as [Lt|Ge].
           ++ right. split; [exact Lt|]. replace (i + 1 - 3) with (i - 2) by lia. split; [split; [exact P|lia]|]. intros j Hj [Q _]. exact (Hn j Hj Q).
           ++ left. split; [exact Ge|]. intros k [Q Hk]. apply (Hn k); [lia|exact Q].
        -- apply IH; [lia|lia|]. intros k Hk (P0 & P1 & P2).
           destruct (Z.lt_ge_cases k (i - 2)) as [Lt|Ge]; [apply (Hn k Lt); now repeat split|].
           assert (k = i - 2) as -> by lia. rewrite E2 in P0. replace (i - 2 + 2) with i in P2 by lia. rewrite E0 in P2.
           injection P0 as ->. injection P2 as ->. discriminate.
      * apply IH; [lia|lia|]. intros k Hk (P0 & P1 & P2).
        destruct (Z.lt_ge_cases k (i - 2)) as [Lt|Ge]; [apply (Hn k Lt); now repeat split|].
        assert (k = i - 2 \/ k = i - 1) as [->| ->] by lia.
        -- replace (i - 2 + 1) with (i - 1) in P1 by lia. rewrite E1 in P1. injection P1 as ->. discriminate.
        -- rewrite E1 in P0. injection P0 as ->. discriminate.
  - exists i. split; [reflexivity|]. left. split; [lia|]. intros k [Q Hk]. apply (Hn k); [lia|exact Q].
Qed.

Lemma fsc_spec p : bytes_ok p ->
  (exists k, first_sc p k /\ find_start_code p = Ok (k + 3, sc_len_at p k)) \/
  ((forall k, ~ sc_at p k) /\ find_start_code p = Ok (-1, -1)).
Proof.
  intros B. destruct (fsc_loop_spec p B (S (length p)) 2) as (j & E & H); [unfold zlen; lia|lia| |].
  { intros k Hk (P & _). apply idx_inv in P. lia. }
  unfold find_start_code. rewrite E. cbn [bind]. destruct H as [[L N]|[L F]].
  - right. split; [exact N|]. replace (j <? zlen p) with false by lia. reflexivity.
  - left. exists (j - 3). split; [exact F|]. replace (j <? zlen p) with true by lia. pose proof F as (((P0 & _) & _) & _). apply idx_inv in P0.
    replace (j - 3 + 3) with j by lia. unfold sc_len_at. replace (j - 3 - 1) with (j - 4) by lia. destruct (j >? 3) eqn:G.
    + destruct (idx_some p (j - 4)) as [b Eb]; [lia|]. rewrite Eb. cbn [of_opt bind]. destruct b; reflexivity.
    + rewrite idx_none by lia. reflexivity.
Qed.

Lemma first_sc_unique p k j : first_sc p k -> first_sc p j -> k = j.
Proof. intros [A B] [C D]. destruct (Z.lt_trichotomy k j) as [L|[E|G]]; [exfalso; exact (D _ L A)|exact E|exfalso; exact (B _ G C)]. Qed.

Lemma fsc_hit p k : bytes_ok p -> first_sc p k -> find_start_code p = Ok (k + 3, sc_len_at p k).
Proof.
  intros B F. destruct (fsc_spec p B) as [(j & G & E)|[N _]]; [now rewrite (first_sc_unique _ _ _ F G)|]. destruct (N k), F. auto.
Qed.
Lemma fsc_miss p : bytes_ok p -> (forall k, ~ sc_at p k) -> find_start_code p = Ok (-1, -1).
Proof. intros B N. destruct (fsc_spec p B) as [(j & [G _] & _)|[_ E]]; [destruct (N j G)|exact E]. Qed.

(** What is true of every result, for arbitrary data. *)
Lemma fsc_total p : bytes_ok p -> find_start_code p = Ok (-1, -1) \/
  exists k n, find_start_code p = Ok (k + 3, n) /\ 0 <= k /\ k + 3 < zlen p /\ (n = 3 \/ n = 4 /\ 1 <= k).
Proof.
  intros B. destruct (fsc_spec p B) as [(k & [[P L] _] & E)|[_ E]]; [right|left; exact E]. exists k, (sc_len_at p k). split; [exact E|].
  destruct P as (P & _). apply idx_inv in P. split; [lia|]. split; [exact L|]. unfold sc_len_at.
  destruct (idx p (k - 1)) as [b|] eqn:X; [|auto]. apply idx_inv in X. destruct b; auto. right. lia.
Qed.

(* ---------------------------------------------------------------------------------------- *)
(** ** Streams of well-formed units *)

(** what may stand before a start code without hiding or lengthening it *)
Definition clean (n : list Z) : Prop := bytes_ok n /\ no_pat n /\ last n 1 <> 0.

Lemma nalu_clean n : nalu_ok n -> clean n.
Proof. intros (A & _ & B & C). split; auto. Qed.

Lemma clean_nil : clean [].
Proof. split; [constructor|]. split; [|cbn; lia]. intros k (P & _). apply idx_inv in P. change (zlen []) with 0 in P. lia. Qed.

Lemma no_pat_cons x n : x <> 0 -> no_pat n -> no_pat (x :: n).
Proof.
  intros Hx N k (P0 & P1 & P2). pose proof (idx_inv _ _ _ P0) as R. destruct (Z.eq_dec k 0) as [->|Hk].
  - rewrite idx_cons_0 in P0. congruence.
  - apply (N (k - 1)). repeat split.
    + rewrite <- (idx_cons_S x) by lia. now replace (k - 1 + 1) with k by lia.
    + rewrite <- (idx_cons_S x) by lia. now replace (k - 1 + 1 + 1) with (k + 1) by lia.
    + rewrite <- (idx_cons_S x) by lia. now replace (k - 1 + 2 + 1) with (k + 2) by lia.
Qed.

Lemma clean_cons x n : byte_ok x -> x <> 0 -> clean n -> clean (x :: n).
Proof.
  intros Bx Hx (A & B & C). split; [constructor; auto|]. split; [now apply no_pat_cons|]. destruct n; [cbn; auto|exact C].
Qed.

Lemma last_idx (n : list Z) : n <> [] -> idx n (zlen n - 1) = Some (last n 1).
Proof.
  intros H. destruct (exists_last H) as (m & x & ->). rewrite last_last, zlen_app. change (zlen [x]) with 1.
  rewrite idx_app_r by lia. now replace (zlen m + 1 - 1 - zlen m) with 0 by lia.
Qed.

Lemma bytes_ok_sc four : bytes_ok (sc four).
Proof. destruct four; repeat constructor; unfold byte_ok; lia. Qed.
Lemma zlen_sc four : zlen (sc four) = sc_len four.
Proof. destruct four; reflexivity. Qed.

Lemma annexb_ok l : Forall unit_ok l -> bytes_ok (annexb l).
Proof.
  induction 1 as [|[four n] l H F IH]; cbn [annexb]; [constructor|]. apply bytes_ok_app. split; [apply bytes_ok_sc|]. apply bytes_ok_app. split; [apply H|exact IH].
Qed.

Lemma fsc_next n four c r : clean n -> bytes_ok (c :: r) ->
  find_start_code (n ++ sc four ++ c :: r) = Ok (zlen n + sc_len four, sc_len four).
Proof.
  intros (B & N & La) Br. set (d := if four then 1 else 0).
  assert (Bp : bytes_ok (n ++ sc four ++ c :: r)) by (apply bytes_ok_app; split; [auto|]; apply bytes_ok_app; split; [apply bytes_ok_sc|auto]).
  assert (Hi : forall m, 0 <= m -> idx (n ++ sc four ++ c :: r) (zlen n + m) = idx (sc four ++ c :: r) m).
  { intros m Hm. rewrite idx_app_r by lia. f_equal. lia. }
  pose proof (zlen_nonneg n) as Hn. pose proof (zlen_nonneg r) as Hr.
  assert (F : first_sc (n ++ sc four ++ c :: r) (zlen n + d)).
  { split; [split|].
    - unfold pat. rewrite <- !Z.add_assoc, !Hi by (unfold d; destruct four; lia). unfold d. destruct four; repeat split; reflexivity.
    - rewrite !zlen_app, zlen_sc, zlen_cons. unfold d. destruct four; cbn [sc_len]; lia.
    - intros j Hj [(P0 & P1 & P2) _]. pose proof (idx_inv _ _ _ P0) as R0. destruct (Z.lt_ge_cases (j + 2) (zlen n)) as [Lt|Ge].
      + rewrite idx_app_l in P0, P1, P2 by lia. apply (N j). now repeat split.
      + replace (j + 2) with (zlen n + (j + 2 - zlen n)) in P2 by lia. rewrite Hi in P2 by lia.
        assert (j + 2 - zlen n = 0 \/ j + 2 - zlen n = 1 \/ (d = 1 /\ j + 2 - zlen n = 2)) as [Q|[Q|[D Q]]] by (unfold d in *; destruct four; lia);
        rewrite Q in P2; unfold d in *; destruct four; try discriminate D; cbn in P2; discriminate P2. }
  rewrite (fsc_hit _ _ Bp F). f_equal. assert (S : sc_len_at (n ++ sc four ++ c :: r) (zlen n + d) = sc_len four).
  { unfold sc_len_at. unfold d. destruct four; cbn [sc_len].
    - replace (zlen n + 1 - 1) with (zlen n + 0) by lia. rewrite Hi by lia. reflexivity.
    - destruct n as [|x n]; [reflexivity|]. rewrite idx_app_l by lia. replace (zlen (x :: n) + 0 - 1) with (zlen (x :: n) - 1) by lia.
      rewrite last_idx by discriminate. destruct (last (x :: n) 1); [congruence|reflexivity|reflexivity]. }
  rewrite S. f_equal. unfold d. destruct four; cbn [sc_len]; lia.
Qed.

Lemma fsc_none n : clean n -> find_start_code n = Ok (-1, -1).
Proof. intros (B & N & _). apply fsc_miss; [exact B|]. intros k [P _]. exact (N k P). Qed.

Lemma annexb_cons_split four m l : unit_ok (four, m) -> exists c r, m ++ annexb l = c :: r /\ m = c :: tl m.
Proof. intros (_ & H & _). cbn [snd] in *. destruct m as [|c m]; [congruence|]. cbn. eauto. Qed.

(** The search from inside a unit finds the next start code. *)
Lemma fsc_units n l : clean n -> Forall unit_ok l ->
  find_start_code (n ++ annexb l) = match l with [] => Ok (-1, -1) | (four, _) :: _ => Ok (zlen n + sc_len four, sc_len four) end.
Proof.
  intros C F. destruct l as [|[four m] l]; cbn [annexb]; [rewrite app_nil_r; now apply fsc_none|].
  inversion F as [|? ? H F']; subst. destruct (annexb_cons_split four m l H) as (c & r & E & _). rewrite E. apply fsc_next; [exact C|].
  rewrite <- E. apply bytes_ok_app. split; [apply H|now apply annexb_ok].
Qed.

Lemma slice_from_app (a b : list Z) : slice_from (a ++ b) (zlen a) = Some b.
Proof.
  rewrite slice_from_some by (rewrite zlen_app; pose proof (zlen_nonneg a); pose proof (zlen_nonneg b); lia).
  f_equal. unfold zlen. rewrite Nat2Z.id, skipn_app, skipn_all, Nat.sub_diag. reflexivity.
Qed.
Lemma slice_app_mid (a b c : list Z) : slice (a ++ b ++ c) (zlen a) (zlen a + zlen b) = Some b.
Proof.
  pose proof (zlen_nonneg a). pose proof (zlen_nonneg b). pose proof (zlen_nonneg c).
  rewrite slice_some by (rewrite ?zlen_app; lia). f_equal. replace (zlen a + zlen b - zlen a) with (zlen b) by lia.
  unfold zlen. rewrite !Nat2Z.id, skipn_app, skipn_all, Nat.sub_diag. cbn [skipn app]. rewrite firstn_app, firstn_all, Nat.sub_diag. cbn. apply app_nil_r.
Qed.

(* ---------------------------------------------------------------------------------------- *)
(** ** Key frames *)

Lemma land31 b : byte_ok b -> Z.land b 31 = b mod 32.
Proof. intros _. change 31 with (Z.ones 5). now rewrite Z.land_ones by lia. Qed.
Lemma hevc_type_mod b : byte_ok b -> hevc_type b = (b / 2) mod 64.
Proof. intros _. unfold hevc_type. change 63 with (Z.ones 6). rewrite Z.land_ones by lia. now rewrite Z.shiftr_div_pow2 by lia. Qed.

Definition avc_skip (t : Z) : bool := (t =? H264NalSEI) || (t =? H264NalAUD) || (t =? H264NalPPS) || (t =? H264NalSPS).
Definition hevc_skip (t : Z) : bool :=
  (t =? HevcNalSPS) || (t =? HevcNalPPS) || (t =? HevcNalVPS) || (t =? HevcNalSeiPrefix) || (t =? HevcNalSeiSuffix) || (t =? HevcNalAUD).

(** a step of either loop: position [pre], inside unit n, before the units l *)
Lemma key_step pre n four m l : clean n -> Forall unit_ok ((four, m) :: l) ->
  let p := pre ++ n ++ annexb ((four, m) :: l) in
  let i := zlen pre + (zlen n + sc_len four) in
  idx p i = Some (hd 0 m) /\ p = (pre ++ n ++ sc four) ++ m ++ annexb l /\ zlen (pre ++ n ++ sc four) = i.
Proof.
  intros C F p i. inversion F as [|? ? H F']; subst. destruct (annexb_cons_split four m l H) as (c & r & E & Em).
  assert (Ep : p = (pre ++ n ++ sc four) ++ m ++ annexb l) by (unfold p; cbn [annexb]; now rewrite <- !app_assoc).
  assert (El : zlen (pre ++ n ++ sc four) = i) by (unfold i; rewrite !zlen_app, zlen_sc; lia).
  split; [|auto]. rewrite Ep, <- El, idx_app_r, Z.sub_diag by lia. rewrite E, idx_cons_0. now rewrite Em.
Qed.

Lemma avc_key_loop l : forall f pre n, clean n -> bytes_ok pre -> Forall unit_ok l -> (length l < f)%nat ->
  avc_is_key_frame_loop f (pre ++ n ++ annexb l) (zlen pre) =
  Ok (match first_other avc_nal_type avc_skip (map snd l) with Some u => avc_nal_type u =? H264NalIDRSlice | None => false end).
Proof.
  induction l as [|[four m] l IH]; intros f pre n C Bp F Hf; (destruct f as [|f]; [cbn in Hf; lia|]); cbn [avc_is_key_frame_loop].
  - rewrite slice_from_app. cbn [of_opt bind]. rewrite (fsc_units n [] C F). cbn [bind]. reflexivity.
  - rewrite slice_from_app. cbn [of_opt bind]. rewrite (fsc_units n _ C F). cbn [bind].
    pose proof (zlen_nonneg n). replace (zlen n + sc_len four <? 0) with false by (destruct four; cbn [sc_len]; lia).
    destruct (key_step pre n four m l C F) as (Ei & Ep & El). cbv zeta. rewrite Ei. cbn [of_opt bind].
    inversion F as [|? ? H1 F']; subst. pose proof H1 as (Bm & Hm & _). cbn [snd] in *.
    assert (byte_ok (hd 0 m)) as Bh by (destruct m; [congruence|inversion Bm; auto]).
    rewrite land31 by auto. fold (avc_nal_type m). cbn [map snd first_other find]. fold (avc_skip (avc_nal_type m)).
    destruct (avc_skip (avc_nal_type m)) eqn:Sk; cbn [negb]; [|reflexivity].
    rewrite Ep, <- El. apply IH; [now apply nalu_clean| |auto|cbn in Hf; lia].
    apply bytes_ok_app. split; [auto|]. apply bytes_ok_app. split; [apply C|apply bytes_ok_sc].
Qed.

Lemma hevc_key_loop l : forall f pre n, clean n -> bytes_ok pre -> Forall unit_ok l -> (length l < f)%nat ->
  hevc_is_key_frame_loop f (pre ++ n ++ annexb l) (zlen pre) =
  Ok (match first_other hevc_nal_type hevc_skip (map snd l) with Some u => (16 <=? hevc_nal_type u) && (hevc_nal_type u <=? 23) | None => false end).
Proof.
  induction l as [|[four m] l IH]; intros f pre n C Bp F Hf; (destruct f as [|f]; [cbn in Hf; lia|]); cbn [hevc_is_key_frame_loop].
  - rewrite slice_from_app. cbn [of_opt bind]. rewrite (fsc_units n [] C F). cbn [bind]. reflexivity.
  - rewrite slice_from_app. cbn [of_opt bind]. rewrite (fsc_units n _ C F). cbn [bind].
    pose proof (zlen_nonneg n). replace (zlen n + sc_len four <? 0) with false by (destruct four; cbn [sc_len]; lia).
    destruct (key_step pre n four m l C F) as (Ei & Ep & El). cbv zeta. rewrite Ei. cbn [of_opt bind].
    inversion F as [|? ? H1 F']; subst. pose proof H1 as (Bm & Hm & _). cbn [snd] in *.
    assert (byte_ok (hd 0 m)) as Bh by (destruct m; [congruence|inversion Bm; auto]).
    rewrite hevc_type_mod by auto. fold (hevc_nal_type m). cbn [map snd first_other find]. fold (hevc_skip (hevc_nal_type m)).
    replace (hevc_nal_type m >=? 16) with (16 <=? hevc_nal_type m) by lia.
    destruct ((16 <=? hevc_nal_type m) && (hevc_nal_type m <=? 23)) eqn:K.
    + assert (hevc_skip (hevc_nal_type m) = false) as -> by (unfold hevc_skip, HevcNalSPS, HevcNalPPS, HevcNalVPS, HevcNalSeiPrefix, HevcNalSeiSuffix, HevcNalAUD; lia).
      cbn [negb]. now rewrite K.
    + destruct (hevc_skip (hevc_nal_type m)) eqn:Sk; cbn [negb]; [|now rewrite K].
      rewrite Ep, <- El. apply IH; [now apply nalu_clean| |auto|cbn in Hf; lia].
      apply bytes_ok_app. split; [auto|]. apply bytes_ok_app. split; [apply C|apply bytes_ok_sc].
Qed.

Lemma annexb_length l : (length l <= length (annexb l))%nat.
Proof. induction l as [|[four n] l IH]; cbn [annexb length]; [lia|]. rewrite !app_length. destruct four; cbn [sc length]; lia. Qed.

Lemma avc_key_units l : Forall unit_ok l -> avc_is_key_frame (annexb l) =
  Ok (match first_other avc_nal_type avc_skip (map snd l) with Some u => avc_nal_type u =? H264NalIDRSlice | None => false end).
Proof.
  intros F. pose proof (avc_key_loop l (S (length (annexb l))) [] [] clean_nil (Forall_nil _) F) as H. apply H. pose proof (annexb_length l). lia.
Qed.
Lemma hevc_key_units l : Forall unit_ok l -> hevc_is_key_frame (annexb l) =
  Ok (match first_other hevc_nal_type hevc_skip (map snd l) with Some u => (16 <=? hevc_nal_type u) && (hevc_nal_type u <=? 23) | None => false end).
Proof.
  intros F. pose proof (hevc_key_loop l (S (length (annexb l))) [] [] clean_nil (Forall_nil _) F) as H. apply H. pose proof (annexb_length l). lia.
Qed.

Lemma slice_from_idx (p : list Z) i k q : slice_from p i = Some q -> 0 <= k -> idx q k = idx p (i + k) /\ zlen q = zlen p - i /\ 0 <= i <= zlen p.
Proof.
  intros E Hk. unfold slice_from in E. pose proof (slice_length _ _ _ _ E) as (L & R & _). split; [|split; [lia|lia]].
  rewrite slice_some in E by lia. injection E as <-. rewrite firstn_all2 by (rewrite skipn_length; unfold zlen; lia). apply idx_skipn; lia.
Qed.

Lemma slice_from_ok p i q : bytes_ok p -> slice_from p i = Some q -> bytes_ok q.
Proof.
  intros B E. unfold slice_from in E. pose proof (slice_length _ _ _ _ E) as (_ & R & R2). rewrite slice_some in E by lia. injection E as <-.
  now apply bytes_ok_firstn, bytes_ok_skipn.
Qed.

(** Both loops terminate without panic on arbitrary data. *)
Lemma avc_key_total p : bytes_ok p -> forall f i, 0 <= i <= zlen p -> (Z.to_nat (zlen p - i) < f)%nat ->
  exists b, avc_is_key_frame_loop f p i = Ok b.
Proof.
  intros B. induction f as [|f IH]; intros i Hi Hf; [lia|]. cbn [avc_is_key_frame_loop].
  rewrite slice_from_some by lia. cbn [of_opt bind]. set (q := skipn (Z.to_nat i) p).
  assert (Eq : slice_from p i = Some q) by (apply slice_from_some; lia). pose proof (slice_from_ok _ _ _ B Eq) as Bq.
  destruct (fsc_total q Bq) as [E|(k & n & E & Hk & L & _)]; rewrite E; cbn [bind].
  - replace (-1 <? 0) with true by reflexivity. eauto.
  - replace (k + 3 <? 0) with false by lia. cbv zeta. destruct (slice_from_idx p i (k + 3) q Eq) as (Ei & Lq & _); [lia|].
    destruct (idx_some p (i + (k + 3))) as [b Eb]; [lia|]. rewrite Eb. cbn [of_opt bind].
    match goal with |- context [if ?c then _ else _] => destruct c end; [apply IH; lia|eauto].
Qed.
Lemma hevc_key_total p : bytes_ok p -> forall f i, 0 <= i <= zlen p -> (Z.to_nat (zlen p - i) < f)%nat ->
  exists b, hevc_is_key_frame_loop f p i = Ok b.
Proof.
  intros B. induction f as [|f IH]; intros i Hi Hf; [lia|]. cbn [hevc_is_key_frame_loop].
  rewrite slice_from_some by lia. cbn [of_opt bind]. set (q := skipn (Z.to_nat i) p).
  assert (Eq : slice_from p i = Some q) by (apply slice_from_some; lia). pose proof (slice_from_ok _ _ _ B Eq) as Bq.
  destruct (fsc_total q Bq) as [E|(k & n & E & Hk & L & _)]; rewrite E; cbn [bind].
  - replace (-1 <? 0) with true by reflexivity. eauto.
  - replace (k + 3 <? 0) with false by lia. cbv zeta. destruct (slice_from_idx p i (k + 3) q Eq) as (Ei & Lq & _); [lia|].
    destruct (idx_some p (i + (k + 3))) as [b Eb]; [lia|]. rewrite Eb. cbn [of_opt bind].
    match goal with |- context [if ?c then _ else _] => destruct c end; [eauto|].
    match goal with |- context [if ?c then _ else _] => destruct c end; [apply IH; lia|eauto].
Qed.

(** * HevcMp4Proofs: hevc.Mp4ToAnnexB. *)
From Verif Require Import Base BufioModel BytesSpec BytesProofs RingProofs NaluModel NaluSpec NaluProofs SplitProofs AvccProofs.

Lemma lor_byte x b : 0 <= x -> byte_ok b -> Z.lor (x * 256) b = x * 256 + b.
Proof.
  intros Hx Hb. assert (E : Z.land (x * 256) b = 0).
  { apply Z.bits_inj'. intros i Hi. rewrite Z.land_spec, Z.bits_0. replace (x * 256) with (Z.shiftl x 8) by (rewrite Z.shiftl_mul_pow2 by lia; reflexivity).
    rewrite Z.shiftl_spec by lia. destruct (Z_lt_dec i 8).
    - rewrite (Z.testbit_neg_r x) by lia. reflexivity.
    - replace (Z.testbit b i) with false; [apply andb_false_r|]. symmetry. unfold byte_ok in Hb. destruct (Z.eq_dec b 0) as [->|]; [apply Z.bits_0|].
      apply Z.bits_above_log2; [lia|]. assert (Z.log2 b < 8) by (apply Z.log2_lt_pow2; [lia|]; change (2 ^ 8) with 256; lia). lia. }
  rewrite <- Z.lxor_lor by exact E. symmetry. now apply Z.add_nocarry_lxor.
Qed.

Lemma read_length_spec : forall h pre r acc, bytes_ok h -> 0 <= acc -> (acc + 1) * 256 ^ zlen h <= 2 ^ 32 ->
  read_length (length h) (pre ++ h ++ r) (zlen pre) acc = Ok (acc * 256 ^ zlen h + be_value h, zlen (pre ++ h)).
Proof.
  induction h as [|b h IH]; intros pre r acc B Ha Hb; cbn [read_length length].
  - rewrite app_nil_r. change (zlen (@nil Z)) with 0. change (be_value []) with 0. do 2 f_equal. lia.
  - inversion B as [|? ? Hx Hh]; subst. cbn [app]. rewrite idx_app_mid. cbn [of_opt bind]. rewrite zlen_cons in Hb. pose proof (zlen_nonneg h) as Nh.
    rewrite Z.pow_add_r in Hb by lia. assert (0 < 256 ^ zlen h) as P by (apply Z.pow_pos_nonneg; lia). unfold byte_ok in Hx.
    rewrite Z.shiftl_mul_pow2 by lia. change (2 ^ 8) with 256. rewrite i64_id by (unfold is_i64; nia). rewrite lor_byte by (auto; unfold byte_ok; lia).
    replace (zlen pre + 1) with (zlen (pre ++ [b])) by (now rewrite zlen_app). replace (pre ++ b :: h ++ r) with ((pre ++ [b]) ++ h ++ r) by now rewrite <- app_assoc.
    rewrite IH; [|auto|lia|nia]. rewrite be_value_cons, zlen_cons, Z.pow_add_r by lia. rewrite <- app_assoc. cbn [app]. do 2 f_equal. ring.
Qed.

Lemma read_length_k k h pre r : length h = k -> bytes_ok h -> 256 ^ Z.of_nat k <= 2 ^ 32 ->
  read_length k (pre ++ h ++ r) (zlen pre) 0 = Ok (be_value h, zlen (pre ++ h)).
Proof. intros <- B K. fold (zlen h) in K. rewrite read_length_spec by (auto; lia). reflexivity. Qed.

Fixpoint hout (extra : list Z) (got : bool) (l : list (list Z)) : list Z :=
  match l with
  | [] => []
  | n :: r => (if irap n && negb got then extra else []) ++ sc true ++ n ++ hout extra (got || irap n) r
  end.

Lemma hout_got extra l : hout extra true l = annexb4 l.
Proof. unfold annexb4. induction l as [|n l IH]; cbn [hout map concat]; [reflexivity|]. cbn [negb orb]. rewrite andb_false_r, IH. cbn [app]. now rewrite <- app_assoc. Qed.

Lemma hout_with extra l : hout extra false l = with_extra extra l.
Proof.
  unfold with_extra. induction l as [|n l IH]; cbn [hout before_irap]; [reflexivity|]. destruct (irap n) eqn:E; cbn [andb negb orb].
  - rewrite hout_got. unfold annexb4 at 2 3. cbn [map concat]. now rewrite <- app_assoc.
  - cbn [app]. rewrite IH. destruct (before_irap l) as [a [|m b]]; unfold annexb4; cbn [map concat]; now rewrite <- !app_assoc.
Qed.

(** One iteration at a complete unit. *)
Lemma hstep f k pre n r extra out rest got : (1 <= k <= 4)%nat -> lp_unit_ok k n ->
  let E := if irap n && negb got then extra else [] in
  zlen (E ++ sc true ++ n) <= zlen rest ->
  hevc_mp4_to_annexb_loop (S f) (out ++ rest) (pre ++ be_bytes k (zlen n) ++ n ++ r) extra (Z.of_nat k) (zlen pre) (zlen out) got =
  hevc_mp4_to_annexb_loop f ((out ++ E ++ sc true ++ n) ++ skipn (length (E ++ sc true ++ n)) rest) ((pre ++ be_bytes k (zlen n) ++ n) ++ r) extra (Z.of_nat k)
    (zlen (pre ++ be_bytes k (zlen n) ++ n)) (zlen (out ++ E ++ sc true ++ n)) (got || irap n).
Proof.
  intros Hk (Bn & Ln) E HR. cbn [hevc_mp4_to_annexb_loop]. set (h := be_bytes k (zlen n)) in *.
  assert (Lh : zlen h = Z.of_nat k) by (unfold h, zlen at 1; now rewrite be_bytes_length).
  assert (Lp : zlen (pre ++ h ++ n ++ r) = zlen pre + Z.of_nat k + zlen n + zlen r) by (rewrite !zlen_app; lia).
  pose proof (zlen_nonneg pre) as Np. pose proof (zlen_nonneg r) as Nr. rewrite !zlen_app, zlen_sc in HR. cbn [sc_len] in HR. pose proof (zlen_nonneg E) as NE.
  replace (zlen pre <? _) with true by lia. replace (_ - zlen pre <? Z.of_nat k) with false by lia. rewrite Nat2Z.id.
  assert (Bh : bytes_ok h) by apply be_bytes_ok. assert (length h = k) as Lk by (unfold h; apply be_bytes_length).
  assert (K : 256 ^ Z.of_nat k <= 2 ^ 32) by (change (2 ^ 32) with (256 ^ 4); apply Z.pow_le_mono_r; lia).
  rewrite read_length_k by auto. cbn [bind].
  assert (V : be_value h = zlen n). { unfold h. rewrite be_bytes_value, Z.mod_small by lia. lia. }
  rewrite V. assert (Lph : zlen (pre ++ h) = zlen pre + Z.of_nat k) by (rewrite zlen_app; lia).
  replace ((zlen n <? 2) || (zlen n >? _)) with false by lia.
  assert (Ep : pre ++ h ++ n ++ r = (pre ++ h) ++ n ++ r) by now rewrite <- app_assoc. rewrite Ep.
  assert (Hi : idx ((pre ++ h) ++ n ++ r) (zlen (pre ++ h)) = Some (hd 0 n) /\ byte_ok (hd 0 n)).
  { destruct n as [|x n']; [change (zlen (@nil Z)) with 0 in Ln; lia|]. split; [cbn [app]; apply idx_app_mid|now inversion Bn]. }
  destruct Hi as [Hi Hb]. rewrite Hi. cbn [of_opt bind]. rewrite hevc_type_mod by auto. fold (hevc_nal_type n). cbv zeta.
  assert (I : (hevc_nal_type n >=? 16) && (hevc_nal_type n <=? 23) = irap n) by (unfold irap; now rewrite Z.geb_leb).
  rewrite I.
  assert (X : (if irap n && negb got && (zlen extra >? 0) then d <- of_opt (copy_at (out ++ rest) (zlen out) extra);; Ok (d, zlen out + zlen extra) else Ok (out ++ rest, zlen out))
              = Ok ((out ++ E) ++ skipn (length E) rest, zlen (out ++ E))).
  { unfold E in *. destruct (irap n && negb got); cbn [andb]; [|now rewrite app_nil_r]. destruct (zlen extra >? 0) eqn:Z0.
    - rewrite copy_at_end by lia. cbn [of_opt bind]. now rewrite <- zlen_app.
    - pose proof (zlen_nonneg extra). rewrite (zlen_zero extra) by lia. cbn [length skipn]. now rewrite app_nil_r. }
  rewrite X. cbn [bind]. assert (LrE : zlen (skipn (length E) rest) = zlen rest - zlen E) by (rewrite zlen_skipn_nat; unfold zlen in *; lia).
  change StartCode4 with (sc true). rewrite copy_at_end by (rewrite zlen_sc; cbn [sc_len]; lia). cbn [of_opt bind]. rewrite slice_app_mid. cbn [of_opt bind].
  assert (Ls : zlen (skipn (length (sc true)) (skipn (length E) rest)) = zlen rest - zlen E - 4) by (rewrite zlen_skipn_nat; [rewrite LrE; reflexivity|unfold zlen in *; cbn [sc length]; lia]).
  replace (zlen (out ++ E) + 4) with (zlen ((out ++ E) ++ sc true)) by (rewrite zlen_app, zlen_sc; reflexivity).
  rewrite copy_at_end by lia. cbn [of_opt bind]. f_equal.
  - rewrite !skipn_skipn, !app_length, <- !app_assoc. do 4 f_equal; try lia.
  - now rewrite <- !app_assoc.
  - rewrite !zlen_app. lia.
  - rewrite !zlen_app, zlen_sc. cbn [sc_len]. lia.
Qed.

Lemma hevc_mp4_units k extra : (1 <= k <= 4)%nat -> forall l f pre out rest got, Forall (lp_unit_ok k) l -> (length l < f)%nat ->
  forall R, R = hout extra got l -> zlen R <= zlen rest ->
  hevc_mp4_to_annexb_loop f (out ++ rest) (pre ++ lp k l) extra (Z.of_nat k) (zlen pre) (zlen out) got =
  Ok ((out ++ R) ++ skipn (length R) rest, zlen (out ++ R)).
Proof.
  intros Hk. induction l as [|n l IH]; intros f pre out rest got F Hf R ER HR; (destruct f as [|f]; [cbn in Hf; lia|]); cbn [lp].
  - subst R. cbn [hout length skipn hevc_mp4_to_annexb_loop]. rewrite !app_nil_r, Z.ltb_irrefl. reflexivity.
  - apply Forall_cons_iff in F as [Hn F']. cbn [hout] in ER. set (E := if irap n && negb got then extra else []) in *. set (R2 := hout extra (got || irap n) l) in *.
    assert (ER2 : R = (E ++ sc true ++ n) ++ R2) by (rewrite ER, <- !app_assoc; reflexivity).
    pose proof (zlen_nonneg R2). assert (LR : zlen R = zlen (E ++ sc true ++ n) + zlen R2) by (rewrite ER2; apply zlen_app).
    rewrite hstep by (auto; fold E; lia). fold E.
    erewrite IH; [|auto|cbn in Hf; lia|reflexivity|].
    + fold R2. rewrite ER2, skipn_skipn, (app_length (E ++ sc true ++ n)), <- !(app_assoc out). do 4 f_equal; try lia.
    + fold R2. rewrite zlen_skipn_nat; [fold (zlen (E ++ sc true ++ n)); lia|]. unfold zlen in *. lia.
Qed.

(** Arbitrary data: an error, or the data was a sequence of units. *)
Lemma hevc_mp4_total k extra : (1 <= k <= 4)%nat -> forall f pre d out rest got, bytes_ok d -> (length d < f)%nat ->
  (if got : bool then 0 else zlen extra) + 2 * zlen d <= zlen rest ->
  hevc_mp4_to_annexb_loop f (out ++ rest) (pre ++ d) extra (Z.of_nat k) (zlen pre) (zlen out) got = Err \/
  exists l, Forall (lp_unit_ok k) l /\ d = lp k l /\ zlen (hout extra got l) <= zlen rest /\
    hevc_mp4_to_annexb_loop f (out ++ rest) (pre ++ d) extra (Z.of_nat k) (zlen pre) (zlen out) got =
    Ok ((out ++ hout extra got l) ++ skipn (length (hout extra got l)) rest, zlen (out ++ hout extra got l)).
Proof.
  intros Hk. induction f as [|f IH]; intros pre d out rest got B Hf HR; [lia|].
  pose proof (zlen_nonneg pre) as Np. pose proof (zlen_nonneg d) as Nd. pose proof (zlen_nonneg extra) as Ne.
  destruct (Z.eq_dec (zlen d) 0) as [Z0|P].
  { right. exists []. rewrite (zlen_zero d Z0). split; [constructor|]. split; [reflexivity|]. split; [cbn [hout]; apply zlen_nonneg|].
    cbn [hout length skipn hevc_mp4_to_annexb_loop]. rewrite !app_nil_r, Z.ltb_irrefl. reflexivity. }
  destruct (Z_lt_dec (zlen d) (Z.of_nat k)) as [Sh|Lg].
  { left. cbn [hevc_mp4_to_annexb_loop]. rewrite zlen_app. replace (zlen pre <? _) with true by lia. now replace (_ <? Z.of_nat k) with true by lia. }
  set (h := firstn k d). set (t := skipn k d). assert (Ed : d = h ++ t) by (symmetry; apply firstn_skipn).
  assert (Lk : length h = k) by (unfold h; rewrite firstn_length; unfold zlen in Lg; lia).
  assert (Bh : bytes_ok h) by (now apply bytes_ok_firstn). assert (Bt : bytes_ok t) by (now apply bytes_ok_skipn).
  assert (Lh : zlen h = Z.of_nat k) by (unfold zlen; now rewrite Lk). assert (Ld : zlen d = Z.of_nat k + zlen t) by (rewrite Ed, zlen_app; lia). pose proof (zlen_nonneg t) as Nt.
  pose proof (be_value_bound h Bh) as V. rewrite Lh in V. set (v := be_value h) in *.
  assert (K : 256 ^ Z.of_nat k <= 2 ^ 32) by (change (2 ^ 32) with (256 ^ 4); apply Z.pow_le_mono_r; lia).
  destruct ((v <? 2) || (v >? zlen t)) eqn:C.
  { left. cbn [hevc_mp4_to_annexb_loop]. rewrite zlen_app. replace (zlen pre <? _) with true by lia. replace (_ <? Z.of_nat k) with false by lia. rewrite Nat2Z.id.
    rewrite Ed at 1. rewrite read_length_k by auto. cbn [bind]. fold v. rewrite zlen_app, Lh. now replace ((v <? 2) || _) with true by lia. }
  set (n := firstn (Z.to_nat v) t). set (r := skipn (Z.to_nat v) t). assert (Et : t = n ++ r) by (symmetry; apply firstn_skipn).
  assert (Lt : zlen n = v) by (unfold n; rewrite zlen_firstn; lia). assert (Ltr : zlen t = v + zlen r) by (rewrite Et at 1; rewrite zlen_app; lia). pose proof (zlen_nonneg r) as Nr.
  assert (Hn : lp_unit_ok k n) by (split; [now apply bytes_ok_firstn|lia]).
  assert (Eh : h = be_bytes k (zlen n)) by (rewrite Lt; unfold v; rewrite <- Lk; symmetry; now apply be_value_bytes).
  assert (Ed2 : d = be_bytes k (zlen n) ++ n ++ r) by (rewrite Ed, Et, Eh; reflexivity).
  set (E := if irap n && negb got then extra else []).
  assert (LE : zlen E <= if got then 0 else zlen extra) by (unfold E; destruct (irap n), got; cbn [andb negb]; change (zlen (@nil Z)) with 0; lia).
  assert (LE2 : zlen E + (if got || irap n then 0 else zlen extra) <= if got then 0 else zlen extra) by (unfold E; destruct (irap n), got; cbn [andb negb orb]; change (zlen (@nil Z)) with 0; lia).
  assert (Ls : zlen (E ++ sc true ++ n) = zlen E + 4 + v) by (rewrite !zlen_app, zlen_sc; cbn [sc_len]; lia).
  assert (Q : forall d', d' = be_bytes k (zlen n) ++ n ++ r ->
    hevc_mp4_to_annexb_loop (S f) (out ++ rest) (pre ++ d') extra (Z.of_nat k) (zlen pre) (zlen out) got =
    hevc_mp4_to_annexb_loop f ((out ++ E ++ sc true ++ n) ++ skipn (length (E ++ sc true ++ n)) rest) ((pre ++ be_bytes k (zlen n) ++ n) ++ r) extra (Z.of_nat k)
      (zlen (pre ++ be_bytes k (zlen n) ++ n)) (zlen (out ++ E ++ sc true ++ n)) (got || irap n)).
  { intros d' ->. apply hstep; auto. fold E. lia. }
  rewrite (Q d Ed2). clear Q.
  set (pre' := pre ++ be_bytes k (zlen n) ++ n). set (out' := out ++ E ++ sc true ++ n). set (rest' := skipn (length (E ++ sc true ++ n)) rest).
  assert (Lr' : zlen rest' = zlen rest - zlen (E ++ sc true ++ n)) by (unfold rest'; rewrite zlen_skipn_nat; unfold zlen in *; lia).
  destruct (IH pre' r out' rest' (got || irap n)) as [Er|(l & F & Er & Ll & Eq)].
  - unfold r. now apply bytes_ok_skipn.
  - unfold zlen in *. lia.
  - lia.
  - left. exact Er.
  - right. exists (n :: l). assert (Eh2 : hout extra got (n :: l) = (E ++ sc true ++ n) ++ hout extra (got || irap n) l) by (cbn [hout]; now rewrite <- !app_assoc).
    rewrite Eh2. split; [constructor; auto|]. split; [cbn [lp]; now rewrite <- Er|]. split; [rewrite (zlen_app (E ++ _)); lia|].
    rewrite Eq. unfold out', rest'. rewrite skipn_skipn, (app_length (E ++ sc true ++ n)), <- !(app_assoc out). do 4 f_equal; try lia.
Qed.

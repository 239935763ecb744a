(** * AvccProofs: AVCC2AnnexB, AnnexB2AVCC, Mp4ToAnnexB (avc). *)
From Verif Require Import Base BufioModel BytesSpec BytesProofs RingProofs NaluModel NaluSpec NaluProofs SplitProofs.

Definition is_nil {A} (l : list A) : bool := match l with [] => true | _ => false end.

Lemma is_nil_zlen {A} (l : list A) : (zlen l =? 0) = is_nil l.
Proof. destruct l; [reflexivity|]. rewrite zlen_cons. pose proof (zlen_nonneg l). cbn [is_nil]. lia. Qed.

Lemma zlen_skipn_nat {A} n (l : list A) : (n <= length l)%nat -> zlen (skipn n l) = zlen l - Z.of_nat n.
Proof. intros H. unfold zlen. rewrite skipn_length. lia. Qed.

(** Writing at the end of what is already there. *)
Lemma copy_at_end (out rest d : list Z) : zlen d <= zlen rest -> copy_at (out ++ rest) (zlen out) d = Some ((out ++ d) ++ skipn (length d) rest).
Proof.
  intros H. replace rest with (firstn (length d) rest ++ skipn (length d) rest) at 1 by apply firstn_skipn.
  rewrite copy_at_app by (rewrite firstn_length; unfold zlen in H; lia). now rewrite <- app_assoc.
Qed.

Lemma write_sub_end out rest f r : f rest = Ok r -> write_sub (out ++ rest) (zlen out) f = Ok (out ++ r).
Proof.
  intros E. unfold write_sub. rewrite slice_from_app. cbn [of_opt bind]. rewrite E. cbn [bind]. do 2 f_equal.
  unfold zlen. rewrite Nat2Z.id, firstn_app, firstn_all, Nat.sub_diag. cbn. now rewrite app_nil_r.
Qed.

Lemma be_put_fits n l v : Z.of_nat n <= zlen l -> be_put n l v = Ok (be_bytes n v ++ skipn n l).
Proof.
  intros H. unfold be_put. replace (zlen l <? Z.of_nat n) with false by lia.
  pose proof (copy_at_end [] l (be_bytes n v)) as E. cbn [app] in E. change (zlen []) with 0 in E. rewrite E; [now rewrite be_bytes_length|].
  unfold zlen in *. rewrite be_bytes_length. lia.
Qed.

Lemma be_get_app n (a b : list Z) : length a = n -> be_get n (a ++ b) = Ok (be_value a).
Proof.
  intros <-. unfold be_get. pose proof (slice_app_mid [] a b) as E. cbn [app] in E. change (zlen []) with 0 in E. rewrite Z.add_0_l in E. fold (zlen a). rewrite E. reflexivity.
Qed.

Lemma sc_bytes (first : bool) (rest : list Z) : sc_len first <= zlen rest ->
  (if sc_len first =? 4 then write_sub rest 0 (fun s => be_put 4 s 1) else write_sub rest 0 (fun s => put_uint24 s 1)) =
  Ok (sc first ++ skipn (length (sc first)) rest).
Proof.
  intros H. destruct first; cbn [sc_len] in *.
  - replace (4 =? 4) with true by reflexivity. apply (write_sub_end [] rest (fun s => be_put 4 s 1)). rewrite be_put_fits by lia. reflexivity.
  - replace (3 =? 4) with false by reflexivity. apply (write_sub_end [] rest (fun s => put_uint24 s 1)).
    destruct (three rest H) as (a & b & c & t & ->). unfold put_uint24. pose proof (zlen_nonneg t).
    rewrite upd_some by (rewrite ?zlen_cons; lia). cbn [of_opt bind]. rewrite upd_some by (rewrite zlen_set_nth, !zlen_cons; lia). cbn [of_opt bind].
    rewrite upd_some by (rewrite !zlen_set_nth, !zlen_cons; lia). reflexivity.
Qed.

(** One NAL unit (or the extra data) appended to dst. *)
Lemma copy_nalu_end out rest data app : 
  let h := if app : bool then sc (is_nil out) else [] in
  zlen (h ++ data) <= zlen rest ->
  call_sub (out ++ rest) (zlen out) (fun t => copy_nalu_with_bytes t data (zlen out) app) =
  Ok ((out ++ h ++ data) ++ skipn (length (h ++ data)) rest, zlen (h ++ data)).
Proof.
  intros h L. unfold call_sub. rewrite slice_from_app. cbn [of_opt bind]. unfold copy_nalu_with_bytes. rewrite is_nil_zlen.
  assert (E : (if app then if is_nil out then 4 else 3 else 0) = zlen h) by (unfold h; destruct app; [rewrite zlen_sc; now destruct (is_nil out)|reflexivity]).
  rewrite E. rewrite zlen_app in L. pose proof (zlen_nonneg data) as Hd.
  assert (W : (if app then if zlen h =? 4 then write_sub rest 0 (fun s => be_put 4 s 1) else write_sub rest 0 (fun s => put_uint24 s 1) else Ok rest)
              = Ok (h ++ skipn (length h) rest)).
  { unfold h in *. destruct app; [|reflexivity]. rewrite zlen_sc in *. apply sc_bytes. lia. }
  rewrite W. cbn [bind]. rewrite copy_at_end by (rewrite zlen_skipn_nat; unfold zlen in *; lia). cbn [of_opt bind].
  rewrite zlen_app. do 2 f_equal. unfold zlen at 1. rewrite Nat2Z.id, firstn_app, firstn_all, Nat.sub_diag. cbn [firstn]. rewrite app_nil_r.
  rewrite skipn_skipn, app_length, <- !app_assoc. reflexivity.
Qed.

(* ---------------------------------------------------------------------------------------- *)
(** ** Reading AVCC *)

Lemma avcc_dec p : bytes_ok p -> exists units tail, p = avcc units ++ tail /\ Forall avcc_unit_ok units /\ avcc_stop tail.
Proof.
  remember (length p) as n eqn:E. revert p E. induction n as [n IH] using lt_wf_ind. intros p -> B.
  destruct (Z_le_dec (zlen p) 4) as [L|L]; [exists [], p; cbn; unfold avcc_stop; auto|].
  set (h := firstn 4 p). set (t := skipn 4 p). assert (Ep : p = h ++ t) by (symmetry; apply firstn_skipn).
  assert (Lh : length h = 4%nat) by (unfold h; rewrite firstn_length; unfold zlen in L; lia).
  assert (Bh : bytes_ok h) by (apply bytes_ok_firstn; auto). pose proof (be_value_bound h Bh) as Rh. unfold zlen in Rh. rewrite Lh in Rh. change (256 ^ Z.of_nat 4) with (2 ^ 32) in Rh.
  set (v := be_value h) in *. assert (Lt : zlen t = zlen p - 4) by (unfold t; rewrite zlen_skipn_nat; unfold zlen in *; lia).
  destruct (Z.eq_dec v 0) as [V0|V0]; [exists [], p; split; [reflexivity|]; split; [constructor|]; right; left; exact V0|].
  destruct (Z_gt_dec v (zlen p - 4)) as [V1|V1]; [exists [], p; split; [reflexivity|]; split; [constructor|]; right; right; exact V1|].
  set (u := firstn (Z.to_nat v) t). set (r := skipn (Z.to_nat v) t). assert (Et : t = u ++ r) by (symmetry; apply firstn_skipn).
  assert (Lu : zlen u = v) by (unfold u; apply zlen_firstn; lia).
  assert (Bt : bytes_ok t) by (apply bytes_ok_skipn; auto).
  destruct (IH (length r)) with (p := r) as (units & tail & Er & F & S); auto.
  { unfold r. rewrite skipn_length. unfold zlen in *. lia. }
  { unfold r. now apply bytes_ok_skipn. }
  exists (u :: units), tail. split; [|split; [constructor; [|auto]|exact S]].
  - cbn [avcc]. rewrite Lu. unfold v. rewrite <- Lh. rewrite be_value_bytes by auto. rewrite Ep, Et, Er, <- !app_assoc. reflexivity.
  - split; [unfold u; now apply bytes_ok_firstn|]. lia.
Qed.

Definition rd_unit (p : list Z) (index : Z) : res (option (Z * Z)) :=
  s <- of_opt (slice_from p (index - 4));;
  size <- be_get 4 s;;
  if (size =? 0) || (zlen p - index <? size) then Ok None else h <- of_opt (idx p index);; Ok (Some (size, Z.land h 31)).

Lemma avcc_head pre n units tail : avcc_unit_ok n ->
  let p := pre ++ avcc (n :: units) ++ tail in
  let i := zlen pre + 4 in
  (i <? zlen p) = true /\
  (s <- of_opt (slice_from p (i - 4));; be_get 4 s) = Ok (zlen n) /\
  ((zlen n =? 0) || (zlen p - i <? zlen n)) = false /\
  (exists h, idx p i = Some h /\ Z.land h 31 = avc_nal_type n) /\
  slice p i (i + zlen n) = Some n /\
  exists pre', p = pre' ++ avcc units ++ tail /\ zlen pre' + 4 = i + zlen n + 4.
Proof.
  intros (Bn & Ln) p i. assert (E4 : zlen (be_bytes 4 (zlen n)) = 4) by (unfold zlen at 1; now rewrite be_bytes_length).
  assert (Ep : p = pre ++ be_bytes 4 (zlen n) ++ n ++ avcc units ++ tail) by (unfold p; cbn [avcc]; now rewrite <- !app_assoc).
  assert (Ep2 : p = (pre ++ be_bytes 4 (zlen n)) ++ n ++ avcc units ++ tail) by (rewrite Ep; now rewrite <- !app_assoc).
  assert (El : zlen (pre ++ be_bytes 4 (zlen n)) = i) by (unfold i; rewrite zlen_app; lia).
  assert (Lp : zlen p = i + zlen n + zlen (avcc units ++ tail)) by (rewrite Ep2, zlen_app, El, zlen_app; lia).
  pose proof (zlen_nonneg (avcc units ++ tail)) as Nn. pose proof (zlen_nonneg pre) as Np. split; [lia|]. split; [|split; [lia|]].
  - unfold i. replace (zlen pre + 4 - 4) with (zlen pre) by lia. rewrite Ep, slice_from_app. cbn [of_opt bind]. rewrite be_get_app by apply be_bytes_length.
    rewrite be_bytes_value. f_equal. change (256 ^ Z.of_nat 4) with (2 ^ 32). apply Z.mod_small. lia.
  - split; [|split].
    + destruct n as [|h t]; [change (zlen []) with 0 in Ln; lia|]. exists h. split; [rewrite Ep2, <- El; apply idx_app_mid|].
      apply land31. now inversion Bn.
    + rewrite Ep2, <- El. apply slice_app_mid.
    + exists ((pre ++ be_bytes 4 (zlen n)) ++ n). split; [rewrite Ep2; now rewrite <- !app_assoc|]. rewrite zlen_app. lia.
Qed.

Lemma avcc_tail pre tail : avcc_stop tail -> bytes_ok tail ->
  let p := pre ++ tail in
  let i := zlen pre + 4 in
  (i <? zlen p) = false \/
  (i <? zlen p) = true /\ exists v, (s <- of_opt (slice_from p (i - 4));; be_get 4 s) = Ok v /\ ((v =? 0) || (zlen p - i <? v)) = true.
Proof.
  intros S B p i. assert (Lp : zlen p = zlen pre + zlen tail) by (unfold p; apply zlen_app).
  destruct (Z_le_dec (zlen tail) 4) as [L|L]; [left; lia|]. right. split; [lia|]. exists (be_value (firstn 4 tail)). split.
  - unfold i, p. replace (zlen pre + 4 - 4) with (zlen pre) by lia. rewrite slice_from_app. cbn [of_opt bind].
    rewrite <- (firstn_skipn 4 tail) at 1. apply be_get_app. rewrite firstn_length. unfold zlen in L. lia.
  - destruct S as [S|[S|S]]; [lia| |]; [rewrite S; reflexivity|]. lia.
Qed.

Lemma bind_assoc2 {A B C} (x : res A) (f : A -> res B) (g : B -> res C) : (y <- (z <- x;; f z);; g y) = (z <- x;; y <- f z;; g y).
Proof. destruct x; reflexivity. Qed.

Lemma avcc_length l : (length l <= length (avcc l))%nat.
Proof. induction l as [|n l IH]; cbn [avcc length]; [lia|]. rewrite !app_length, be_bytes_length. lia. Qed.

(* ---------------------------------------------------------------------------------------- *)
(** ** AVCC2AnnexB *)

Lemma avcc2annexb_loop_spec extra tail : avcc_stop tail -> bytes_ok tail ->
  forall units f pre out rest s p, Forall avcc_unit_ok units -> (length units < f)%nat ->
  forall R, R = render extra (is_nil out) (plan (s || p) (filter not_sei units)) ->
  zlen R <= zlen rest ->
  avcc2annexb_loop f (pre ++ avcc units ++ tail) extra (out ++ rest) (zlen pre + 4) (zlen out) s p =
  Ok ((out ++ R) ++ skipn (length R) rest, zlen out + zlen R).
Proof.
  intros St Bt. induction units as [|n units IH]; intros f pre out rest s p F Hf R ER HR; (destruct f as [|f]; [cbn in Hf; lia|]); cbn [avcc2annexb_loop].
  - cbn [filter plan render] in ER. subst R. cbn [avcc app length skipn]. rewrite app_nil_r, Z.add_0_r.
    destruct (avcc_tail pre tail St Bt) as [E|(E & v & E2 & E3)]; rewrite E; [reflexivity|].
    rewrite <- bind_assoc2, E2. cbn [bind]. rewrite E3. reflexivity.
  - apply Forall_cons_iff in F as [Hn F']. destruct (avcc_head pre n units tail Hn) as (E1 & E2 & E3 & (h & E4 & E5) & E6 & (pre' & E7 & E8)).
    rewrite E1. rewrite <- bind_assoc2, E2. cbn [bind]. rewrite E3, E4. cbn [of_opt bind]. rewrite E5, E6. cbv zeta. cbn [of_opt bind].
    rewrite E7. replace (zlen pre + 4 + zlen n + 4) with (zlen pre' + 4) by lia.
    cbn [filter] in ER. unfold not_sei in ER at 1. unfold H264NalSEI, H264NalSPS, H264NalPPS, H264NalIDRSlice. destruct (avc_nal_type n =? 6) eqn:Sei; cbn [negb] in ER.
    + apply IH; auto. cbn in Hf. lia.
    + cbn [plan] in ER.
      set (s' := s || (avc_nal_type n =? 7)) in *. set (p' := p || (avc_nal_type n =? 8)) in *.
      assert (Es : s || p || (avc_nal_type n =? 7) || (avc_nal_type n =? 8) = s' || p').
      { unfold s', p'. destruct s, p, (avc_nal_type n =? 7), (avc_nal_type n =? 8); reflexivity. }
      rewrite Es in ER.
      replace ((avc_nal_type n =? 5) && negb s' && negb p') with ((avc_nal_type n =? 5) && negb (s' || p')) by (rewrite negb_orb; apply andb_assoc).
      destruct ((avc_nal_type n =? 5) && negb (s' || p')) eqn:I; cbn [andb].
      * cbn [app render] in ER. set (R2 := render extra false (plan (s' || p') (filter not_sei units))) in *.
        assert (Lx : zlen extra >? 0 = negb (is_nil extra)) by (rewrite <- is_nil_zlen; pose proof (zlen_nonneg extra); lia). rewrite Lx.
        destruct (is_nil extra) eqn:Nx; cbn [negb].
        -- destruct extra; [|discriminate]. cbn [app zlen length Z.of_nat Z.eqb] in ER. rewrite andb_true_r in ER. cbn [bind].
           rewrite (copy_nalu_end out rest n true) by (rewrite ER in HR; rewrite !zlen_app in *; pose proof (zlen_nonneg R2); lia). cbn [bind].
           assert (zlen out + zlen (sc (is_nil out) ++ n) = zlen (out ++ sc (is_nil out) ++ n)) as -> by (now rewrite (zlen_app out)).
           erewrite IH; [|auto|cbn in Hf; lia|reflexivity|].
           ++ replace (is_nil (out ++ sc (is_nil out) ++ n)) with false by (destruct out; reflexivity). fold R2. do 2 f_equal.
              ** rewrite ER. rewrite skipn_skipn, !app_length, <- !app_assoc. do 4 f_equal. f_equal. lia.
              ** rewrite ER. rewrite !zlen_app. lia.
           ++ replace (is_nil (out ++ sc (is_nil out) ++ n)) with false by (destruct out; reflexivity). fold R2.
              rewrite ER in HR. rewrite app_assoc, zlen_app in HR. rewrite zlen_skipn_nat by (pose proof (zlen_nonneg R2); unfold zlen in *; lia).
              fold (zlen (sc (is_nil out) ++ n)). lia.
        -- assert (is_nil out && (zlen extra =? 0) = false) as Nf by (rewrite is_nil_zlen, Nx; apply andb_false_r). rewrite Nf in ER.
           pose proof (zlen_nonneg R2) as N2. pose proof (zlen_nonneg n) as Nn. pose proof (zlen_nonneg extra) as Nex.
           assert (HR' : zlen extra + (3 + (zlen n + zlen R2)) <= zlen rest) by (rewrite ER in HR; rewrite !zlen_app, zlen_sc in HR; cbn [sc_len] in HR; lia).
           rewrite (copy_nalu_end out rest extra false) by (cbn [app]; lia). cbn [bind app].
           assert (zlen out + zlen extra = zlen (out ++ extra)) as -> by now rewrite zlen_app.
           assert (No : is_nil (out ++ extra) = false) by (destruct out; [exact Nx|reflexivity]).
           assert (Lr : zlen (skipn (length extra) rest) = zlen rest - zlen extra) by (rewrite zlen_skipn_nat; unfold zlen in *; lia).
           rewrite (copy_nalu_end (out ++ extra) _ n true) by (rewrite No, zlen_app, zlen_sc, Lr; cbn [sc_len]; lia). cbn [bind]. rewrite No.
           assert (zlen (out ++ extra) + zlen (sc false ++ n) = zlen ((out ++ extra) ++ sc false ++ n)) as -> by (now rewrite (zlen_app (out ++ extra))).
           erewrite IH; [|auto|cbn in Hf; lia|reflexivity|].
           ++ replace (is_nil ((out ++ extra) ++ sc false ++ n)) with false by (destruct out, extra; reflexivity). fold R2. do 2 f_equal.
              ** rewrite ER. rewrite !skipn_skipn, !app_length, <- !app_assoc. do 5 f_equal; try lia.
              ** rewrite ER. rewrite !zlen_app. lia.
           ++ replace (is_nil ((out ++ extra) ++ sc false ++ n)) with false by (destruct out, extra; reflexivity). fold R2.
              rewrite zlen_skipn_nat; fold (zlen (sc false ++ n)); rewrite ?Lr; [rewrite zlen_app, zlen_sc; cbn [sc_len]; lia|].
              enough (zlen (sc false ++ n) <= zlen (skipn (length extra) rest)) by (unfold zlen in *; lia). rewrite Lr, zlen_app, zlen_sc. cbn [sc_len]. lia.
      * cbn [app render bind] in *. set (R2 := render extra false (plan (s' || p') (filter not_sei units))) in *.
        rewrite (copy_nalu_end out rest n true) by (rewrite ER in HR; rewrite !zlen_app in *; pose proof (zlen_nonneg R2); lia). cbn [bind].
        assert (zlen out + zlen (sc (is_nil out) ++ n) = zlen (out ++ sc (is_nil out) ++ n)) as -> by (now rewrite (zlen_app out)).
        erewrite IH; [|auto|cbn in Hf; lia|reflexivity|].
        -- replace (is_nil (out ++ sc (is_nil out) ++ n)) with false by (destruct out; reflexivity). fold R2. do 2 f_equal.
           ++ rewrite ER. rewrite skipn_skipn, !app_length, <- !app_assoc. do 4 f_equal. f_equal. lia.
           ++ rewrite ER. rewrite !zlen_app. lia.
        -- replace (is_nil (out ++ sc (is_nil out) ++ n)) with false by (destruct out; reflexivity). fold R2.
           rewrite ER in HR. rewrite app_assoc, zlen_app in HR. rewrite zlen_skipn_nat by (pose proof (zlen_nonneg R2); unfold zlen in *; lia).
           fold (zlen (sc (is_nil out) ++ n)). lia.
Qed.

Lemma avcc2annexb_spec units tail dst extra : Forall avcc_unit_ok units -> avcc_stop tail -> bytes_ok tail ->
  forall R, R = render extra true (plan false (filter not_sei units)) -> zlen R <= zlen dst ->
  avcc2annexb dst (avcc units ++ tail) extra = Ok (R ++ skipn (length R) dst, zlen R).
Proof.
  intros F S B R ER L. unfold avcc2annexb.
  refine (avcc2annexb_loop_spec extra tail S B units _ [] [] dst false false F _ R ER L).
  rewrite app_length. pose proof (avcc_length units). lia.
Qed.

Lemma render_plan_nil l : forall first s, render [] first (plan s l) = match l with [] => [] | n :: r => sc first ++ n ++ concat (map (fun m => sc false ++ m) r) end.
Proof.
  induction l as [|n l IH]; intros first s; cbn [plan render]; [reflexivity|]. cbv zeta.
  assert (E : forall s', render [] false (plan s' l) = concat (map (fun m => sc false ++ m) l)).
  { intros s'. rewrite IH. destruct l; [reflexivity|]. cbn [map concat]. now rewrite <- !app_assoc. }
  destruct (_ && _); cbn [app render]; [change (zlen (@nil Z) =? 0) with true; rewrite andb_true_r|]; now rewrite E.
Qed.

Lemma render_norm l s : render [] true (plan s l) = annexb_norm l.
Proof. rewrite render_plan_nil. destruct l; reflexivity. Qed.

Lemma render_bound l : forall first s, zlen (render [] first (plan s l)) <= zlen (avcc l).
Proof.
  induction l as [|n l IH]; intros first s; cbn [plan render avcc]; [lia|]. cbv zeta. pose proof (zlen_nonneg n).
  assert (E4 : zlen (be_bytes 4 (zlen n)) = 4) by (unfold zlen at 1; now rewrite be_bytes_length).
  rewrite !zlen_app, E4.
  destruct (_ && _); cbn [app render]; rewrite !zlen_app, zlen_sc; [change (zlen (@nil Z) =? 0) with true; rewrite andb_true_r|];
    match goal with |- context [plan ?s' l] => specialize (IH false s') end; destruct first; cbn [sc_len]; lia.
Qed.

Lemma avcc_filter f l : zlen (avcc (filter f l)) <= zlen (avcc l).
Proof.
  induction l as [|n l IH]; cbn [filter avcc]; [lia|]. destruct (f n); cbn [avcc]; rewrite !zlen_app in *; [lia|].
  pose proof (zlen_nonneg n). pose proof (zlen_nonneg (be_bytes 4 (zlen n))). lia.
Qed.

(** Insertions. *)
Definition extras (l : list chunk) : nat := length (filter (fun c => match c with CExtra => true | _ => false end) l).
Definition idrs (l : list (list Z)) : nat := length (filter (fun n => avc_nal_type n =? 5) l).

Lemma plan_seen l : plan true l = map CUnit l.
Proof. induction l as [|n l IH]; cbn [plan map]; [reflexivity|]. cbn [orb negb]. rewrite andb_false_r. cbn [app]. now rewrite IH. Qed.

Lemma plan_no_idr l : idrs l = 0%nat -> forall s, plan s l = map CUnit l.
Proof.
  unfold idrs. induction l as [|n l IH]; intros H s; cbn [plan map]; [reflexivity|]. cbn [filter] in H. destruct (avc_nal_type n =? 5) eqn:E; [discriminate|].
  cbn [andb app]. now rewrite IH.
Qed.

Lemma plan_once_ok l : (idrs l <= 1)%nat -> forall s, plan s l = plan_once s l.
Proof.
  unfold idrs. induction l as [|n l IH]; intros H s; cbn [plan plan_once]; [reflexivity|]. cbv zeta. cbn [filter] in H.
  destruct (avc_nal_type n =? 5) eqn:E; cbn [length] in H.
  - cbn [andb]. rewrite (plan_no_idr l) by (unfold idrs; lia). destruct (negb _) eqn:X; cbn [app]; [reflexivity|].
    assert (s || (avc_nal_type n =? 7) || (avc_nal_type n =? 8) = true) as -> by (now apply negb_false_iff).
    rewrite <- IH by lia. now rewrite plan_seen.
  - cbn [andb app]. now rewrite IH by lia.
Qed.

Lemma extras_app a b : extras (a ++ b) = (extras a + extras b)%nat.
Proof. unfold extras. now rewrite filter_app, app_length. Qed.
Lemma extras_units l : extras (map CUnit l) = 0%nat.
Proof. unfold extras. induction l; cbn; auto. Qed.

(** SPS/PPS before: no insertion; none before: one insertion per IDR slice. *)
Lemma plan_counts l : (forall n, In n l -> avc_nal_type n <> 7 /\ avc_nal_type n <> 8) -> extras (plan false l) = idrs l.
Proof.
  unfold idrs. induction l as [|n l IH]; intros H; cbn [plan]; [reflexivity|]. cbv zeta. destruct (H n) as [H7 H8]; [now left|].
  replace (avc_nal_type n =? 7) with false by lia. replace (avc_nal_type n =? 8) with false by lia. cbn [orb negb filter]. rewrite andb_true_r, extras_app.
  specialize (IH (fun m Hm => H m (or_intror Hm))). destruct (avc_nal_type n =? 5); cbn [length extras filter]; unfold extras in *; cbn [filter length]; rewrite IH; reflexivity.
Qed.

(* ---------------------------------------------------------------------------------------- *)
(** ** avc.Mp4ToAnnexB *)

Definition mkw (out rest : list Z) : bytes_buffer := {| bb_data := out ++ rest; bb_length := zlen (out ++ rest); bb_offset := zlen out |}.

Lemma wr_end out rest d : zlen (out ++ rest) < 2 ^ 63 -> zlen d <= zlen rest ->
  wr_bytes (mkw out rest) d = (mkw (out ++ d) (skipn (length d) rest), Ok tt).
Proof.
  intros B L. pose proof (zlen_nonneg out) as N1. pose proof (zlen_nonneg d) as N2. rewrite zlen_app in B.
  unfold wr_bytes, peekN, mkw. cbn [bb_offset bb_length bb_data]. rewrite i64_id by (unfold is_i64; lia). rewrite zlen_app.
  replace ((_ <? _) || _) with false by lia. cbn [bb_data bb_offset bb_set_offset]. rewrite Z.add_simpl_r, copy_at_end by lia.
  cbn [of_opt finish_write bb_set_data bb_offset bb_length]. unfold bb_set_data, bb_set_offset. cbn [bb_data bb_offset bb_length]. f_equal. f_equal.
  - rewrite !zlen_app, zlen_skipn_nat by (unfold zlen in L; lia). unfold zlen. lia.
  - now rewrite zlen_app.
Qed.

Lemma copy_nalu_w out rest data emitted app : zlen (out ++ rest) < 2 ^ 63 ->
  let h := if app : bool then sc (emitted =? 0) else [] in
  zlen (h ++ data) <= zlen rest ->
  copy_nalu (mkw out rest) data emitted app = Ok (mkw (out ++ h ++ data) (skipn (length (h ++ data)) rest), zlen (h ++ data)).
Proof.
  intros B h L. unfold copy_nalu. rewrite zlen_app in L. pose proof (zlen_nonneg data) as Nd. pose proof (zlen_nonneg h) as Nh.
  assert (W : (if app then match wr_bytes (mkw out rest) (if (if app then if emitted =? 0 then 4 else 3 else 0) =? 4 then StartCode4 else StartCode3) with
                          | (_, Panic) => Panic | (_, NoFuel) => NoFuel | (w', _) => Ok w' end else Ok (mkw out rest))
              = Ok (mkw (out ++ h) (skipn (length h) rest))).
  { unfold h in *. destruct app; [|cbn; now rewrite app_nil_r].
    assert (((if emitted =? 0 then 4 else 3) =? 4) = (emitted =? 0)) as -> by now destruct (emitted =? 0).
    assert ((if emitted =? 0 then StartCode4 else StartCode3) = sc (emitted =? 0)) as -> by now destruct (emitted =? 0).
    rewrite wr_end by lia. reflexivity. }
  rewrite W. cbn [bind]. 
  assert (Lr : zlen (skipn (length h) rest) = zlen rest - zlen h) by (rewrite zlen_skipn_nat; unfold zlen in *; lia).
  rewrite wr_end; [|rewrite !zlen_app in *; lia|lia]. cbn [bind]. rewrite skipn_skipn, zlen_app, app_length, <- app_assoc.
  do 2 f_equal. unfold h. destruct app; [|reflexivity]. rewrite zlen_sc. destruct (emitted =? 0); reflexivity.
Qed.

Lemma zlen_zero {A} (l : list A) : zlen l = 0 -> l = [].
Proof. destruct l; [reflexivity|]. rewrite zlen_cons. pose proof (zlen_nonneg l). lia. Qed.

Lemma mp4_loop_spec extra tail : avcc_stop tail -> bytes_ok tail ->
  forall units f pre out rest s p k, Forall avcc_unit_ok units -> (length units < f)%nat -> zlen (out ++ rest) < 2 ^ 63 -> 0 <= k ->
  forall R, R = render extra (k =? 0) (plan (s || p) units) ->
  zlen R <= zlen rest ->
  avc_mp4_to_annexb_loop f (mkw out rest) (pre ++ avcc units ++ tail) extra (zlen pre + 4) k s p =
  Ok (mkw (out ++ R) (skipn (length R) rest)).
Proof.
  intros St Bt. induction units as [|n units IH]; intros f pre out rest s p k F Hf Bd Hk R ER HR; (destruct f as [|f]; [cbn in Hf; lia|]); cbn [avc_mp4_to_annexb_loop].
  - cbn [plan render] in ER. subst R. cbn [avcc app length skipn]. rewrite app_nil_r.
    destruct (avcc_tail pre tail St Bt) as [E|(E & v & E2 & E3)]; rewrite E; [reflexivity|].
    rewrite <- bind_assoc2, E2. cbn [bind]. rewrite E3. reflexivity.
  - apply Forall_cons_iff in F as [Hn F']. destruct (avcc_head pre n units tail Hn) as (E1 & E2 & E3 & (h & E4 & E5) & E6 & (pre' & E7 & E8)).
    rewrite E1. rewrite <- bind_assoc2, E2. cbn [bind]. rewrite E3, E4. cbn [of_opt bind]. rewrite E5, E6. cbv zeta. cbn [of_opt bind].
    rewrite E7. replace (zlen pre + 4 + zlen n + 4) with (zlen pre' + 4) by lia.
    unfold H264NalSPS, H264NalPPS, H264NalIDRSlice. cbn [plan] in ER.
    set (s' := s || (avc_nal_type n =? 7)) in *. set (p' := p || (avc_nal_type n =? 8)) in *.
    assert (Es : s || p || (avc_nal_type n =? 7) || (avc_nal_type n =? 8) = s' || p').
    { unfold s', p'. destruct s, p, (avc_nal_type n =? 7), (avc_nal_type n =? 8); reflexivity. }
    rewrite Es in ER.
    replace ((avc_nal_type n =? 5) && negb s' && negb p') with ((avc_nal_type n =? 5) && negb (s' || p')) by (rewrite negb_orb; apply andb_assoc).
    pose proof (zlen_nonneg n) as Nn. pose proof (zlen_nonneg extra) as Nex.
    destruct ((avc_nal_type n =? 5) && negb (s' || p')) eqn:I; cbn [app render bind] in ER |- *.
    + set (b := (k =? 0) && (zlen extra =? 0)) in *. set (R2 := render extra false (plan (s' || p') units)) in *. pose proof (zlen_nonneg R2) as N2.
      assert (LR : zlen R = zlen extra + sc_len b + zlen n + zlen R2) by (rewrite ER, !zlen_app, zlen_sc; lia).
      assert (0 < sc_len b) as Hb by (destruct b; cbn; lia).
      rewrite (copy_nalu_w out rest extra k false) by (auto; cbn [app]; lia). cbn [bind app].
      assert (Lr : zlen (skipn (length extra) rest) = zlen rest - zlen extra) by (rewrite zlen_skipn_nat; unfold zlen in *; lia).
      assert (Bd' : zlen ((out ++ extra) ++ skipn (length extra) rest) < 2 ^ 63) by (rewrite !zlen_app in *; lia).
      assert (Ek : (k + zlen extra =? 0) = b) by (unfold b; lia).
      rewrite (copy_nalu_w (out ++ extra) _ n (k + zlen extra) true) by (auto; rewrite Ek, zlen_app, zlen_sc; lia). cbn [bind]. rewrite Ek.
      assert (Ls : zlen (sc b ++ n) = sc_len b + zlen n) by now rewrite zlen_app, zlen_sc.
      assert (Lr2 : zlen (skipn (length (sc b ++ n)) (skipn (length extra) rest)) = zlen rest - zlen extra - sc_len b - zlen n).
      { rewrite zlen_skipn_nat; [fold (zlen (sc b ++ n)); lia|]. unfold zlen in *. lia. }
      erewrite IH; [|auto|cbn in Hf; lia| |lia|reflexivity|].
      * replace (k + zlen extra + zlen (sc b ++ n) =? 0) with false by lia. fold R2. do 2 f_equal.
        -- rewrite ER, <- !app_assoc. reflexivity.
        -- rewrite ER, !skipn_skipn, !app_length. f_equal. lia.
      * rewrite !zlen_app in *. lia.
      * replace (k + zlen extra + zlen (sc b ++ n) =? 0) with false by lia. fold R2. lia.
    + set (b := (k =? 0)) in *. set (R2 := render extra false (plan (s' || p') units)) in *. pose proof (zlen_nonneg R2) as N2.
      assert (LR : zlen R = sc_len b + zlen n + zlen R2) by (rewrite ER, !zlen_app, zlen_sc; lia).
      assert (0 < sc_len b) as Hb by (destruct b; cbn; lia).
      assert (Ls : zlen (sc b ++ n) = sc_len b + zlen n) by now rewrite zlen_app, zlen_sc.
      rewrite (copy_nalu_w out rest n k true) by (auto; fold b; lia). cbn [bind]. fold b.
      assert (Lr2 : zlen (skipn (length (sc b ++ n)) rest) = zlen rest - sc_len b - zlen n).
      { rewrite zlen_skipn_nat; [fold (zlen (sc b ++ n)); lia|]. unfold zlen in *. lia. }
      erewrite IH; [|auto|cbn in Hf; lia| |lia|reflexivity|].
      * replace (k + zlen (sc b ++ n) =? 0) with false by lia. fold R2. do 2 f_equal.
        -- rewrite ER, <- !app_assoc. reflexivity.
        -- rewrite ER, !skipn_skipn, !app_length. f_equal. lia.
      * rewrite (zlen_app (out ++ _)), (zlen_app out), Lr2, Ls. rewrite zlen_app in Bd. lia.
      * replace (k + zlen (sc b ++ n) =? 0) with false by lia. fold R2. lia.
Qed.

(** Arbitrary writer and input: errors of the writer are ignored, nothing panics. *)
Lemma wr_total w d : bb_inv w -> zlen d < 2 ^ 63 -> bytes_ok d ->
  exists w', bb_inv w' /\ (wr_bytes w d = (w', Ok tt) \/ wr_bytes w d = (w', Err)).
Proof.
  intros I L B. pose proof (zlen_nonneg d) as N. pose proof I as (I1 & I2 & I3 & I4). unfold wr_bytes. rewrite peekN_spec by (auto; unfold is_i64; lia).
  destruct (_ && _) eqn:E; [|exists w; auto]. cbn [bb_data bb_offset bb_set_offset]. rewrite Z.add_simpl_r, copy_at_fits by lia. cbn [of_opt finish_write].
  eexists. split; [|left; reflexivity].
  assert (zlen (firstn (Z.to_nat (bb_offset w)) (bb_data w) ++ d ++ skipn (Z.to_nat (bb_offset w + zlen d)) (bb_data w)) = zlen (bb_data w)) as El.
  { rewrite !zlen_app, zlen_firstn, zlen_skipn by lia. lia. }
  unfold bb_inv, bb_set_data, bb_set_offset. cbn [bb_data bb_length bb_offset]. rewrite El. split; [auto|]. split; [auto|]. split; [lia|].
  apply bytes_ok_app. split; [now apply bytes_ok_firstn|]. apply bytes_ok_app. split; [auto|now apply bytes_ok_skipn].
Qed.

Lemma copy_nalu_total w d k app : bb_inv w -> zlen d < 2 ^ 63 -> bytes_ok d -> exists w' n, copy_nalu w d k app = Ok (w', n) /\ bb_inv w'.
Proof.
  intros I L B. unfold copy_nalu.
  assert (exists w1, bb_inv w1 /\ (if app then match wr_bytes w (if (if app then if k =? 0 then 4 else 3 else 0) =? 4 then StartCode4 else StartCode3) with
                          | (_, Panic) => Panic | (_, NoFuel) => NoFuel | (w', _) => Ok w' end else Ok w) = Ok w1) as (w1 & I1 & E1).
  { destruct app; [|eauto]. destruct (wr_total w (if (if k =? 0 then 4 else 3) =? 4 then StartCode4 else StartCode3) I) as (w1 & I1 & [E|E]).
    - now destruct (_ =? 4).
    - destruct (_ =? 4); repeat constructor; unfold byte_ok; lia.
    - exists w1. now rewrite E.
    - exists w1. now rewrite E. }
  rewrite E1. cbn [bind]. destruct (wr_total w1 d I1 L B) as (w2 & I2 & [E|E]); rewrite E; cbn [bind]; eauto.
Qed.

Lemma mp4_total data extra : bytes_ok data -> bytes_ok extra -> zlen data < 2 ^ 63 -> zlen extra < 2 ^ 63 ->
  forall f w i k s p, bb_inv w -> 4 <= i -> (Z.to_nat (zlen data - i) < f)%nat ->
  exists w', avc_mp4_to_annexb_loop f w data extra i k s p = Ok w' /\ bb_inv w'.
Proof.
  intros Bd Be Ld Le. induction f as [|f IH]; intros w i k s p I Hi Hf; [lia|]. cbn [avc_mp4_to_annexb_loop].
  destruct (i <? zlen data) eqn:E; [|eauto]. rewrite slice_from_some by lia. cbn [of_opt bind].
  set (q := skipn (Z.to_nat (i - 4)) data). assert (Bq : bytes_ok q) by (unfold q; now apply bytes_ok_skipn).
  assert (Lq : zlen q = zlen data - (i - 4)) by (unfold q; rewrite zlen_skipn; lia).
  assert (Eg : be_get 4 q = Ok (be_value (firstn 4 q))).
  { rewrite <- (firstn_skipn 4 q) at 1. apply be_get_app. rewrite firstn_length. unfold zlen in *. lia. }
  rewrite Eg. cbn [bind]. assert (Bf : bytes_ok (firstn 4 q)) by now apply bytes_ok_firstn.
  pose proof (be_value_bound _ Bf) as Rv. set (v := be_value (firstn 4 q)) in *.
  destruct ((v =? 0) || (zlen data - i <? v)) eqn:V; [eauto|]. destruct (idx_some data i) as [h Eh]; [lia|]. rewrite Eh. cbn [of_opt bind]. cbv zeta.
  rewrite slice_some by lia. cbn [of_opt bind].
  set (u := firstn _ (skipn (Z.to_nat i) data)). assert (Bu : bytes_ok u) by (unfold u; now apply bytes_ok_firstn, bytes_ok_skipn).
  assert (Lu : zlen u < 2 ^ 63). { unfold u, zlen in *. rewrite firstn_length, skipn_length. lia. }
  match goal with |- context [if ?c then _ else Ok (w, k)] => destruct c end.
  - destruct (copy_nalu_total w extra k false I Le Be) as (w1 & n1 & E1 & I1). rewrite E1. cbn [bind].
    destruct (copy_nalu_total w1 u (k + n1) true I1 Lu Bu) as (w2 & n2 & E2 & I2). rewrite E2. cbn [bind]. apply IH; [auto|lia|lia].
  - cbn [bind]. destruct (copy_nalu_total w u k true I Lu Bu) as (w2 & n2 & E2 & I2). rewrite E2. cbn [bind]. apply IH; [auto|lia|lia].
Qed.

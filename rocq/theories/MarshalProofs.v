(** * Marshal of both decoder configuration records: what it returns for any parameter sets. *)
From Verif Require Import Base BufioModel BytesSpec BytesProofs RingProofs NaluModel NaluSpec NaluProofs SplitProofs AvccProofs RecordModel RecordSpec CursorProofs RecordProofs HevcRecordProofs.

Lemma bare_spec x : remove_start_code x = of_opt (bare x).
Proof.
  unfold remove_start_code. destruct x as [|a x]; [reflexivity|]. rewrite idx_cons_0. cbn [of_opt bind].
  destruct (Z.eqb_spec a 0) as [->|Na]; cbn [negb]; [|destruct a; [congruence|reflexivity|reflexivity]].
  destruct x as [|b x]; [reflexivity|]. change (idx (0 :: b :: x) 1) with (Some b). cbn [of_opt bind].
  destruct (Z.eqb_spec b 0) as [->|Nb]; cbn [negb]; [|destruct b; [congruence|reflexivity|reflexivity]].
  destruct x as [|c x]; [reflexivity|]. change (idx (0 :: 0 :: c :: x) 2) with (Some c). cbn [of_opt bind].
  destruct (Z.eqb_spec c 1) as [->|Nc].
  - pose proof (slice_from_app [0; 0; 1] x) as E. cbn [app] in E. change (zlen [0; 0; 1]) with 3 in E. rewrite E. reflexivity.
  - destruct (Z.eqb_spec c 0) as [->|Nc0].
    + destruct x as [|d x]; [reflexivity|]. change (idx (0 :: 0 :: 0 :: d :: x) 3) with (Some d). cbn [of_opt bind].
      destruct (Z.eqb_spec d 1) as [->|Nd].
      * pose proof (slice_from_app [0; 0; 0; 1] x) as E. cbn [app] in E. change (zlen [0; 0; 0; 1]) with 4 in E. rewrite E. reflexivity.
      * destruct d as [|[d|d|]|d]; try reflexivity. congruence.
    + destruct c as [|[c|c|]|c]; try reflexivity; congruence.
Qed.

Lemma bare_len x n : bare x = Some n -> zlen n <= zlen x.
Proof. intros E. apply (remove_sc_len x n). now rewrite bare_spec, E. Qed.

Lemma write_sets_exact l : forall out rest lst, small out rest -> zlen rest < 2 ^ 16 -> Forall go_bytes l ->
  write_sets (mkw out rest) l lst =
  (ns <- fill (zlen rest) l;; Ok (mkw (out ++ lp 2 ns) (skipn (length (lp 2 ns)) rest), match rev ns with [] => lst | x :: _ => Some x end)).
Proof.
  induction l as [|x l IH]; intros out rest lst B R F; cbn [write_sets fill].
  - cbn [bind lp length skipn rev]. now rewrite app_nil_r.
  - apply Forall_cons_iff in F as [[Bx Lx] F]. rewrite bare_spec. destruct (bare x) as [n|] eqn:En; cbn [of_opt bind]; [|reflexivity].
    pose proof (bare_len _ _ En) as Ln. pose proof (zlen_nonneg n) as Nn. pose proof (zlen_nonneg rest) as Nr.
    destruct (Z_lt_dec (zlen rest) 2) as [Sh|L2]. { rewrite wr_uint_short by (auto; lia). now replace (2 + zlen n <=? zlen rest) with false by lia. }
    rewrite wr_uint_fits by (auto; lia). unfold try_w at 1. cbn [fst snd bind].
    assert (Lr : zlen (skipn 2 rest) = zlen rest - 2) by (rewrite zlen_skipn_nat; unfold zlen in *; lia).
    assert (B1 : small (out ++ be_bytes 2 (u16 (zlen n))) (skipn 2 rest)) by (eapply small_shift; [|exact B]; rewrite be2_len; lia).
    destruct (Z_lt_dec (zlen rest - 2) (zlen n)) as [Sh|L3]. { rewrite wr_bytes_short by (auto; lia). now replace (2 + zlen n <=? zlen rest) with false by lia. }
    assert (u16 (zlen n) = zlen n) as U by (unfold u16; apply Z.mod_small; lia). rewrite U in *.
    rewrite wr_end by (auto; lia). unfold try_w at 1. cbn [fst snd bind]. rewrite skipn_skipn.
    set (rest2 := skipn (2 + length n) rest).
    assert (Lr2 : zlen rest2 = zlen rest - 2 - zlen n) by (unfold rest2; rewrite zlen_skipn_nat; unfold zlen in *; lia).
    replace (skipn (length n + 2) rest) with rest2 by (unfold rest2; f_equal; lia).
    replace (2 + zlen n <=? zlen rest) with true by lia.
    rewrite IH; [|eapply small_shift; [|exact B1]; lia|lia|exact F]. rewrite Lr2.
    destruct (fill _ l) as [ns| | |]; cbn [bind]; try reflexivity.
    cbn [lp rev]. rewrite !app_length, be_bytes_length. unfold rest2. rewrite skipn_skipn, <- !app_assoc. f_equal. f_equal.
    destruct (rev ns); reflexivity.
Qed.

Lemma fill_room l : forall room ns, fill room l = Ok ns -> 0 <= room -> zlen (lp 2 ns) <= room /\ zlen ns = zlen l.
Proof.
  induction l as [|x l IH]; intros room ns E R; cbn [fill] in E.
  - injection E as <-. split; [exact R|reflexivity].
  - destruct (bare x) as [n|]; [|discriminate]. destruct (2 + zlen n <=? room) eqn:C; [|discriminate]. destruct (fill _ l) as [ms| | |] eqn:Ef; try discriminate. cbn [bind] in E. injection E as <-.
    apply IH in Ef as [A B]; [|lia]. cbn [lp]. rewrite !zlen_app, be2_len, !zlen_cons. split; lia.
Qed.
Lemma skip_len {A} k (l : list A) : Z.of_nat k <= zlen l -> zlen (skipn k l) = zlen l - Z.of_nat k.
Proof. intros. unfold zlen in *. rewrite skipn_length. lia. Qed.

Theorem avc_marshal_exact sl pl : Forall go_bytes sl -> Forall go_bytes pl -> avc_marshal sl pl = avc_written sl pl.
Proof.
  intros F1 F2. unfold avc_marshal, avc_written. destruct sl as [|s0 sl0]; [reflexivity|]. destruct pl as [|p0 pl0]; [now destruct (zlen _ =? 0)|].
  set (sl := s0 :: sl0) in *. set (pl := p0 :: pl0) in *.
  assert (0 < zlen sl) as N1 by (unfold sl; rewrite zlen_cons; pose proof (zlen_nonneg sl0); lia). assert (0 < zlen pl) as N2 by (unfold pl; rewrite zlen_cons; pose proof (zlen_nonneg pl0); lia).
  replace (zlen sl =? 0) with false by lia. replace (zlen pl =? 0) with false by lia.
  assert (Zs : zeros 1024 = zeros 5 ++ zeros 1019) by (unfold zeros; now rewrite <- repeat_app).
  assert (Sm : small [] (zeros 1024)) by (vm_compute; congruence).
  rewrite bb_new_mkw. rewrite Zs in Sm |- *. rewrite seek_ok by (auto; reflexivity). cbn [bind]. apply small_app in Sm. cbn [app] in Sm |- *.
  change (zeros 1019) with (0 :: zeros 1018) in *. change (zeros 5) with [0;0;0;0;0] in *. rewrite wr_u8_cons by auto. unfold try_w at 1. cbn [fst snd bind app].
  set (c0 := u8 (Z.land (zlen sl) 31)). apply (small_shift _ [c0] _ (zeros 1018)) in Sm; [|reflexivity]. cbn [app] in Sm.
  assert (Lz : zlen (zeros 1018) = 1018) by reflexivity. set (z := zeros 1018) in *. clearbody z.
  rewrite write_sets_exact by (auto; lia). rewrite Lz. destruct (fill 1018 sl) as [S| | |] eqn:ES; cbn [bind]; try reflexivity.
  destruct (fill_room _ _ _ ES ltac:(lia)) as [LS NS]. set (r1 := skipn (length (lp 2 S)) z) in *.
  pose proof (zlen_nonneg (lp 2 S)) as NlS.
  assert (Lr1 : zlen r1 = 1018 - zlen (lp 2 S)) by (unfold r1; rewrite skip_len; unfold zlen in *; lia).
  apply (small_shift _ (lp 2 S) _ r1) in Sm; [|lia]. clearbody r1.
  destruct r1 as [|y r1]. { rewrite wr_u8_nil by auto. change (zlen (@nil Z)) with 0 in Lr1. now replace (zlen (lp 2 S) =? 1018) with true by lia. }
  rewrite zlen_cons in Lr1. pose proof (zlen_nonneg r1) as Nr1. replace (zlen (lp 2 S) =? 1018) with false by lia.
  rewrite wr_u8_cons by auto. unfold try_w at 1. cbn [fst snd bind].
  apply (small_shift _ [u8 (zlen pl)] _ r1) in Sm; [|rewrite zlen_cons; change (zlen [u8 (zlen pl)]) with 1; lia].
  rewrite write_sets_exact by (auto; lia). replace (zlen r1) with (1017 - zlen (lp 2 S)) by lia. destruct (fill _ pl) as [P| | |] eqn:EP; cbn [bind]; try reflexivity.
  destruct (fill_room _ _ _ EP ltac:(lia)) as [LP NP].
  rewrite last_rev. destruct S as [|s1 S'] eqn:EqS; [change (zlen (@nil (list Z))) with 0 in NS; lia|]. rewrite <- EqS in *. cbn [of_opt bind].
  set (body := lp 2 S ++ u8 (zlen pl) :: lp 2 P) in *. set (rr := skipn (length (lp 2 P)) r1) in *.
  cbn [mkw bb_data bb_offset].
  assert (Hdata : ((([0; 0; 0; 0; 0; c0] ++ lp 2 S) ++ [u8 (zlen pl)]) ++ lp 2 P) ++ rr = 0 :: 0 :: 0 :: 0 :: 0 :: c0 :: body ++ rr) by (unfold body; rewrite <- !app_assoc; reflexivity).
  assert (Hoff : zlen ((([0; 0; 0; 0; 0; c0] ++ lp 2 S) ++ [u8 (zlen pl)]) ++ lp 2 P) = 6 + zlen body).
  { unfold body. rewrite !zlen_app, !zlen_cons. change (zlen (@nil Z)) with 0. lia. }
  cbn [app] in Hdata, Hoff |- *. rewrite Hdata, Hoff. pose proof (zlen_nonneg (body ++ rr)) as Nb.
  assert (Hupd : forall (x0 x1 x2 x3 x4 x5 v : Z) t, 
     upd (x0 :: x1 :: x2 :: x3 :: x4 :: x5 :: t) 0 v = Some (v :: x1 :: x2 :: x3 :: x4 :: x5 :: t) /\
     upd (x0 :: x1 :: x2 :: x3 :: x4 :: x5 :: t) 1 v = Some (x0 :: v :: x2 :: x3 :: x4 :: x5 :: t) /\
     upd (x0 :: x1 :: x2 :: x3 :: x4 :: x5 :: t) 2 v = Some (x0 :: x1 :: v :: x3 :: x4 :: x5 :: t) /\
     upd (x0 :: x1 :: x2 :: x3 :: x4 :: x5 :: t) 3 v = Some (x0 :: x1 :: x2 :: v :: x4 :: x5 :: t) /\
     upd (x0 :: x1 :: x2 :: x3 :: x4 :: x5 :: t) 4 v = Some (x0 :: x1 :: x2 :: x3 :: v :: x5 :: t) /\
     upd (x0 :: x1 :: x2 :: x3 :: x4 :: x5 :: t) 5 v = Some (x0 :: x1 :: x2 :: x3 :: x4 :: v :: t)).
  { clear. intros. pose proof (zlen_nonneg t). repeat split; rewrite upd_some by (rewrite !zlen_cons; lia); reflexivity. }
  assert (U0 := fun x0 x1 x2 x3 x4 x5 v t => proj1 (Hupd x0 x1 x2 x3 x4 x5 v t)). assert (U1 := fun x0 x1 x2 x3 x4 x5 v t => proj1 (proj2 (Hupd x0 x1 x2 x3 x4 x5 v t))).
  assert (U2 := fun x0 x1 x2 x3 x4 x5 v t => proj1 (proj2 (proj2 (Hupd x0 x1 x2 x3 x4 x5 v t)))). assert (U3 := fun x0 x1 x2 x3 x4 x5 v t => proj1 (proj2 (proj2 (proj2 (Hupd x0 x1 x2 x3 x4 x5 v t))))).
  assert (U4 := fun x0 x1 x2 x3 x4 x5 v t => proj1 (proj2 (proj2 (proj2 (proj2 (Hupd x0 x1 x2 x3 x4 x5 v t)))))). assert (U5 := fun x0 x1 x2 x3 x4 x5 v t => proj2 (proj2 (proj2 (proj2 (proj2 (Hupd x0 x1 x2 x3 x4 x5 v t)))))).
  clear Hupd. rewrite U0. cbn [of_opt bind].
  destruct (last S []) as [|b0 [|b1 [|b2 [|b3 lst]]]].
  - reflexivity.
  - reflexivity.
  - change (idx [b0; b1] 1) with (Some b1). cbn [of_opt bind]. rewrite U1. reflexivity.
  - change (idx [b0; b1; b2] 1) with (Some b1). change (idx [b0; b1; b2] 2) with (Some b2). change (idx [b0; b1; b2] 3) with (@None Z). cbn [of_opt bind]. rewrite U1. cbn [of_opt bind]. rewrite U2. reflexivity.
  - change (idx (b0 :: b1 :: b2 :: b3 :: lst) 1) with (Some b1). change (idx (b0 :: b1 :: b2 :: b3 :: lst) 2) with (Some b2). change (idx (b0 :: b1 :: b2 :: b3 :: lst) 3) with (Some b3).
    cbn [of_opt bind]. rewrite U1. cbn [of_opt bind]. rewrite U2. cbn [of_opt bind]. rewrite U3. cbn [of_opt bind]. rewrite U4. cbn [of_opt bind]. rewrite U5. cbn [of_opt bind].
    pose proof (slice_app_mid [] (1 :: b1 :: b2 :: b3 :: 255 :: Z.lor 224 (u8 (zlen sl)) :: body) rr) as Sl. cbn [app] in Sl. change (zlen (@nil Z)) with 0 in Sl. rewrite Z.add_0_l in Sl.
    rewrite !zlen_cons in Sl. replace (1 + (1 + (1 + (1 + (1 + (1 + zlen body)))))) with (6 + zlen body) in Sl by lia. rewrite Sl. reflexivity.
Qed.

Lemma hevc_write_exact out rest l : small out rest -> zlen rest < 2 ^ 16 -> Forall go_bytes l -> l <> [] ->
  hevc_write (mkw out rest) l = (ns <- fill_array (zlen rest) l;; Ok (mkw (out ++ hevc_array ns) (skipn (length (hevc_array ns)) rest))).
Proof.
  intros B R F N. destruct l as [|x l]; [congruence|]. unfold hevc_write, fill_array. rewrite idx_cons_0. cbn [of_opt bind hd]. rewrite bare_spec.
  destruct (bare x) as [n|] eqn:En; cbn [of_opt bind]; [|reflexivity]. destruct n as [|b n]; [reflexivity|]. rewrite idx_cons_0. cbn [of_opt bind]. rewrite hevc_type_byte. set (t := (b / 2) mod 64).
  pose proof (zlen_nonneg rest) as Nr. destruct rest as [|y rest].
  { rewrite wr_u8_nil by auto. reflexivity. }
  rewrite wr_u8_cons by auto. unfold try_w at 1. cbn [fst snd bind]. rewrite (zlen_cons y rest) in *|-*. pose proof (zlen_nonneg rest).
  assert (B1 : small (out ++ [t]) rest) by (eapply small_shift; [|exact B]; rewrite zlen_cons; change (zlen [t]) with 1; lia).
  destruct (Z_lt_dec (zlen rest) 2) as [Sh|L2]. { rewrite wr_uint_short by (auto; lia). now replace (3 <=? 1 + zlen rest) with false by lia. }
  replace (3 <=? 1 + zlen rest) with true by lia. rewrite wr_uint_fits by (auto; lia). unfold try_w at 1. cbn [fst snd bind].
  assert (Lr : zlen (skipn 2 rest) = zlen rest - 2) by (rewrite zlen_skipn_nat; unfold zlen in *; lia).
  assert (B2 : small ((out ++ [t]) ++ be_bytes 2 (u16 (zlen (x :: l)))) (skipn 2 rest)) by (eapply small_shift; [|exact B1]; rewrite be2_len; lia).
  rewrite write_sets_exact by (auto; lia). rewrite Lr. replace (1 + zlen rest - 3) with (zlen rest - 2) by lia.
  destruct (fill (zlen rest - 2) (x :: l)) as [ns| | |] eqn:Ef; cbn [bind]; try reflexivity.
  destruct (fill_room _ _ _ Ef ltac:(lia)) as [Lns Nns]. pose proof (zlen_lp2 ns) as Zl. pose proof (zlen_nonneg ns).
  assert (Hh : hd [] ns = b :: n).
  { cbn [fill] in Ef. rewrite En in Ef. destruct (_ <=? _); [|discriminate]. destruct (fill _ l); try discriminate. cbn [bind] in Ef. injection Ef as <-. reflexivity. }
  unfold hevc_array. rewrite Hh. change (hevc_nal_type (b :: n)) with t. unfold harray. cbn [fst snd].
  assert (U : u16 (zlen (x :: l)) = zlen ns) by (rewrite <- Nns; unfold u16; apply Z.mod_small; lia). rewrite U.
  rewrite <- !app_assoc, !app_length, be_bytes_length. cbn [length]. rewrite skipn_skipn. do 2 f_equal.
Qed.
Lemma fill_array_room l room ns : fill_array room l = Ok ns -> 0 <= zlen (hevc_array ns) <= room.
Proof.
  unfold fill_array. destruct (bare (hd [] l)) as [[|]|]; try discriminate. destruct (3 <=? room) eqn:C; [|discriminate]. intros E. apply fill_room in E as [E _]; [|lia].
  unfold hevc_array, harray. cbn [fst snd]. rewrite !zlen_app, be2_len. change (zlen [_]) with 1. pose proof (zlen_nonneg (lp 2 ns)). lia.
Qed.

Theorem hevc_marshal_exact vl sl pl : Forall go_bytes vl -> Forall go_bytes sl -> Forall go_bytes pl -> hevc_marshal vl sl pl = hevc_written vl sl pl.
Proof.
  intros FV FS FP. unfold hevc_marshal, hevc_written. change (1 :: zeros 20 ++ [3; 3]) with hdr0.
  destruct sl as [|s0 sl0]; [destruct vl; reflexivity|]. destruct pl as [|p0 pl0]; [destruct vl; destruct (zlen _ =? 0); reflexivity|].
  assert (N1 : (zlen (s0 :: sl0) =? 0) = false) by (rewrite zlen_cons; pose proof (zlen_nonneg sl0); lia). assert (N2 : (zlen (p0 :: pl0) =? 0) = false) by (rewrite zlen_cons; pose proof (zlen_nonneg pl0); lia).
  rewrite N1, N2. destruct vl as [|v0 vl0]; [reflexivity|].
  assert (N3 : (zlen (v0 :: vl0) =? 0) = false) by (rewrite zlen_cons; pose proof (zlen_nonneg vl0); lia). rewrite N3.
  assert (M1 : s0 :: sl0 <> []) by congruence. assert (M2 : p0 :: pl0 <> []) by congruence. assert (M3 : v0 :: vl0 <> []) by congruence.
  set (sl := s0 :: sl0) in *. set (pl := p0 :: pl0) in *. set (vl := v0 :: vl0) in *. clearbody sl pl vl.
  assert (Ez : zeros 1024 = 0 :: zeros 20 ++ 0 :: 0 :: zeros 1001) by reflexivity. rewrite Ez.
  assert (U0 : upd (0 :: zeros 20 ++ 0 :: 0 :: zeros 1001) 0 1 = Some (1 :: zeros 20 ++ 0 :: 0 :: zeros 1001)) by (vm_compute; reflexivity). rewrite U0. cbn [of_opt bind].
  assert (U1 : upd (1 :: zeros 20 ++ 0 :: 0 :: zeros 1001) 21 3 = Some (1 :: zeros 20 ++ 3 :: 0 :: zeros 1001)) by (vm_compute; reflexivity). rewrite U1. cbn [of_opt bind].
  assert (U2 : upd (1 :: zeros 20 ++ 3 :: 0 :: zeros 1001) 22 3 = Some (hdr0 ++ zeros 1001)) by (vm_compute; reflexivity). rewrite U2. cbn [of_opt bind].
  assert (Sm : small [] (hdr0 ++ zeros 1001)) by (vm_compute; congruence).
  rewrite bb_new_mkw. rewrite (seek_ok [] hdr0 (zeros 1001) 23) by (auto; reflexivity). cbn [bind app]. apply small_app in Sm. cbn [app] in Sm.
  assert (Lz : zlen (zeros 1001) = 1001) by reflexivity. set (z := zeros 1001) in *. set (h := hdr0) in *. clearbody z h.
  rewrite hevc_write_exact by (auto; lia). rewrite Lz. destruct (fill_array 1001 vl) as [V| | |] eqn:EV; cbn [bind]; try reflexivity.
  apply fill_array_room in EV. set (a1 := hevc_array V) in *. assert (Z1 : zlen (skipn (length a1) z) = 1001 - zlen a1) by (rewrite skip_len; unfold zlen in *; lia).
  apply (small_shift _ a1 _ (skipn (length a1) z)) in Sm; [|lia]. set (z1 := skipn _ z) in *. clearbody z1.
  rewrite hevc_write_exact by (auto; lia). rewrite Z1. destruct (fill_array _ sl) as [S| | |] eqn:ES; cbn [bind]; try reflexivity.
  apply fill_array_room in ES. set (a2 := hevc_array S) in *. assert (Z2 : zlen (skipn (length a2) z1) = 1001 - zlen a1 - zlen a2) by (rewrite skip_len; unfold zlen in *; lia).
  apply (small_shift _ a2 _ (skipn (length a2) z1)) in Sm; [|lia]. set (z2 := skipn _ z1) in *. clearbody z2.
  rewrite hevc_write_exact by (auto; lia). rewrite Z2. destruct (fill_array _ pl) as [P| | |] eqn:EP; cbn [bind]; try reflexivity.
  set (a3 := hevc_array P) in *.
  cbn [mkw bb_data bb_offset]. pose proof (slice_app_mid [] (((h ++ a1) ++ a2) ++ a3) (skipn (length a3) z2)) as Sl. cbn [app] in Sl. change (zlen (@nil Z)) with 0 in Sl. rewrite Z.add_0_l in Sl. rewrite Sl.
  cbn [of_opt]. now rewrite <- !app_assoc.
Qed.

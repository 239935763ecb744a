(** * AnnexbProofs: AnnexB2AVCC, hevc.Mp4ToAnnexB, ParseNalUnits. *)
From Verif Require Import Base BufioModel BytesSpec BytesProofs RingProofs NaluModel NaluSpec NaluProofs SplitProofs AvccProofs.

Lemma skip_zeros_spec : forall d f pre, (length d < f)%nat ->
  exists z d', d = z ++ d' /\ Forall (fun b => b = 0) z /\ hd 1 d' <> 0 /\ skip_zeros f (pre ++ d) (zlen pre) = Ok (zlen (pre ++ z)).
Proof.
  induction d as [|x d IH]; intros f pre Hf; (destruct f as [|f]; [cbn in Hf; lia|]); cbn [skip_zeros].
  - exists [], []. rewrite !app_nil_r, Z.ltb_irrefl. cbn. repeat split; auto; lia.
  - rewrite zlen_app, zlen_cons. pose proof (zlen_nonneg d). replace (zlen pre <? _) with true by lia. rewrite idx_app_mid. cbn [of_opt bind].
    destruct (x =? 0) eqn:E.
    + destruct (IH f (pre ++ [x])) as (z & d' & -> & Z0 & H1 & E2); [cbn in Hf; lia|]. exists (x :: z), d'. split; [reflexivity|]. split; [constructor; [lia|auto]|]. split; [auto|].
      rewrite <- app_assoc in E2. cbn [app] in E2. rewrite zlen_app in E2. change (zlen [x]) with 1 in E2. rewrite E2. now rewrite <- app_assoc.
    + exists [], (x :: d). split; [reflexivity|]. split; [constructor|]. split; [cbn; lia|]. now rewrite app_nil_r.
Qed.

Lemma skip_zeros_none d f pre : (length d < f)%nat -> d <> [] -> hd 1 d <> 0 -> skip_zeros f (pre ++ d) (zlen pre) = Ok (zlen pre).
Proof.
  intros Hf N H. destruct f as [|f]; [lia|]. destruct d as [|x d]; [congruence|]. cbn [skip_zeros hd] in *. rewrite zlen_app, zlen_cons. pose proof (zlen_nonneg d).
  replace (zlen pre <? _) with true by lia. rewrite idx_app_mid. cbn [of_opt bind]. now replace (x =? 0) with false by lia.
Qed.

(** The part of one iteration after the unit has been delimited: [u] is the unit. *)
Lemma emit_unit pre u r out rest : zlen u < 2 ^ 32 -> 4 + zlen u <= zlen rest ->
  (dst1 <- write_sub (out ++ rest) (zlen out) (fun s => be_put 4 s (u32 (zlen u)));;
   bytes <- of_opt (slice (pre ++ u ++ r) (zlen pre) (zlen pre + zlen u));;
   of_opt (copy_at dst1 (zlen out + 4) bytes)) =
  Ok ((out ++ avcc [u]) ++ skipn (length (avcc [u])) rest).
Proof.
  intros Lu L. pose proof (zlen_nonneg u) as Nu.
  rewrite (write_sub_end out rest (fun s => be_put 4 s (u32 (zlen u))) (be_bytes 4 (zlen u) ++ skipn 4 rest)).
  2:{ unfold u32. rewrite Z.mod_small by lia. apply be_put_fits. lia. }
  cbn [bind]. rewrite slice_app_mid. cbn [of_opt bind]. rewrite app_assoc.
  assert (E4 : zlen (out ++ be_bytes 4 (zlen u)) = zlen out + 4) by (rewrite zlen_app; unfold zlen at 2; now rewrite be_bytes_length).
  rewrite <- E4, copy_at_end by (rewrite zlen_skipn_nat; unfold zlen in *; lia). cbn [of_opt avcc].
  rewrite skipn_skipn, !app_length, be_bytes_length, <- !app_assoc. cbn [length app]. do 4 f_equal. f_equal. lia.
Qed.

Lemma avcc1_len (n : list Z) : zlen (avcc [n]) = 4 + zlen n.
Proof. cbn [avcc]. rewrite !zlen_app. unfold zlen at 1. rewrite be_bytes_length. change (zlen (@nil Z)) with 0. lia. Qed.

(** One iteration on arbitrary data. *)
Lemma a2a_step f pre d out rest : bytes_ok d -> d <> [] -> zlen d < 2 ^ 32 -> 4 + zlen d <= zlen rest ->
  annexb2avcc_loop (S f) (pre ++ d) (out ++ rest) (zlen pre) (zlen out) = Ok (out ++ rest, zlen out) \/
  exists z u t, d = z ++ u ++ t /\ avcc_unit_ok u /\ Forall (fun b => b = 0) z /\
    (t = [] \/ exists four c r, t = sc four ++ c :: r) /\
    annexb2avcc_loop (S f) (pre ++ d) (out ++ rest) (zlen pre) (zlen out) =
    annexb2avcc_loop f (pre ++ d) ((out ++ avcc [u]) ++ skipn (length (avcc [u])) rest)
      (zlen (pre ++ z ++ u) + match t with [] => 0 | 0 :: 0 :: 0 :: 1 :: _ => 4 | _ => 3 end) (zlen (out ++ avcc [u])).
Proof.
  intros B N Ld L. cbn [annexb2avcc_loop]. pose proof (zlen_nonneg pre) as Np. pose proof (zlen_nonneg d) as Nd.
  assert (0 < zlen d) as Pd by (destruct d; [congruence|]; rewrite zlen_cons; pose proof (zlen_nonneg d); lia).
  assert ((zlen pre <? zlen (pre ++ d)) = true) as -> by (rewrite zlen_app; lia).
  destruct (skip_zeros_spec d (S (length (pre ++ d))) pre) as (z & d' & Ed & Z0 & H1 & E); [rewrite app_length; lia|]. rewrite E. cbn [bind].
  pose proof (zlen_nonneg z) as Nz. assert (Ep : pre ++ d = (pre ++ z) ++ d') by (rewrite Ed; apply app_assoc).
  destruct d' as [|x d'].
  - left. rewrite app_nil_r in Ep. rewrite Ep. now replace (zlen (pre ++ z) >=? zlen (pre ++ z)) with true by lia.
  - right. replace (zlen (pre ++ z) >=? zlen (pre ++ d)) with false by (rewrite Ep, (zlen_app (pre ++ z)), zlen_cons; pose proof (zlen_nonneg d'); lia).
    rewrite Ep, slice_from_app. cbn [of_opt bind]. cbn [hd] in H1.
    assert (Bx : bytes_ok (x :: d')) by (rewrite Ed in B; now apply bytes_ok_app in B).
    assert (Lx : zlen z + zlen (x :: d') = zlen d) by (rewrite Ed, zlen_app; lia).
    destruct (fsc_dec (x :: d') Bx) as [[_ E2]|(a & four & c & r & Eq & E2)]; rewrite E2; cbn [bind].
    + replace (-1 <? 0) with true by reflexivity. rewrite Z.sub_0_r. exists z, (x :: d'), []. rewrite app_nil_r. split; [exact Ed|].
      assert (0 < zlen (x :: d')) by (rewrite zlen_cons; pose proof (zlen_nonneg d'); lia).
      split; [split; [exact Bx|lia]|]. split; [auto|]. split; [auto|]. replace (zlen (x :: d') =? 0) with false by lia.
      pose proof (emit_unit (pre ++ z) (x :: d') [] out rest) as Em. rewrite app_nil_r in Em. specialize (Em ltac:(lia) ltac:(lia)).
      cbn [bind] in *. destruct (write_sub _ _ _) as [d1| | |]; [|discriminate Em..]. cbn [bind] in *.
      destruct (of_opt (slice _ _ _)) as [by_| | |]; [|discriminate Em..]. cbn [bind] in *. rewrite Em. cbn [bind]. f_equal.
      * now rewrite Z.add_0_r, (app_assoc pre), (zlen_app (pre ++ z)).
      * rewrite (zlen_app out), avcc1_len. lia.
    + pose proof (zlen_nonneg a) as Na. assert (0 < zlen a) as Pa. { destruct a; [destruct four; cbn in Eq; injection Eq as -> _; congruence|]. rewrite zlen_cons. pose proof (zlen_nonneg a). lia. }
      assert (0 < sc_len four) as Hs by (destruct four; cbn; lia). replace (zlen a + sc_len four <? 0) with false by lia. rewrite Z.add_simpl_r.
      replace (zlen a =? 0) with false by lia. exists z, a, (sc four ++ c :: r). split; [now rewrite Ed, Eq|].
      assert (La : zlen a <= zlen (x :: d')) by (rewrite Eq, zlen_app; pose proof (zlen_nonneg (sc four ++ c :: r)); lia).
      split; [split; [rewrite Eq in Bx; now apply bytes_ok_app in Bx|lia]|]. split; [auto|]. split; [eauto|]. rewrite Eq.
      pose proof (emit_unit (pre ++ z) a (sc four ++ c :: r) out rest ltac:(lia) ltac:(lia)) as Em.
      destruct (write_sub _ _ _) as [d1| | |]; [|discriminate Em..]. cbn [bind] in *.
      destruct (of_opt (slice _ _ _)) as [by_| | |]; [|discriminate Em..]. cbn [bind] in *. rewrite Em. cbn [bind]. f_equal.
      * rewrite app_assoc, (zlen_app (pre ++ z)). destruct four; cbn [sc app sc_len]; lia.
      * rewrite (zlen_app out), avcc1_len. lia.
Qed.

Lemma count_nonneg p : 0 <= count_sc p.
Proof. induction p as [|x p IH]; cbn [count_sc]; [lia|]. destruct x as [|?|?]; try lia. destruct p as [|[|?|?] [|[|[?|?|]|?] [|? ?]]]; lia. Qed.
Lemma count_app_le a b : count_sc b <= count_sc (a ++ b).
Proof.
  induction a as [|x a IH]; cbn [app]; [lia|]. change (count_sc (x :: a ++ b)) with ((match x :: a ++ b with 0 :: 0 :: 1 :: _ :: _ => 1 | _ => 0 end) + count_sc (a ++ b)).
  destruct (x :: a ++ b) as [|[|?|?] [|[|?|?] [|[|[?|?|]|?] [|? ?]]]]; lia.
Qed.
Lemma count_sc_app four c r : 1 + count_sc (c :: r) <= count_sc (sc four ++ c :: r).
Proof.
  pose proof (count_app_le [0; 0; 1] (c :: r)) as H. pose proof (count_app_le [0; 1] (c :: r)) as H2.
  assert (E : count_sc (0 :: 0 :: 1 :: c :: r) = 1 + count_sc (0 :: 1 :: c :: r)) by reflexivity.
  destruct four; cbn [sc app] in *; [|lia]. pose proof (count_app_le [0] (0 :: 0 :: 1 :: c :: r)) as H3. cbn [app] in H3. lia.
Qed.

Lemma avcc_app a b : avcc (a ++ b) = avcc a ++ avcc b.
Proof. induction a as [|n a IH]; cbn [avcc app]; [reflexivity|]. now rewrite IH, <- !app_assoc. Qed.

Lemma sc4_bytes_ok d : bytes_ok d -> forall a t, d = a ++ t -> bytes_ok t.
Proof. intros B a t ->. now apply bytes_ok_app in B. Qed.

Lemma a2a_total : forall f pre d out rest, bytes_ok d -> zlen d < 2 ^ 32 -> (length d < f)%nat -> (d <> [] -> 4 + zlen d + count_sc d <= zlen rest) ->
  exists units, Forall avcc_unit_ok units /\ zlen (avcc units) <= zlen rest /\
    annexb2avcc_loop f (pre ++ d) (out ++ rest) (zlen pre) (zlen out) =
    Ok ((out ++ avcc units) ++ skipn (length (avcc units)) rest, zlen (out ++ avcc units)).
Proof.
  induction f as [|f IH]; intros pre d out rest B Ld Hf HR; [lia|].
  destruct d as [|x d].
  { exists []. split; [constructor|]. split; [apply zlen_nonneg|]. cbn [annexb2avcc_loop avcc length skipn]. rewrite !app_nil_r. rewrite Z.ltb_irrefl. reflexivity. }
  specialize (HR ltac:(congruence)). pose proof (count_nonneg (x :: d)) as Nc.
  destruct (a2a_step f pre (x :: d) out rest B ltac:(congruence) Ld ltac:(lia)) as [E|(z & u & t & Ed & Hu & Z0 & Ht & E)].
  { exists []. split; [constructor|]. split; [apply zlen_nonneg|]. cbn [avcc length skipn]. rewrite !app_nil_r. exact E. }
  rewrite E. set (d0 := x :: d) in *. clear E.
  assert (La : zlen (avcc [u]) = 4 + zlen u) by (cbn [avcc]; rewrite !zlen_app; unfold zlen at 1; rewrite be_bytes_length; change (zlen (@nil Z)) with 0; lia).
  assert (Lzut : zlen d0 = zlen z + zlen u + zlen t) by (rewrite Ed, !zlen_app; lia). pose proof (zlen_nonneg z) as Nz. pose proof (zlen_nonneg t) as Nt. pose proof (zlen_nonneg u) as Nu.
  destruct Hu as [Bu Lu].
  assert (Lr : zlen (skipn (length (avcc [u])) rest) = zlen rest - (4 + zlen u)) by (rewrite zlen_skipn_nat; unfold zlen in *; lia).
  assert (Main : forall h t', t = h ++ t' -> zlen h = match t with [] => 0 | 0 :: 0 :: 0 :: 1 :: _ => 4 | _ => 3 end -> 
     (t' <> [] -> 4 + zlen t' + count_sc t' <= zlen rest - (4 + zlen u)) ->
     exists units, Forall avcc_unit_ok units /\ zlen (avcc units) <= zlen rest /\
      annexb2avcc_loop f (pre ++ d0) ((out ++ avcc [u]) ++ skipn (length (avcc [u])) rest)
        (zlen (pre ++ z ++ u) + match t with [] => 0 | 0 :: 0 :: 0 :: 1 :: _ => 4 | _ => 3 end) (zlen (out ++ avcc [u])) =
      Ok ((out ++ avcc units) ++ skipn (length (avcc units)) rest, zlen (out ++ avcc units))).
  { intros h t' Et Lh HR'. rewrite <- Lh. assert (Lt : zlen t = zlen h + zlen t') by (rewrite Et; apply zlen_app). pose proof (zlen_nonneg h) as Nh. pose proof (zlen_nonneg t') as Nt'.
    assert (Ep : pre ++ d0 = (pre ++ z ++ u ++ h) ++ t') by (rewrite Ed, Et, <- !app_assoc; reflexivity).
    assert (El : zlen (pre ++ z ++ u) + zlen h = zlen (pre ++ z ++ u ++ h)) by (rewrite !zlen_app; lia).
    rewrite Ep, El.
    destruct (IH (pre ++ z ++ u ++ h) t' (out ++ avcc [u]) (skipn (length (avcc [u])) rest)) as (us & F & Lus & Eu).
    - apply (sc4_bytes_ok d0 B (z ++ u ++ h)). rewrite Ed, Et, <- !app_assoc. reflexivity.
    - lia.
    - unfold zlen in *. lia.
    - rewrite Lr. exact HR'.
    - exists (u :: us). split; [constructor; [split; auto|auto]|]. split.
      + change (u :: us) with ([u] ++ us). rewrite avcc_app, zlen_app. lia.
      + rewrite Eu. change (u :: us) with ([u] ++ us). rewrite avcc_app, skipn_skipn, !app_length, <- !app_assoc. do 4 f_equal; try lia. }
  destruct Ht as [->|(four & c & r & Et)].
  - apply (Main [] []); [reflexivity|reflexivity|congruence].
  - apply (Main (sc four) (c :: r)); [exact Et|subst t; now destruct four|]. intros _.
    pose proof (count_sc_app four c r) as C1. rewrite <- Et in C1. pose proof (count_app_le (z ++ u) t) as C2. rewrite <- app_assoc, <- Ed in C2.
    assert (zlen t = sc_len four + zlen (c :: r)) as Lt by (rewrite Et, zlen_app, zlen_sc; lia).
    assert (3 <= sc_len four) by (destruct four; cbn; lia). lia.
Qed.

Lemma annexb2avcc_total p dst : bytes_ok p -> zlen p < 2 ^ 32 -> zlen p + count_sc p <= zlen dst ->
  exists units, Forall avcc_unit_ok units /\ zlen (avcc units) <= zlen dst /\
    annexb2avcc dst p = Ok (avcc units ++ skipn (length (avcc units)) dst, zlen (avcc units)).
Proof.
  intros B L Ld. unfold annexb2avcc. destruct (fsc_dec p B) as [[_ E]|(a & four & c & r & Ep & E)]; rewrite E; cbn [bind].
  - exists []. split; [constructor|]. split; [apply zlen_nonneg|]. reflexivity.
  - pose proof (zlen_nonneg a) as Na. assert (3 <= sc_len four) as Hs by (destruct four; cbn; lia). replace (zlen a + sc_len four <? 0) with false by lia.
    assert (Eq : p = (a ++ sc four) ++ c :: r) by (rewrite Ep; now rewrite <- app_assoc).
    assert (El : zlen a + sc_len four = zlen (a ++ sc four)) by (now rewrite zlen_app, zlen_sc). rewrite El.
    assert (Lp : zlen p = zlen (a ++ sc four) + zlen (c :: r)) by (rewrite Eq; apply zlen_app).
    pose proof (count_sc_app four c r) as C1. pose proof (count_app_le a (sc four ++ c :: r)) as C2. rewrite <- Ep in C2.
    assert (Hf : (length (c :: r) < S (length p))%nat) by (unfold zlen in *; lia). set (fu := S (length p)) in *. clearbody fu.
    destruct (a2a_total fu (a ++ sc four) (c :: r) [] dst) as (us & F & Lu & Eu); [rewrite Eq in B; now apply bytes_ok_app in B|lia|exact Hf|intros _; lia|].
    exists us. rewrite Eq. auto.
Qed.

(** Well-formed units. *)
Definition a2a_unit (u : bool * list Z) : Prop := unit_ok u /\ hd 0 (snd u) <> 0 /\ zlen (snd u) < 2 ^ 32.

Lemma a2a_unit_step f pre n r out rest nalEnd k : nalu_ok n -> hd 0 n <> 0 -> zlen n < 2 ^ 32 -> 4 + zlen n <= zlen rest ->
  (r = [] /\ nalEnd = zlen n \/ find_start_code (n ++ r) = Ok (nalEnd, k) /\ 0 <= nalEnd /\ nalEnd - k = zlen n) ->
  annexb2avcc_loop (S f) (pre ++ n ++ r) (out ++ rest) (zlen pre) (zlen out) =
  annexb2avcc_loop f (pre ++ n ++ r) ((out ++ avcc [n]) ++ skipn (length (avcc [n])) rest) (zlen pre + nalEnd) (zlen (out ++ avcc [n])).
Proof.
  intros Hn Hh Hl HR Hr. cbn [annexb2avcc_loop]. pose proof (zlen_nonneg pre) as Np. pose proof (zlen_nonneg r) as Nr.
  assert (Hnil : n <> []) by apply Hn.
  assert (0 < zlen n) as Pn by (destruct n; [congruence|]; rewrite zlen_cons; pose proof (zlen_nonneg n); lia).
  assert ((zlen pre <? zlen (pre ++ n ++ r)) = true) as -> by (rewrite !zlen_app; lia).
  rewrite skip_zeros_none; [|rewrite !app_length; lia|destruct n; [congruence|discriminate]|destruct n; [congruence|exact Hh]]. cbn [bind].
  assert ((zlen pre >=? zlen (pre ++ n ++ r)) = false) as -> by (rewrite !zlen_app; lia). rewrite slice_from_app. cbn [of_opt bind].
  assert (exists x, find_start_code (n ++ r) = Ok x /\ (let '(e, k) := x in if e <? 0 then (zlen (n ++ r), 0) else (e, k)) = (nalEnd, nalEnd - zlen n)) as (x & E1 & E2).
  { destruct Hr as [[-> ->]|(E & H1 & H2)].
    - exists (-1, -1). rewrite app_nil_r. split; [now apply fsc_none, nalu_clean|]. now rewrite Z.sub_diag.
    - exists (nalEnd, k). split; [exact E|]. replace (nalEnd <? 0) with false by lia. f_equal. lia. }
  rewrite E1. cbn [bind]. destruct x as [e k']. rewrite E2. replace (nalEnd - (nalEnd - zlen n)) with (zlen n) by lia. replace (zlen n =? 0) with false by lia.
  pose proof (emit_unit pre n r out rest Hl HR) as Em.
  destruct (write_sub _ _ _) as [d1| | |]; [|discriminate Em..]. cbn [bind] in *.
  destruct (of_opt (slice _ _ _)) as [by_| | |]; [|discriminate Em..]. cbn [bind] in *. rewrite Em. cbn [bind].
  f_equal. rewrite (zlen_app out), avcc1_len. lia.
Qed.

Lemma a2a_units l : forall f pre n out rest, a2a_unit (true, n) -> Forall a2a_unit l -> (length l + 1 < f)%nat ->
  forall A, A = avcc (n :: map snd l) -> zlen A <= zlen rest ->
  annexb2avcc_loop f (pre ++ n ++ annexb l) (out ++ rest) (zlen pre) (zlen out) = Ok ((out ++ A) ++ skipn (length A) rest, zlen (out ++ A)).
Proof.
  induction l as [|[four m] l IH]; intros f pre n out rest (Hn & Hh & Hl) F Hf A EA HR; cbn [snd] in *; unfold unit_ok in Hn; cbn [snd] in Hn;
    (destruct f as [|f]; [cbn in Hf; lia|]).
  - cbn [map] in EA. cbn [annexb]. rewrite (a2a_unit_step f pre n [] out rest (zlen n) 0); auto; [|rewrite EA, avcc1_len in HR; lia]. rewrite <- EA, app_nil_r, <- zlen_app.
    destruct f as [|f]; [cbn in Hf; lia|]. cbn [annexb2avcc_loop]. rewrite Z.ltb_irrefl. reflexivity.
  - assert (Fu : Forall unit_ok ((four, m) :: l)) by (eapply Forall_impl; [|exact F]; intros ? [? _]; auto).
    assert (EA' : A = avcc [n] ++ avcc (m :: map snd l)) by (rewrite EA; now rewrite <- avcc_app).
    pose proof (zlen_nonneg n) as Nn. pose proof (zlen_nonneg (avcc (m :: map snd l))) as N2.
    assert (LA : zlen A = 4 + zlen n + zlen (avcc (m :: map snd l))) by (rewrite EA', zlen_app, avcc1_len; lia).
    rewrite (a2a_unit_step f pre n _ out rest (zlen n + sc_len four) (sc_len four)); auto; [|lia|].
    2:{ right. split; [now apply (fsc_units n ((four, m) :: l)); [apply nalu_clean|]|]. destruct four; cbn [sc_len]; lia. }
    cbn [annexb]. assert (Ep : pre ++ n ++ sc four ++ m ++ annexb l = (pre ++ n ++ sc four) ++ m ++ annexb l) by now rewrite <- !app_assoc.
    assert (El : zlen pre + (zlen n + sc_len four) = zlen (pre ++ n ++ sc four)) by (now rewrite !zlen_app, zlen_sc).
    rewrite Ep, El. apply Forall_cons_iff in F as [Hm F'].
    assert (Lr : zlen (skipn (length (avcc [n])) rest) = zlen rest - (4 + zlen n)) by (pose proof (avcc1_len n); rewrite zlen_skipn_nat; unfold zlen in *; lia).
    erewrite IH; [|exact Hm|exact F'|cbn in Hf; lia|reflexivity|lia]. rewrite EA', skipn_skipn, app_length, <- !app_assoc. do 4 f_equal; try lia.
Qed.

Lemma annexb2avcc_units l dst : l <> [] -> Forall a2a_unit l -> zlen (avcc (map snd l)) <= zlen dst ->
  annexb2avcc dst (annexb l) = Ok (avcc (map snd l) ++ skipn (length (avcc (map snd l))) dst, zlen (avcc (map snd l))).
Proof.
  intros N F L. destruct l as [|[four n] l]; [congruence|]. unfold annexb2avcc.
  assert (Fu : Forall unit_ok ((four, n) :: l)) by (eapply Forall_impl; [|exact F]; intros ? [? _]; auto).
  pose proof (fsc_units [] ((four, n) :: l) clean_nil Fu) as E. cbn [app] in E. change (zlen (@nil Z)) with 0 in E. rewrite E. cbn [bind]. rewrite Z.add_0_l.
  replace (sc_len four <? 0) with false by now destruct four. cbn [annexb map snd] in *. rewrite <- zlen_sc.
  apply Forall_cons_iff in F as [Hn F'].
  refine (a2a_units l _ (sc four) n [] dst Hn F' _ _ eq_refl L).
  pose proof (annexb_length l) as H. rewrite !app_length. destruct four; cbn [sc length]; lia.
Qed.

(** Units with leading zero bytes, which are skipped. *)
Lemma strip0_spec n : exists z, n = z ++ strip0 n /\ Forall (fun b => b = 0) z /\ hd 1 (strip0 n) <> 0.
Proof.
  induction n as [|x n (z & E & F & H)]; cbn [strip0]; [exists []; cbn; repeat split; auto; lia|].
  destruct (x =? 0) eqn:Ex.
  - exists (x :: z). split; [cbn [app]; now rewrite <- E|]. split; [constructor; [lia|auto]|auto].
  - exists []. cbn. repeat split; auto; lia.
Qed.
Lemma skip_zeros_prefix z : forall d f pre, Forall (fun b => b = 0) z -> (length z + length d < f)%nat -> d <> [] -> hd 1 d <> 0 ->
  skip_zeros f (pre ++ z ++ d) (zlen pre) = Ok (zlen (pre ++ z)).
Proof.
  induction z as [|x z IH]; intros d f pre F Hf N H.
  - rewrite app_nil_r. apply skip_zeros_none; auto; cbn in *; lia.
  - destruct f as [|f]; [cbn in Hf; lia|]. apply Forall_cons_iff in F as [-> F]. cbn [skip_zeros app]. pose proof (zlen_nonneg (z ++ d)).
    rewrite zlen_app, zlen_cons. replace (zlen pre <? _) with true by lia. rewrite idx_app_mid. cbn [of_opt bind]. rewrite Z.eqb_refl.
    specialize (IH d f (pre ++ [0]) F ltac:(cbn in Hf; lia) N H). rewrite <- !app_assoc in IH. cbn [app] in IH. rewrite zlen_app in IH. change (zlen [0]) with 1 in IH. exact IH.
Qed.
Lemma a2a_skip f pre z d dst s : Forall (fun b => b = 0) z -> d <> [] -> hd 1 d <> 0 ->
  annexb2avcc_loop (S f) (pre ++ z ++ d) dst (zlen pre) s = annexb2avcc_loop (S f) ((pre ++ z) ++ d) dst (zlen (pre ++ z)) s.
Proof.
  intros F N H. cbn [annexb2avcc_loop]. rewrite <- app_assoc. pose proof (zlen_nonneg pre). pose proof (zlen_nonneg z).
  assert (0 < zlen d) by (destruct d; [congruence|]; rewrite zlen_cons; pose proof (zlen_nonneg d); lia).
  replace (zlen pre <? zlen (pre ++ z ++ d)) with true by (rewrite !zlen_app; lia).
  replace (zlen (pre ++ z) <? zlen (pre ++ z ++ d)) with true by (rewrite !zlen_app; lia).
  rewrite skip_zeros_prefix; auto; [|rewrite !app_length; lia].
  pose proof (skip_zeros_none d (S (length (pre ++ z ++ d))) (pre ++ z)) as E. rewrite <- app_assoc in E. rewrite E; auto. rewrite !app_length. lia.
Qed.
Lemma strip0_ok n : nalu_ok n -> nalu_ok (strip0 n) /\ hd 0 (strip0 n) <> 0 /\ zlen (strip0 n) <= zlen n.
Proof.
  destruct (strip0_spec n) as (z & E & F & H). intros (B & N & L & P).
  assert (strip0 n <> []) as N'. { intros E0. rewrite E0, app_nil_r in E. rewrite <- E in F. apply L. clear -F N. induction F as [|x n -> F IH]; [congruence|]. destruct n; [reflexivity|]. apply IH. congruence. }
  split; [|split].
  - split; [rewrite E in B; now apply bytes_ok_app in B|]. split; [exact N'|]. split.
    + rewrite E in L. clear -L N'. induction z as [|x z IH]; [exact L|]. apply IH. cbn [app] in L. destruct (z ++ strip0 n) eqn:E; [|exact L]. apply app_eq_nil in E as [_ E]. congruence.
    + intros k (P0 & P1 & P2). apply (P (zlen z + k)). rewrite E. pose proof (idx_inv _ _ _ P0). pose proof (zlen_nonneg z).
      split; [|split]; rewrite idx_app_r by lia; [rewrite <- P0|rewrite <- P1|rewrite <- P2]; f_equal; lia.
  - destruct (strip0 n); [congruence|exact H].
  - rewrite E at 2. rewrite zlen_app. pose proof (zlen_nonneg z). lia.
Qed.

Definition a2a_any (u : bool * list Z) : Prop := unit_ok u /\ zlen (snd u) < 2 ^ 32.
Lemma a2a_any_units l : forall f pre n out rest, a2a_any (true, n) -> Forall a2a_any l -> (length l + 1 < f)%nat ->
  forall A, A = avcc (map strip0 (n :: map snd l)) -> zlen A <= zlen rest ->
  annexb2avcc_loop f (pre ++ n ++ annexb l) (out ++ rest) (zlen pre) (zlen out) = Ok ((out ++ A) ++ skipn (length A) rest, zlen (out ++ A)).
Proof.
  induction l as [|[four m] l IH]; intros f pre n0 out rest (Hn0 & Hl0) F Hf A EA HR; cbn [snd] in *; unfold unit_ok in Hn0; cbn [snd] in Hn0;
    (destruct f as [|f]; [cbn in Hf; lia|]); destruct (strip0_spec n0) as (z & En & Fz & Hz); destruct (strip0_ok n0 Hn0) as (Hn & Hh & Hl);
    cbn [map] in EA; set (n := strip0 n0) in *; clearbody n; subst n0; rewrite <- app_assoc; (rewrite a2a_skip; [|exact Fz|destruct n; cbn in *; congruence|destruct n; cbn in *; congruence]); set (pre' := pre ++ z) in *; clearbody pre'; assert (Hl1 : zlen n < 2 ^ 32) by lia.
  - cbn [annexb]. rewrite (a2a_unit_step f pre' n [] out rest (zlen n) 0); auto; [|rewrite EA, avcc1_len in HR; lia]. rewrite <- EA, app_nil_r, <- zlen_app.
    destruct f as [|f]; [cbn in Hf; lia|]. cbn [annexb2avcc_loop]. rewrite Z.ltb_irrefl. reflexivity.
  - assert (Fu : Forall unit_ok ((four, m) :: l)) by (eapply Forall_impl; [|exact F]; intros ? [? _]; auto).
    set (ms := map strip0 (m :: map snd l)) in *.
    assert (EA' : A = avcc [n] ++ avcc ms) by (rewrite EA; now rewrite <- avcc_app).
    pose proof (zlen_nonneg n) as Nn. pose proof (zlen_nonneg (avcc ms)) as N2.
    assert (LA : zlen A = 4 + zlen n + zlen (avcc ms)) by (rewrite EA', zlen_app, avcc1_len; lia).
    rewrite (a2a_unit_step f pre' n _ out rest (zlen n + sc_len four) (sc_len four)); auto; [|lia|].
    2:{ right. split; [now apply (fsc_units n ((four, m) :: l)); [apply nalu_clean|]|]. destruct four; cbn [sc_len]; lia. }
    cbn [annexb]. assert (Ep : pre' ++ n ++ sc four ++ m ++ annexb l = (pre' ++ n ++ sc four) ++ m ++ annexb l) by now rewrite <- !app_assoc.
    assert (El : zlen pre' + (zlen n + sc_len four) = zlen (pre' ++ n ++ sc four)) by (now rewrite !zlen_app, zlen_sc).
    rewrite Ep, El. apply Forall_cons_iff in F as [Hm F'].
    assert (Lr : zlen (skipn (length (avcc [n])) rest) = zlen rest - (4 + zlen n)) by (pose proof (avcc1_len n); rewrite zlen_skipn_nat; unfold zlen in *; lia).
    erewrite IH; [|exact Hm|exact F'|cbn in Hf; lia|reflexivity|fold ms; lia]. fold ms. rewrite EA', skipn_skipn, app_length, <- !app_assoc. do 4 f_equal; try lia.
Qed.

Lemma annexb2avcc_any l dst : l <> [] -> Forall a2a_any l -> zlen (avcc (map strip0 (map snd l))) <= zlen dst ->
  annexb2avcc dst (annexb l) = Ok (avcc (map strip0 (map snd l)) ++ skipn (length (avcc (map strip0 (map snd l)))) dst, zlen (avcc (map strip0 (map snd l)))).
Proof.
  intros N F L. destruct l as [|[four n] l]; [congruence|]. unfold annexb2avcc.
  assert (Fu : Forall unit_ok ((four, n) :: l)) by (eapply Forall_impl; [|exact F]; intros ? [? _]; auto).
  pose proof (fsc_units [] ((four, n) :: l) clean_nil Fu) as E. cbn [app] in E. change (zlen (@nil Z)) with 0 in E. rewrite E. cbn [bind]. rewrite Z.add_0_l.
  replace (sc_len four <? 0) with false by now destruct four. cbn [annexb map snd] in *. rewrite <- zlen_sc.
  apply Forall_cons_iff in F as [Hn F'].
  refine (a2a_any_units l _ (sc four) n [] dst Hn F' _ _ eq_refl L).
  pose proof (annexb_length l) as H. rewrite !app_length. destruct four; cbn [sc length]; lia.
Qed.

(** annexb_norm is a particular annexb. *)
Definition norm (l : list (list Z)) : list (bool * list Z) := match l with [] => [] | n :: r => (true, n) :: map (fun m => (false, m)) r end.
Lemma annexb_of_norm l : annexb (norm l) = annexb_norm l.
Proof.
  destruct l as [|n r]; cbn [norm annexb annexb_norm]; [reflexivity|]. do 2 f_equal.
  induction r as [|m r IH]; cbn [map annexb concat]; [reflexivity|]. now rewrite IH, <- app_assoc.
Qed.
Lemma norm_snd l : map snd (norm l) = l.
Proof. destruct l as [|n r]; cbn; [reflexivity|]. f_equal. rewrite map_map. apply map_id. Qed.

(* ---------------------------------------------------------------------------------------- *)
(** ** ParseNalUnits *)
Lemma parse_nal_units_never p : bytes_ok p ->
  (exists k, sc_at p k) /\ (forall f, parse_nal_units f p = NoFuel) \/
  (forall k, ~ sc_at p k) /\ (forall f, parse_nal_units (S f) p = Panic).
Proof.
  intros B. destruct (fsc_spec p B) as [(k & [S F] & E)|[N E]].
  - left. split; [eauto|]. destruct (idx_some p (k + 3)) as [v Ev]. { destruct S as [[P _] L]. apply idx_inv in P. lia. }
    induction f as [|f IH]; cbn [parse_nal_units]; [reflexivity|]. rewrite E. cbn [bind]. rewrite Ev. cbn [of_opt bind]. exact IH.
  - right. split; [exact N|]. intros f. cbn [parse_nal_units]. rewrite E. reflexivity.
Qed.

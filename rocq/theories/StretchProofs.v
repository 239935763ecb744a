(** * StretchProofs: AnnexB2AVCC on arbitrary bytes and buffers. *)
From Verif Require Import Base BufioModel BytesSpec BytesProofs RingProofs NaluModel NaluSpec NaluProofs SplitProofs AvccProofs AnnexbProofs StretchSpec.

Lemma strip0_zeros z d : Forall (fun b => b = 0) z -> hd 1 d <> 0 -> strip0 (z ++ d) = d.
Proof.
  intros F H. induction F as [|x z -> F IH]; cbn [app strip0]; [|exact IH]. destruct d as [|x d]; [reflexivity|]. cbn [strip0 hd] in *. now replace (x =? 0) with false by lia.
Qed.

Lemma be_bytes_u32 v : be_bytes 4 (u32 v) = be_bytes 4 v.
Proof.
  unfold u32. cbn [be_bytes]. change (Z.of_nat 3) with 3. change (Z.of_nat 2) with 2. change (Z.of_nat 1) with 1. change (Z.of_nat 0) with 0. 
  change (2 ^ 32) with 4294967296. change (256 ^ 3) with 16777216. change (256 ^ 2) with 65536. change (256 ^ 1) with 256. change (256 ^ 0) with 1.
  repeat (apply (f_equal2 (@cons Z)); [Z.div_mod_to_equations; lia|]). reflexivity.
Qed.

Lemma first_sc_nil k : ~ first_sc [] k.
Proof. intros [[[P _] _] _]. apply idx_inv in P. change (zlen (@nil Z)) with 0 in P. lia. Qed.
Lemma stretch_nil us : stretch [] us -> us = [].
Proof. intros H. inversion H as [|? N|? k ? F]; subst; auto; [cbn in N; congruence|]. now apply first_sc_nil in F. Qed.

Lemma found_unique p us1 us2 : found_units p us1 -> found_units p us2 -> us1 = us2.
Proof.
  assert (U : forall d u1, stretch d u1 -> forall u2, stretch d u2 -> u1 = u2).
  { intros d u1 H. induction H as [r E|r N C|r k us F H IH]; intros u2 H2; inversion H2 as [? E'|? N' C'|? k' us' F' H']; subst; try congruence.
    - rewrite E in F'. now apply first_sc_nil in F'.
    - destruct F' as [F' _]. now apply C in F'.
    - rewrite E' in F. now apply first_sc_nil in F.
    - destruct F as [F _]. now apply C' in F.
    - assert (k = k') by (eapply first_sc_unique; eauto). subst k'. f_equal. now apply IH. }
  intros [[N ->]|(k & F & S1)] [[N' ->]|(k' & F' & S2)]; auto.
  - destruct F' as [F' _]. now apply N in F'.
  - destruct F as [F _]. now apply N' in F.
  - assert (k = k') by (eapply first_sc_unique; eauto). subst k'. eapply U; eauto.
Qed.

Lemma strip0_split d : exists z, d = z ++ strip0 d /\ Forall (fun b => b = 0) z /\ hd 1 (strip0 d) <> 0.
Proof.
  induction d as [|x d (z & E & F & H)]; cbn [strip0]; [exists []; repeat split; auto; cbn; lia|].
  destruct (x =? 0) eqn:X; [exists (x :: z); cbn [app]; rewrite <- E; repeat split; auto; constructor; [lia|exact F]|exists []; repeat split; auto; cbn; lia].
Qed.
Lemma skip_zeros_at z d pre n : Forall (fun b => b = 0) z -> hd 1 d <> 0 -> (length (z ++ d) < n)%nat -> skip_zeros n (pre ++ z ++ d) (zlen pre) = Ok (zlen (pre ++ z)).
Proof.
  intros F H L. destruct (skip_zeros_spec (z ++ d) n pre L) as (z' & d' & E & F' & H' & ->). 
  assert (D : d = d') by (rewrite <- (strip0_zeros z d F H), <- (strip0_zeros z' d' F' H'); congruence). subst d'. apply app_inv_tail in E. now subst z'.
Qed.

(** One iteration: the unit is delimited. *)
Lemma a2a_delimit d : bytes_ok d ->
  (stretch d [] /\ forall f pre dst s, annexb2avcc_loop (S f) (pre ++ d) dst (zlen pre) s = Ok (dst, s)) \/
  exists z u h t, d = z ++ u ++ h ++ t /\ u <> [] /\ (forall us, stretch t us -> stretch d (u :: us)) /\
    forall f pre dst s, annexb2avcc_loop (S f) (pre ++ d) dst (zlen pre) s =
    (dst1 <- write_sub dst s (fun x => be_put 4 x (u32 (zlen u)));; dst2 <- of_opt (copy_at dst1 (s + 4) u);;
     annexb2avcc_loop f ((pre ++ z ++ u ++ h) ++ t) dst2 (zlen (pre ++ z ++ u ++ h)) (s + 4 + zlen u)).
Proof.
  intros B. pose proof (zlen_nonneg d) as Nd.
  destruct (Z.eq_dec (zlen d) 0) as [Z0|Pd].
  { left. assert (d = []) as -> by (destruct d; [reflexivity|rewrite zlen_cons in Z0; pose proof (zlen_nonneg d); lia]). split; [now constructor|]. intros. cbn [annexb2avcc_loop]. now rewrite app_nil_r, Z.ltb_irrefl. }
  destruct (strip0_split d) as (z & Ed & F0 & H1). remember (strip0 d) as l eqn:Es. pose proof (zlen_nonneg z) as Nz.
  assert (Sk : forall pre, skip_zeros (S (length (pre ++ d))) (pre ++ d) (zlen pre) = Ok (zlen (pre ++ z))).
  { intros pre. rewrite Ed. apply skip_zeros_at; auto. rewrite (app_length pre). lia. }
  assert (Lt : forall pre, (zlen pre <? zlen (pre ++ d)) = true) by (intros; rewrite zlen_app; pose proof (zlen_nonneg pre); lia).
  destruct l as [|x d'].
  - left. split; [constructor; congruence|]. intros. cbn [annexb2avcc_loop]. rewrite Lt, Sk. cbn [bind]. rewrite app_nil_r in Ed. assert ((zlen (pre ++ z) >=? zlen (pre ++ d)) = true) as -> by (rewrite Ed; lia). reflexivity.
  - right.
    assert (Ge : forall pre, (zlen (pre ++ z) >=? zlen (pre ++ d)) = false) by (intros; rewrite Ed, app_assoc, (zlen_app (pre ++ z)), zlen_cons; pose proof (zlen_nonneg d'); lia).
    assert (Sf : forall pre, slice_from (pre ++ d) (zlen (pre ++ z)) = Some (x :: d')) by (intros; rewrite Ed, app_assoc; apply slice_from_app).
    assert (Bx : bytes_ok (x :: d')) by (rewrite Ed in B; now apply bytes_ok_app in B).
    assert (0 < zlen (x :: d')) as Px by (rewrite zlen_cons; pose proof (zlen_nonneg d'); lia).
    destruct (fsc_spec (x :: d') Bx) as [(k & F & E2)|[C E2]].
    + pose proof F as [[[P0 _] Lk] _]. apply idx_inv in P0.
      assert (Hk : 1 <= k + 3 - sc_len_at (x :: d') k).
      { unfold sc_len_at. cbn [hd] in H1. destruct (Z.eq_dec k 0) as [->|N]. { destruct F as [[[Q _] _] _]. cbn in Q. congruence. }
        destruct (Z.eq_dec k 1) as [->|N1]; [change (idx (x :: d') (1 - 1)) with (Some x); destruct x; try congruence; lia|]. destruct (idx (x :: d') (k - 1)) as [[|q|q]|]; lia. }
      set (m := k + 3 - sc_len_at (x :: d') k) in *.
      assert (Lm : m <= k) by (unfold m, sc_len_at; destruct (idx (x :: d') (k - 1)) as [[|q|q]|]; lia).
      set (l := x :: d') in *. exists z, (firstn (Z.to_nat m) l), (firstn (Z.to_nat (k + 3 - m)) (skipn (Z.to_nat m) l)), (skipn (Z.to_nat (k + 3)) l).
      assert (Lu : zlen (firstn (Z.to_nat m) l) = m) by (unfold zlen in *; rewrite firstn_length; lia).
      assert (Lh : zlen (firstn (Z.to_nat (k + 3 - m)) (skipn (Z.to_nat m) l)) = k + 3 - m) by (unfold zlen in *; rewrite firstn_length, skipn_length; lia).
      assert (El : firstn (Z.to_nat m) l ++ firstn (Z.to_nat (k + 3 - m)) (skipn (Z.to_nat m) l) ++ skipn (Z.to_nat (k + 3)) l = l).
      { rewrite <- (firstn_skipn (Z.to_nat m) l) at 4. f_equal. rewrite <- (firstn_skipn (Z.to_nat (k + 3 - m)) (skipn (Z.to_nat m) l)) at 2. f_equal. rewrite skipn_skipn. f_equal. lia. }
      split; [now rewrite El|]. split. { intros E0. rewrite E0 in Lu. change (zlen (@nil Z)) with 0 in Lu. lia. }
      split. { intros us S1. unfold m. rewrite Es. apply St_next; rewrite <- Es; assumption. }
      intros f pre dst s. cbn [annexb2avcc_loop]. rewrite Lt, Sk. cbn [bind]. rewrite Ge, Sf. cbn [of_opt bind]. rewrite E2. cbn [bind]. replace (k + 3 <? 0) with false by lia.
      fold m. replace (m =? 0) with false by lia. rewrite Lu.
      assert (Eq : (pre ++ z ++ firstn (Z.to_nat m) l ++ firstn (Z.to_nat (k + 3 - m)) (skipn (Z.to_nat m) l)) ++ skipn (Z.to_nat (k + 3)) l = pre ++ d)
        by (rewrite Ed, <- !app_assoc, El; reflexivity).
      rewrite Eq.
      assert (Sl : slice (pre ++ d) (zlen (pre ++ z)) (zlen (pre ++ z) + m) = Some (firstn (Z.to_nat m) l)).
      { pose proof (slice_app_mid (pre ++ z) (firstn (Z.to_nat m) l) (skipn (Z.to_nat m) l)) as Q. rewrite firstn_skipn, Lu, <- app_assoc, <- Ed in Q. exact Q. }
      rewrite Sl. cbn [of_opt bind].
      replace (zlen (pre ++ z ++ firstn (Z.to_nat m) l ++ firstn (Z.to_nat (k + 3 - m)) (skipn (Z.to_nat m) l))) with (zlen (pre ++ z) + (k + 3)) by (rewrite !zlen_app; lia). reflexivity.
    + exists z, (x :: d'), [], []. split; [now rewrite app_nil_r|]. split; [congruence|].
      split. { intros us S1. apply stretch_nil in S1 as ->. rewrite Es. apply St_last; rewrite <- Es; [congruence|exact C]. }
      intros f pre dst s. cbn [annexb2avcc_loop]. rewrite Lt, Sk. cbn [bind]. rewrite Ge, Sf. cbn [of_opt bind]. rewrite E2. cbn [bind].
      replace (-1 <? 0) with true by reflexivity. rewrite Z.sub_0_r. replace (zlen (x :: d') =? 0) with false by lia.
      cbn [app]. rewrite !app_nil_r, <- Ed.
      assert (Sl : slice (pre ++ d) (zlen (pre ++ z)) (zlen (pre ++ z) + zlen (x :: d')) = Some (x :: d')).
      { pose proof (slice_app_mid (pre ++ z) (x :: d') []) as Q. rewrite app_nil_r, <- app_assoc, <- Ed in Q. exact Q. }
      rewrite Sl. cbn [of_opt bind]. replace (zlen (pre ++ d)) with (zlen (pre ++ z) + zlen (x :: d')) by (rewrite Ed, !zlen_app; lia). reflexivity.
Qed.

Lemma emit_short out rest u : 4 <= zlen rest -> zlen rest < 4 + zlen u ->
  (dst1 <- write_sub (out ++ rest) (zlen out) (fun s => be_put 4 s (u32 (zlen u)));; of_opt (copy_at dst1 (zlen out + 4) u)) = Ok (out ++ firstn (length rest) (avcc [u])).
Proof.
  intros L4 L. rewrite (write_sub_end out rest (fun s => be_put 4 s (u32 (zlen u))) (be_bytes 4 (zlen u) ++ skipn 4 rest)) by (rewrite be_put_fits, be_bytes_u32 by lia; reflexivity).
  cbn [bind]. rewrite app_assoc. assert (E4 : zlen (out ++ be_bytes 4 (zlen u)) = zlen out + 4) by (rewrite zlen_app; unfold zlen at 2; now rewrite be_bytes_length).
  rewrite <- E4. rewrite copy_at_some by (rewrite (zlen_app (out ++ _)); pose proof (zlen_nonneg (skipn 4 rest)); pose proof (zlen_nonneg (out ++ be_bytes 4 (zlen u))); lia).
  cbn [of_opt]. f_equal. replace (Z.to_nat (zlen (out ++ be_bytes 4 (zlen u)))) with (length (out ++ be_bytes 4 (zlen u))) by (unfold zlen; lia). rewrite firstn_app, firstn_all, Nat.sub_diag, skipn_app, skipn_all, Nat.sub_diag. set (r4 := skipn 4 rest). cbn [firstn skipn app]. rewrite app_nil_r, <- app_assoc. f_equal.
  cbn [avcc]. rewrite app_nil_r, firstn_app, be_bytes_length, firstn_all2 by (rewrite be_bytes_length; unfold zlen in *; lia). f_equal.
  unfold copy, r4. rewrite !skipn_length, skipn_skipn. rewrite (skipn_all2 rest) by (unfold zlen in *; lia). now rewrite app_nil_r.
Qed.

Lemma emit_fits out rest u : 4 + zlen u <= zlen rest ->
  (dst1 <- write_sub (out ++ rest) (zlen out) (fun s => be_put 4 s (u32 (zlen u)));; of_opt (copy_at dst1 (zlen out + 4) u)) = Ok ((out ++ avcc [u]) ++ skipn (length (avcc [u])) rest).
Proof.
  intros L. pose proof (zlen_nonneg u) as Nu. rewrite (write_sub_end out rest (fun s => be_put 4 s (u32 (zlen u))) (be_bytes 4 (zlen u) ++ skipn 4 rest)) by (rewrite be_put_fits, be_bytes_u32 by lia; reflexivity).
  cbn [bind]. rewrite app_assoc. assert (E4 : zlen (out ++ be_bytes 4 (zlen u)) = zlen out + 4) by (rewrite zlen_app; unfold zlen at 2; now rewrite be_bytes_length).
  rewrite <- E4, copy_at_end by (rewrite zlen_skipn_nat; unfold zlen in *; lia). cbn [of_opt avcc].
  rewrite skipn_skipn, !app_length, be_bytes_length, <- !app_assoc. cbn [length app]. do 4 f_equal. f_equal. lia.
Qed.

Lemma emit_none out rest v : zlen rest < 4 -> write_sub (out ++ rest) (zlen out) (fun s => be_put 4 s v) = Panic.
Proof. intros L. unfold write_sub. rewrite slice_from_app. cbn [of_opt bind]. unfold be_put. change (Z.of_nat 4) with 4. now replace (zlen rest <? 4) with true by lia. Qed.
Lemma emit_beyond dst s v : zlen dst < s -> write_sub dst s (fun x => be_put 4 x v) = Panic.
Proof. intros L. unfold write_sub, slice_from. rewrite slice_none by lia. reflexivity. Qed.

Lemma a2a_exact : forall f d, bytes_ok d -> (length d < f)%nat -> exists us, stretch d us /\
  (forall pre out rest, annexb2avcc_loop f (pre ++ d) (out ++ rest) (zlen pre) (zlen out) =
     match stored (zlen rest) us with Some b => Ok (out ++ b ++ skipn (length b) rest, zlen out + zlen (avcc us)) | None => Panic end) /\
  (forall pre dst s, zlen dst < s -> annexb2avcc_loop f (pre ++ d) dst (zlen pre) s = match us with [] => Ok (dst, s) | _ => Panic end).
Proof.
  induction f as [|f IH]; intros d B Hf; [lia|]. destruct (a2a_delimit d B) as [[S0 E]|(z & u & h & t & Ed & Nu & St & E)].
  - exists []. split; [exact S0|]. split; [|intros; apply E]. intros. rewrite E. cbn [stored app skipn length avcc]. change (zlen (@nil Z)) with 0. now rewrite Z.add_0_r.
  - assert (Bt : bytes_ok t) by (rewrite Ed in B; do 3 (apply bytes_ok_app in B as [_ B]); exact B).
    assert (Lt : (length t < f)%nat) by (rewrite Ed, !app_length in Hf; destruct u; [congruence|]; cbn [length] in Hf; lia).
    destruct (IH t Bt Lt) as (us & S1 & In & Out). exists (u :: us). split; [now apply St|]. split.
    + intros pre out rest. rewrite E. cbn [stored]. destruct (zlen rest <? 4) eqn:L4; [rewrite emit_none by lia; reflexivity|].
      destruct (4 + zlen u <=? zlen rest) eqn:Lu.
      * pose proof (emit_fits out rest u ltac:(lia)) as Em. destruct (write_sub _ _ _) as [d1| | |]; [|discriminate Em..]. cbn [bind] in *. rewrite Em. cbn [bind].
        replace (zlen out + 4 + zlen u) with (zlen (out ++ avcc [u])) by (rewrite zlen_app, avcc1_len; lia). rewrite In.
        assert (Lr : zlen (skipn (length (avcc [u])) rest) = zlen rest - (4 + zlen u)) by (rewrite <- avcc1_len; rewrite zlen_skipn_nat; [reflexivity|]; pose proof (avcc1_len u); unfold zlen in *; lia).
        rewrite Lr. destruct (stored (zlen rest - (4 + zlen u)) us) as [b|]; [|reflexivity]. do 2 f_equal.
        -- rewrite <- !app_assoc. do 3 f_equal. rewrite skipn_skipn, app_length. now rewrite Nat.add_comm.
        -- change (u :: us) with ([u] ++ us). rewrite avcc_app, !zlen_app. lia.
      * pose proof (emit_short out rest u ltac:(lia) ltac:(lia)) as Em. destruct (write_sub _ _ _) as [d1| | |]; [|discriminate Em..]. cbn [bind] in *. rewrite Em. cbn [bind].
        assert (La : zlen (avcc [u]) = 4 + zlen u) by apply avcc1_len.
        assert (Lf : length (firstn (length rest) (avcc [u])) = length rest) by (rewrite firstn_length; unfold zlen in *; lia).
        rewrite Out by (rewrite zlen_app; unfold zlen at 2; rewrite Lf; fold (zlen rest); lia). destruct us; [|reflexivity].
        replace (Z.to_nat (zlen rest)) with (length rest) by (unfold zlen; lia). rewrite Lf, skipn_all, app_nil_r, La. do 2 f_equal. lia.
    + intros pre dst s L. rewrite E, emit_beyond by lia. reflexivity.
Qed.

Lemma annexb2avcc_all p dst : bytes_ok p -> exists us, found_units p us /\
  annexb2avcc dst p = match stored (zlen dst) us with Some b => Ok (b ++ skipn (length b) dst, zlen (avcc us)) | None => Panic end.
Proof.
  intros B. unfold annexb2avcc. destruct (fsc_spec p B) as [(k & F & E)|[C E]]; rewrite E; cbn [bind].
  - pose proof F as [[[P0 _] Lk] _]. apply idx_inv in P0. replace (k + 3 <? 0) with false by lia.
    assert (Bt : bytes_ok (skipn (Z.to_nat (k + 3)) p)) by (rewrite <- (firstn_skipn (Z.to_nat (k + 3)) p) in B; now apply bytes_ok_app in B).
    destruct (a2a_exact (S (length p)) _ Bt) as (us & S1 & In & _); [rewrite skipn_length; lia|]. exists us. split; [right; eauto|].
    specialize (In (firstn (Z.to_nat (k + 3)) p) [] dst). rewrite firstn_skipn in In. cbn [app] in In. change (zlen (@nil Z)) with 0 in In. rewrite Z.add_0_l in In.
    replace (zlen (firstn (Z.to_nat (k + 3)) p)) with (k + 3) in In by (unfold zlen in *; rewrite firstn_length; lia). exact In.
  - exists []. split; [left; auto|]. reflexivity.
Qed.

Lemma stored_fits us : forall room, zlen (avcc us) <= room -> stored room us = Some (avcc us).
Proof.
  induction us as [|u us IH]; intros room L; cbn [stored]; [reflexivity|]. change (u :: us) with ([u] ++ us) in *. rewrite avcc_app, zlen_app, avcc1_len in L. pose proof (zlen_nonneg (avcc us)). pose proof (zlen_nonneg u).
  replace (room <? 4) with false by lia. replace (4 + zlen u <=? room) with true by lia. rewrite IH by lia. now rewrite avcc_app.
Qed.
Lemma stored_short us : forall room b, stored room us = Some b -> zlen b = Z.min room (zlen (avcc us)) \/ us = [].
Proof.
  induction us as [|u us IH]; intros room b E; [auto|]. left. cbn [stored] in E. change (u :: us) with ([u] ++ us). rewrite avcc_app, zlen_app, avcc1_len. pose proof (zlen_nonneg (avcc us)). pose proof (zlen_nonneg u).
  destruct (room <? 4) eqn:L4; [discriminate E|]. destruct (4 + zlen u <=? room) eqn:L.
  - destruct (stored _ us) as [b'|] eqn:E'; [|discriminate E]. assert (b = avcc [u] ++ b') by congruence. subst b. clear E. rewrite zlen_app, avcc1_len. destruct (IH _ _ E') as [Q| ->]; [lia|]. cbn in E'. injection E' as <-. cbn [avcc] in *. change (zlen (@nil Z)) with 0. lia.
  - destruct us; [|discriminate E]. assert (b = firstn (Z.to_nat room) (avcc [u])) by congruence. subst b. change (zlen (avcc [])) with 0. pose proof (avcc1_len u) as La. unfold zlen in *. rewrite firstn_length. lia.
Qed.

(** On well-formed byte streams these are the units, without their leading zero bytes. *)
Lemma strip0_app_ok n r : nalu_ok n -> strip0 (n ++ r) = strip0 n ++ r.
Proof.
  intros K. destruct (strip0_split n) as (z & E & F & H). destruct (strip0_ok n K) as ((_ & N & _) & _). 
  rewrite E at 1. rewrite <- app_assoc. apply strip0_zeros; [exact F|]. destruct (strip0 n); [congruence|exact H].
Qed.
Lemma cut_units n four m l : clean n -> unit_ok (four, m) -> Forall unit_ok l ->
  exists k, first_sc (n ++ annexb ((four, m) :: l)) k /\ k + 3 = zlen n + sc_len four /\ sc_len_at (n ++ annexb ((four, m) :: l)) k = sc_len four.
Proof.
  intros C Hm F. assert (Fu : Forall unit_ok ((four, m) :: l)) by (constructor; auto). pose proof (fsc_units n _ C Fu) as E. cbv beta iota in E.
  assert (B : bytes_ok (n ++ annexb ((four, m) :: l))).
  { apply bytes_ok_app. split; [apply C|]. clear -Fu. induction Fu as [|[f u] r Hu Fu IH]; cbn [annexb]; [constructor|]. destruct Hu as [Bu _]. cbn [snd] in Bu.
    apply bytes_ok_app. split; [destruct f; cbn [sc]; repeat constructor; unfold byte_ok; lia|]. apply bytes_ok_app. auto. }
  pose proof (zlen_nonneg n). assert (3 <= sc_len four) by (destruct four; cbn; lia).
  destruct (fsc_spec _ B) as [(k & Fk & E2)|[_ E2]]; rewrite E in E2; injection E2 as E3 E4; [exists k; auto|lia].
Qed.
Lemma stretch_units l : forall n, nalu_ok n -> Forall unit_ok l -> stretch (n ++ annexb l) (map strip0 (n :: map snd l)).
Proof.
  induction l as [|[four m] l IH]; intros n Hn F; destruct (strip0_ok n Hn) as (Hs & _).
  - cbn [annexb map]. rewrite app_nil_r. apply St_last; [apply Hs|]. intros k [P _]. now apply Hs in P.
  - apply Forall_cons_iff in F as [Hm F]. destruct (cut_units _ _ _ _ (nalu_clean _ Hs) Hm F) as (k & Fk & Ek & El). pose proof (zlen_nonneg (strip0 n)) as Nn. assert (0 < sc_len four) by (destruct four; cbn; lia).
    pose proof (strip0_app_ok n (annexb ((four, m) :: l)) Hn) as Es. cbn [map snd]. rewrite <- Es in Fk, El.
    replace (strip0 n) with (firstn (Z.to_nat (k + 3 - sc_len_at (strip0 (n ++ annexb ((four, m) :: l))) k)) (strip0 (n ++ annexb ((four, m) :: l)))).
    + apply St_next; [exact Fk|]. rewrite Es, Ek. replace (skipn _ _) with (m ++ annexb l).
      * apply (IH m); auto.
      * cbn [annexb]. rewrite app_assoc. rewrite <- zlen_sc, <- zlen_app. unfold zlen. rewrite Nat2Z.id, skipn_app, skipn_all, Nat.sub_diag. reflexivity.
    + rewrite El, Es, Ek. replace (Z.to_nat (zlen (strip0 n) + sc_len four - sc_len four)) with (length (strip0 n)) by (unfold zlen; lia). rewrite firstn_app, firstn_all, Nat.sub_diag. cbn [firstn]. apply app_nil_r.
Qed.
Lemma found_annexb l : Forall unit_ok l -> found_units (annexb l) (map strip0 (map snd l)).
Proof.
  intros F. destruct l as [|[four m] l]; [left; split; [|reflexivity]; intros k [[P _] _]; apply idx_inv in P; change (zlen (annexb [])) with 0 in P; lia|].
  apply Forall_cons_iff in F as [Hm F]. destruct (cut_units [] four m l clean_nil Hm F) as (k & Fk & Ek & _). cbn [app] in Fk. change (zlen (@nil Z)) with 0 in Ek. right. exists k. split; [exact Fk|].
  replace (skipn _ _) with (m ++ annexb l); [now apply (stretch_units l m)|]. rewrite Ek, Z.add_0_l. cbn [annexb]. rewrite <- zlen_sc. unfold zlen. rewrite Nat2Z.id, skipn_app, skipn_all, Nat.sub_diag. reflexivity.
Qed.

Lemma found_not_empty p us : found_units p us -> Forall (fun u => u <> [] /\ hd 0 u <> 0) us.
Proof.
  assert (Hst : forall d vs, stretch d vs -> Forall (fun u => u <> [] /\ hd 0 u <> 0) vs).
  { intros d u H. induction H as [|r N C|r k vs F H IH]; [constructor|constructor; [|constructor]|constructor; [|exact IH]].
    - destruct (strip0_split r) as (z & _ & _ & H). split; [exact N|]. destruct (strip0 r); [congruence|exact H].
    - destruct (strip0_split r) as (z & _ & _ & H1). destruct (strip0 r) as [|x d'] eqn:Es; [now apply first_sc_nil in F|].
      assert (Hk : 1 <= k + 3 - sc_len_at (x :: d') k).
      { destruct F as [[[P0 _] _] _]. pose proof (idx_inv _ _ _ P0). unfold sc_len_at. cbn [hd] in H1. destruct (Z.eq_dec k 0) as [->|N]. { cbn in P0. congruence. }
        destruct (Z.eq_dec k 1) as [->|N1]; [change (idx (x :: d') (1 - 1)) with (Some x); destruct x; try congruence; lia|]. destruct (idx (x :: d') (k - 1)) as [[|q|q]|]; lia. }
      replace (Z.to_nat (k + 3 - sc_len_at (x :: d') k)) with (S (Z.to_nat (k + 2 - sc_len_at (x :: d') k))) by lia. cbn [firstn hd] in *. split; [congruence|exact H1]. }
  intros [[_ ->]|(k & _ & H)]; [constructor|eauto].
Qed.

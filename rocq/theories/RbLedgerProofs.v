(** * RbLedgerProofs: the account of RbLedgerSpec is right. *)
From Verif Require Import Base CollectionsSpec BlockModel BlockSpec HeapProofs DirectProofs RBProofs RbFetchSpec RbFetchProofs RbLedgerSpec.

Definition old_entry (e : entry) : Prop := e_place e <> InRing.
Lemma old_not e : old_entry e -> in_ring e = false.
Proof. unfold old_entry, in_ring. destruct (e_place e); congruence. Qed.
Lemma shows_in data k e : shows data k e -> in_ring e = true.
Proof. intros (P & _). unfold in_ring. now rewrite P. Qed.

Lemma filter_old l : Forall old_entry l -> filter in_ring l = [].
Proof. induction 1 as [|e l H _ IH]; [reflexivity|]. cbn [filter]. now rewrite (old_not _ H). Qed.
Lemma filter_ring data f l : Forall2 (shows data) f l -> filter in_ring l = l.
Proof. induction 1 as [|k e f l H _ IH]; [reflexivity|]. cbn [filter]. rewrite (shows_in _ _ _ H). now f_equal. Qed.
Lemma exists_old l : Forall old_entry l -> existsb in_ring l = false.
Proof. induction 1 as [|e l H _ IH]; [reflexivity|]. cbn [existsb]. now rewrite (old_not _ H). Qed.
Lemma release_old l : Forall old_entry l -> forall e t, in_ring e = true -> release (l ++ e :: t) = l ++ mkE (e_bytes e) (e_slice e) Gone :: t.
Proof. induction 1 as [|x l H _ IH]; intros e t E; cbn [app release]; [now rewrite E|]. rewrite (old_not _ H). f_equal. auto. Qed.
Lemma map_old l : Forall old_entry l -> map set_aside l = l.
Proof. induction 1 as [|e l H _ IH]; [reflexivity|]. cbn [map]. rewrite IH. unfold set_aside. now rewrite (old_not _ H). Qed.
Lemma set_aside_old e : old_entry (set_aside e).
Proof. unfold set_aside, old_entry, in_ring. destruct e as [b s []]; cbn; congruence. Qed.
Lemma all_aside l : Forall old_entry (map set_aside l).
Proof. apply Forall_map. apply Forall_forall. intros e _. apply set_aside_old. Qed.
Lemma open_old l : Forall old_entry l -> open_entry l = None.
Proof.
  intros F. unfold open_entry. destruct (snoc_cases l) as [->|(f & e & ->)]; [reflexivity|]. rewrite last_of_snoc. apply Forall_app in F as [_ F].
  rewrite (old_not e) by now inversion F. now destruct (e_slice e).
Qed.
Lemma open_snoc l e : open_entry (l ++ [e]) = match e_slice e with None => if in_ring e then Some (e_bytes e) else None | Some _ => None end.
Proof. unfold open_entry. now rewrite last_of_snoc. Qed.

Section Acc.
  Context (strict : bool).

  (** the bytes are still there *)
  Definition kept (h : heap) (r : rbuf) (e : entry) : Prop :=
    forall s, e_slice e = Some s -> 
    match e_place e with
    | Gone => True
    | InRing => read h s = Ok (e_bytes e)
    | Aside => read h s = Ok (e_bytes e) /\ s_arr s <> s_arr (d_data (rb_d r))
    end.
  Definition acc_inv (h : heap) (r : rbuf) (L : ledger) : Prop :=
    rb_wf h r /\ (strict = true -> layout (rb_capacity r) (map geo (d_blocks (rb_d r))) /\ Forall (kept h r) (l_held L)) /\
    l_owed L = rb_discard r /\ 0 <= l_lost L /\
    exists old ring, l_held L = old ++ ring /\ Forall old_entry old /\ Forall2 (shows (d_data (rb_d r))) (d_blocks (rb_d r)) ring /\
      zlen old = l_owed L + l_lost L /\
      exists f, RbFetchProofs.done f /\
      ((d_blocks (rb_d r) = f) \/
       exists k fr e, d_blocks (rb_d r) = f ++ [k] /\ ring = fr ++ [e] /\ bk_completed k = false /\ read h (blk_slice (d_data (rb_d r)) k) = Ok (e_bytes e)).

  Lemma acc_open h r L : acc_inv h r L -> open_inv h r (open_entry (l_held L)) /\
    exists old fr, Forall old_entry old /\ before_open (l_held L) = old ++ fr /\ zlen old = l_owed L + l_lost L /\
      forall head tail c front ob, rb_pick r = (head, tail, c, front, ob) -> Forall2 (shows (d_data (rb_d r))) front fr.
  Proof.
    intros (W & _ & Ow & Ls & old & ring & Eh & Fo & Fs & Lo & f & Df & [Ef|(k & fr & e & Eb & -> & Ck & R)]).
    - assert (On : open_entry (l_held L) = None).
      { rewrite Eh. destruct (snoc_cases ring) as [->|(g & e & ->)]; [rewrite app_nil_r; now apply open_old|]. rewrite app_assoc, open_snoc.
        destruct (snoc_cases f) as [->|(f' & k & ->)]; [rewrite Ef in Fs; inversion Fs; now destruct g|]. rewrite Ef in Fs. apply Forall2_snoc_inv in Fs as (m & y & E & _ & (_ & _ & S)).
        apply app_inj_tail in E as [_ <-]. apply Forall_app in Df as [_ Dk]. assert (bk_completed k = true) as Ck by now inversion Dk. rewrite Ck in S. now rewrite S. }
      split; [rewrite On; split; [exact W|]; eauto|]. exists old, ring. split; [exact Fo|]. unfold before_open. rewrite On. split; [exact Eh|]. split; [exact Lo|].
      intros head tail c front ob E. unfold rb_pick in E. assert (Dd : RbFetchProofs.done (d_blocks (rb_d r))) by now rewrite Ef.
      destruct (snoc_cases (d_blocks (rb_d r))) as [X|(f' & t & X)]; rewrite X in *.
      + cbn [last_of] in E. injection E as <- <- <- <- <-. exact Fs.
      + rewrite last_of_snoc, first_of_snoc in E. apply Forall_app in Dd as [_ Dk]. assert (bk_completed t = true) as Ck by now inversion Dk. rewrite Ck in E. injection E as <- <- <- <- <-. exact Fs.
    - pose proof Fs as Fs'. rewrite Eb in Fs'. apply Forall2_snoc_inv in Fs' as (m & y & E & Fm & (P & Z1 & S)). apply app_inj_tail in E as [<- <-]. rewrite Ck in S.
      assert (On : open_entry (l_held L) = Some (e_bytes e)) by (rewrite Eh, app_assoc, open_snoc, S; unfold in_ring; now rewrite P).
      split; [rewrite On; split; [exact W|]; exists f; split; [exact Df|]; eauto|]. exists old, fr. split; [exact Fo|]. unfold before_open. rewrite On. split; [rewrite Eh, app_assoc, removelast_snoc; reflexivity|]. split; [exact Lo|].
      intros head tail c front ob E. unfold rb_pick in E. rewrite Eb, last_of_snoc, first_of_snoc, Ck, removelast_snoc in E. injection E as <- <- <- <- <-. exact Fm.
  Qed.

  Lemma kept_old h r L : acc_inv h r L -> strict = true -> forall e s, In e (l_held L) -> e_slice e = Some s -> e_place e <> Gone -> (s_arr s < length h)%nat.
  Proof.
    intros (W & Y & _) T e s HI S P. destruct (Y T) as [_ K]. rewrite Forall_forall in K. specialize (K _ HI _ S).
    apply (valid_lt h). destruct (e_place e); [|destruct K as [K _]|congruence]; apply (read_valid _ _ _ K).
  Qed.

  Lemma before_in l e : In e (before_open l) -> In e l.
  Proof.
    unfold before_open. destruct (open_entry l); [|auto]. destruct (snoc_cases l) as [->|(f & x & ->)]; [intros []|]. rewrite removelast_snoc. intros. apply in_or_app. auto.
  Qed.

  Lemma acc_write h r L d : acc_inv h r L -> (strict = true -> ~ rb_full r) ->
    exists h' r', rb_write h r d = Ok (h', r') /\
    acc_inv h' r' (led_step L (BWrite d) None (negb (Nat.eqb (s_arr (d_data (rb_d r'))) (s_arr (d_data (rb_d r)))))).
  Proof.
    intros I NF. pose proof (kept_old _ _ _ I) as KO. destruct (acc_open _ _ _ I) as (O & old & fr & Fo & Ebf & Lo & Sh). pose proof I as (W & Y & Ow & Ls & _).
    destruct (open_pick _ _ _ O) as (head & tail & c & front & ob & E & R & Df). specialize (Sh _ _ _ _ _ E).
    pose proof (rb_pick_ok _ _ _ _ _ _ _ W E) as [Pob Ptl Pbk Phd Pcp Pfr]. pose proof W as (V & Sl & C & D & Fb). pose proof (valid_lt _ _ V) as Lt.
    destruct (rb_write_ok h r d _ _ _ _ _ W E) as (h' & r' & Ew & W' & Ln & Vd & Lst & Cs). exists h', r'. split; [exact Ew|].
    change (cur_bytes (open_entry (l_held L))) with (open_content (l_held L)) in R.
    destruct (Lst _ R) as (k & Lk & Ck & Sk & Rk). pose proof (zlen_nonneg d) as Hn.
    assert (Lc : zlen (open_content (l_held L)) = bk_size ob) by (apply read_valid in R as [_ X]; exact X).
    assert (Shk : forall data, shows data k (mkE (open_content (l_held L) ++ d) None InRing)) by (intros data; unfold shows; cbn [e_place e_bytes e_slice]; rewrite zlen_app, Ck; repeat split; lia).
    unfold led_step.
    assert (Kin : strict = true -> Forall (kept h r) (before_open (l_held L))).
    { intros T. destruct (Y T) as [_ K]. apply Forall_forall. rewrite Forall_forall in K. intros e He. apply K. now apply before_in. }
    destruct Cs as [Dt Bl Cp Dc Hpl Fr|Dt Bl Cp Dc H1 H2 H3 Fr|Dt Bl Cp Dc Fr Hl _].
    - (* in place *)
      assert (Ek : k = mkBlock (bk_index ob) (bk_size ob + zlen d) false) by (rewrite Bl, last_of_snoc in Lk; congruence).
      rewrite Dt, Nat.eqb_refl. cbn [negb]. split; [exact W'|]. split; [|split; [cbn; congruence|split; [exact Ls|]]].
      + intros T. specialize (NF T). destruct (Y T) as [Lay _]. destruct (layout_place h r head tail c front ob (zlen d) W E Lay NF Hn Hpl) as [La Ap]. split.
        * rewrite Bl, Cp, map_app. cbn [map]. unfold geo at 2. cbn [bk_index bk_size]. exact La.
        * cbn [l_held]. apply Forall_app. split; [|constructor; [intros s X; discriminate|constructor]].
          specialize (Kin T). rewrite Ebf in *. apply Forall_app in Kin as [Ko Kr]. apply Forall_app. split.
          -- clear - Ko Fo Fr Dt. induction Ko as [|e l He _ IH]; constructor; [|apply IH; now inversion Fo]. inversion Fo as [|? ? Oe Of]; subst.
             intros s S. specialize (He s S). destruct (e_place e) eqn:P; [contradiction|destruct He as [A B]; rewrite Dt; split; [|exact B]|exact He]. rewrite Fr; [exact A|left; exact B].
          -- clear - Kr Sh Fr Ap. induction Sh as [|x e f l He _ IH]; constructor; [|apply IH; [now inversion Kr|intros; apply Ap; cbn; auto]]. inversion Kr as [|? ? Oe Of]; subst.
             destruct He as (P & Z1 & S1). intros s S. specialize (Oe s S). rewrite P in *. rewrite S1 in S. destruct (bk_completed x); [|discriminate]. injection S as <-.
             rewrite Fr; [exact Oe|]. right. cbn [s_off s_len]. destruct (Ap x (or_introl eq_refl)); lia.
      + cbn [l_held l_owed l_lost]. exists old, (fr ++ [mkE (open_content (l_held L) ++ d) None InRing]). rewrite Ebf, app_assoc. split; [reflexivity|]. split; [exact Fo|]. rewrite Bl, Dt, <- Ek. split; [now apply Forall2_snoc|]. split; [exact Lo|].
        exists front. split; [exact Df|]. right. eexists _, _, _. split; [reflexivity|]. split; [reflexivity|]. split; [exact Ck|]. cbn [e_bytes]. rewrite <- Dt. exact Rk.
    - (* wrap *)
      assert (Ek : k = mkBlock 0 (bk_size ob + zlen d) false) by (rewrite Bl, last_of_snoc in Lk; congruence).
      rewrite Dt, Nat.eqb_refl. cbn [negb]. split; [exact W'|]. split; [|split; [cbn; congruence|split; [exact Ls|]]].
      + intros T. specialize (NF T). destruct (Y T) as [Lay _]. destruct (layout_wrap h r head tail c front ob (zlen d) W E Lay NF Hn H1 H2 H3) as [La Ap]. split.
        * rewrite Bl, Cp, map_app. cbn [map]. unfold geo at 2. cbn [bk_index bk_size]. exact La.
        * cbn [l_held]. apply Forall_app. split; [|constructor; [intros s X; discriminate|constructor]].
          specialize (Kin T). rewrite Ebf in *. apply Forall_app in Kin as [Ko Kr]. apply Forall_app. split.
          -- clear - Ko Fo Fr Dt. induction Ko as [|e l He _ IH]; constructor; [|apply IH; now inversion Fo]. inversion Fo as [|? ? Oe Of]; subst.
             intros s S. specialize (He s S). destruct (e_place e) eqn:P; [contradiction|destruct He as [A B]; rewrite Dt; split; [|exact B]|exact He]. rewrite Fr; [exact A|left; exact B].
          -- clear - Kr Sh Fr Ap. induction Sh as [|x e f l He _ IH]; constructor; [|apply IH; [now inversion Kr|intros; apply Ap; cbn; auto]]. inversion Kr as [|? ? Oe Of]; subst.
             destruct He as (P & Z1 & S1). intros s S. specialize (Oe s S). rewrite P in *. rewrite S1 in S. destruct (bk_completed x); [|discriminate]. injection S as <-.
             rewrite Fr; [exact Oe|]. right. cbn [s_off s_len]. pose proof (Ap x (or_introl eq_refl)); lia.
      + cbn [l_held l_owed l_lost]. exists old, (fr ++ [mkE (open_content (l_held L) ++ d) None InRing]). rewrite Ebf, app_assoc. split; [reflexivity|]. split; [exact Fo|]. rewrite Bl, Dt, <- Ek. split; [now apply Forall2_snoc|]. split; [exact Lo|].
        exists front. split; [exact Df|]. right. eexists _, _, _. split; [reflexivity|]. split; [reflexivity|]. split; [exact Ck|]. cbn [e_bytes]. rewrite <- Dt. exact Rk.
    - (* growth *)
      assert (Ek : k = mkBlock 0 (bk_size ob + zlen d) false) by (rewrite Bl in Lk; cbn in Lk; congruence).
      replace (Nat.eqb (s_arr (d_data (rb_d r'))) (s_arr (d_data (rb_d r)))) with false by (symmetry; apply Nat.eqb_neq; lia). cbn [negb]. split; [exact W'|].
      assert (Cnt : zlen (filter in_ring (before_open (l_held L))) = zlen front).
      { rewrite Ebf, filter_app, (filter_old _ Fo), (filter_ring _ _ _ Sh). cbn [app]. symmetry. now apply Forall2_zlen in Sh. }
      split; [|split; [cbn; lia|split; [cbn; pose proof D; lia|]]].
      + intros T. split.
        * rewrite Bl, Cp. cbn [map]. unfold geo. cbn [bk_index bk_size]. exists [(0, bk_size ob + zlen d)], []. split; [reflexivity|]. split; [|auto]. unfold blk_ok in Pbk. cbn. lia.
        * cbn [l_held]. apply Forall_app. split; [|constructor; [intros s X; discriminate|constructor]].
          apply Forall_map. apply Forall_forall. intros e He. specialize (Kin T). rewrite Forall_forall in Kin. pose proof (Kin _ He) as Ke. pose proof (KO T e) as KOe.
          intros s S. assert (S' : e_slice e = Some s) by (unfold set_aside in S; destruct (in_ring e); exact S). specialize (Ke s S'). specialize (KOe s (before_in _ _ He) S').
          unfold set_aside, in_ring. destruct (e_place e) eqn:P; cbn [e_place e_bytes]; rewrite ?P; auto.
          -- specialize (KOe ltac:(discriminate)). rewrite Fr by exact KOe. split; [exact Ke|lia].
          -- specialize (KOe ltac:(discriminate)). rewrite Fr by exact KOe. split; [apply Ke|lia].
      + cbn [l_held l_owed l_lost]. eexists _, [_]. split; [reflexivity|]. split; [apply all_aside|]. rewrite Bl, <- Ek. split; [constructor; [apply Shk|constructor]|]. split.
        * rewrite Cnt, Ebf, zlen_map, zlen_app. apply Forall2_zlen in Sh. lia.
        * exists []. split; [constructor|]. right. eexists _, [], _. split; [reflexivity|]. split; [reflexivity|]. split; [exact Ck|exact Rk].
  Qed.

  (** only the block list, the counters and the account change *)
  Lemma acc_same_array h r r' L : acc_inv h r L -> d_data (rb_d r') = d_data (rb_d r) -> forall e, kept h r e -> kept h r' e.
  Proof. intros _ Ed e K s S. specialize (K s S). now rewrite Ed. Qed.

  Lemma acc_step_ok h r L o : acc_inv h r L -> (strict = true -> match o with BWrite _ => ~ rb_full r | _ => True end) ->
    let '(h', r', L') := acc_step (h, r, L) o in acc_inv h' r' L'.
  Proof.
    intros I NF. pose proof I as (W & Y & Ow & Ls & old & ring & Eh & Fo & Fs & Lo & f & Df & Op). pose proof W as (V & Sl & C & D & Fb).
    assert (Hl : 0 <= s_len (d_data (rb_d r))) by lia.
    unfold acc_step. destruct o as [d| | | | | |]; cbn [rb_impl].
    - destruct (acc_write h r L d I NF) as (h' & r' & E & I'). rewrite E. cbn [bind raw_slice]. exact I'.
    - (* Fetch *)
      unfold rb_fetch, d_fetch. rewrite Sl. cbn [negb assert bind]. destruct (snoc_cases (d_blocks (rb_d r))) as [Eb|(g & k & Eb)]; rewrite Eb.
      + cbn [last_of of_opt bind]. exact I.
      + rewrite last_of_snoc. cbn [of_opt bind]. destruct (bk_completed k) eqn:Ck.
        * cbn [bind raw_slice rb_d d_data]. cbn [led_step]. destruct r. exact I.
        * destruct Op as [Ef|(k' & fr & e & Eb' & -> & Ck' & R)].
          { exfalso. rewrite Ef in Eb. rewrite Eb in Df. apply Forall_app in Df as [_ Dk]. inversion Dk. congruence. }
          rewrite Eb' in Eb. apply app_inj_tail in Eb as [<- <-]. rewrite Eb' in Fb. apply Forall_app in Fb as [Ff Fk]. inversion Fk as [|? ? (B1 & B2 & B3) _]; subst.
          rewrite reslice_ok by lia. replace (bk_index k' + bk_size k' - bk_index k') with (bk_size k') by lia. cbn [bind raw_slice rb_d d_data]. rewrite Nat.eqb_refl. cbn [negb led_step].
          rewrite Eb' in Fs. apply Forall2_snoc_inv in Fs as (m & y & X & Fm & (P & Z1 & S1)). apply app_inj_tail in X as [<- <-]. rewrite Ck in S1.
          assert (On : open_entry (l_held L) = Some (e_bytes e)) by (rewrite Eh, app_assoc, open_snoc, S1; unfold in_ring; now rewrite P).
          unfold before_open, open_content. rewrite On. rewrite Eh, app_assoc, !removelast_snoc. split; [|split; [|split; [exact Ow|split; [exact Ls|]]]].
          -- repeat split; cbn [rb_d d_data d_sealed rb_capacity rb_discard d_blocks]; auto; try lia. apply Forall_app. split; [exact Ff|]. constructor; [split; cbn; lia|constructor].
          -- intros T. destruct (Y T) as [Lay K]. split.
             ++ cbn [rb_d d_blocks rb_capacity]. rewrite Eb', map_app in Lay. rewrite map_app. exact Lay.
             ++ cbn [l_held]. rewrite Eh, app_assoc in K. apply Forall_app in K as [K _]. apply Forall_app. split; [eapply Forall_impl; [|exact K]; intros x Kx s S; specialize (Kx s S); exact Kx|].
                constructor; [|constructor]. intros s S. cbn [e_slice e_place e_bytes] in *. injection S as <-. exact R.
          -- cbn [l_held l_owed l_lost rb_d d_blocks d_data]. exists old, (fr ++ [mkE (e_bytes e) (Some (mkSlice (s_arr (d_data (rb_d r))) (s_off (d_data (rb_d r)) + bk_index k') (bk_size k'))) InRing]). rewrite <- app_assoc.
             split; [reflexivity|]. split; [exact Fo|]. split; [apply Forall2_snoc; [exact Fm|]; unfold shows; cbn; repeat split; exact Z1|]. split; [exact Lo|].
             exists (f ++ [mkBlock (bk_index k') (bk_size k') true]). split; [apply Forall_app; split; [exact Df|constructor; [reflexivity|constructor]]|]. left. reflexivity.
    - (* Pop *)
      unfold rb_pop. rewrite Sl. cbn [negb assert bind]. destruct (rb_discard r >? 0) eqn:Dg.
      + cbn [bind raw_slice rb_d]. rewrite Nat.eqb_refl. cbn [negb led_step]. rewrite Ow, Dg. destruct old as [|e0 old]; [change (zlen (@nil entry)) with 0 in Lo; lia|]. rewrite Eh. cbn [app tl].
        rewrite zlen_cons in Lo. inversion Fo as [|? ? O0 Fo']; subst. split; [|split; [|split; [cbn; lia|split; [exact Ls|]]]].
        * repeat split; cbn [rb_d rb_capacity rb_discard]; auto; lia.
        * intros T. destruct (Y T) as [Lay K]. split; [exact Lay|]. cbn [l_held]. rewrite Eh in K. cbn [app] in K. inversion K; subst. eapply Forall_impl; [|eassumption]. intros x Kx s S. exact (Kx s S).
        * cbn [l_held l_owed l_lost rb_d]. exists old, ring. split; [reflexivity|]. split; [exact Fo'|]. split; [exact Fs|]. split; [lia|]. exists f. split; [exact Df|exact Op].
      + unfold d_pop. rewrite Sl. cbn [negb assert bind raw_slice rb_d d_data d_blocks]. rewrite Nat.eqb_refl. cbn [negb led_step]. rewrite Ow, Dg. assert (D0 : rb_discard r = 0) by lia.
        assert (Cb : forall b : bool, 0 <= (if b then s_len (d_data (rb_d r)) else rb_capacity r) <= s_len (d_data (rb_d r)) /\ rb_capacity r <= (if b then s_len (d_data (rb_d r)) else rb_capacity r))
          by (intros []; lia).
        assert (Wt : Forall (blk_ok (s_len (d_data (rb_d r)))) (tl (d_blocks (rb_d r)))).
        { destruct (d_blocks (rb_d r)); cbn; auto. now inversion Fb. }
        assert (W' : forall b : bool, rb_wf h (mkRB (mkD (d_data (rb_d r)) (d_next (rb_d r)) false (tl (d_blocks (rb_d r)))) (if b then s_len (d_data (rb_d r)) else rb_capacity r) (rb_discard r))).
        { intros b. repeat split; cbn [rb_d d_data d_sealed rb_capacity rb_discard d_blocks]; auto; apply Cb. }
        assert (Ly : strict = true -> forall b : bool, layout (if b then s_len (d_data (rb_d r)) else rb_capacity r) (map geo (tl (d_blocks (rb_d r))))).
        { intros T b. eapply layout_mono; [|apply Cb]. replace (map geo (tl (d_blocks (rb_d r)))) with (tl (map geo (d_blocks (rb_d r)))) by (destruct (d_blocks (rb_d r)); reflexivity).
          apply layout_tl. apply (Y T). }
        set (full := match first_of (tl (d_blocks (rb_d r))) with None => true | Some hd => bk_index hd =? 0 end).
        split; [apply W'|]. split; [intros T; split; [apply (Ly T)|]|].
        { destruct (Y T) as [_ K]. assert (K2 : Forall (kept h r) (tl (l_held L))) by (destruct K; cbn; auto).
          assert (K3 : Forall (kept h r) (release (l_held L))).
          { clear - K. induction K as [|e l He K IH]; [constructor|]. cbn [release]. destruct (in_ring e); constructor; auto. intros s S. exact Logic.I. }
          destruct (existsb in_ring (l_held L)); cbn [l_held]; [|exact K2]. destruct K3; cbn; auto. }
        destruct Fs as [|b0 e0 bs ring Sh0 Fs].
        * rewrite app_nil_r in Eh. assert (Ex : existsb in_ring (l_held L) = false) by (rewrite Eh; now apply exists_old). rewrite Ex. cbn [l_held l_owed l_lost tl rb_d rb_discard d_blocks d_data].
          split; [lia|]. split; [lia|]. exists (tl old), []. rewrite Eh, app_nil_r. split; [reflexivity|]. split; [destruct Fo; cbn; auto|]. split; [constructor|]. split.
          -- destruct old; cbn [tl]; rewrite ?zlen_cons in *; unfold zlen in *; cbn [length] in *; lia.
          -- exists []. split; [constructor|]. left. reflexivity.
        * assert (Ex : existsb in_ring (l_held L) = true) by (rewrite Eh, existsb_app; cbn [existsb]; rewrite (shows_in _ _ _ Sh0); now rewrite orb_true_r). rewrite Ex. cbn [l_held l_owed l_lost tl rb_d rb_discard d_blocks d_data].
          split; [lia|]. split; [lia|]. rewrite Eh, (release_old _ Fo _ _ (shows_in _ _ _ Sh0)).
          assert (Op' : exists f', RbFetchProofs.done f' /\ (bs = f' \/ exists k fr e, bs = f' ++ [k] /\ ring = fr ++ [e] /\ bk_completed k = false /\ read h (blk_slice (d_data (rb_d r)) k) = Ok (e_bytes e))).
          { destruct Op as [Ef|(k & fr & e & Eb & Er & Ck & R)].
            - rewrite <- Ef in Df. inversion Df; subst. exists bs. auto.
            - destruct f as [|x f].
              + cbn [app] in Eb. injection Eb as -> ->. exists []. split; [constructor|auto].
              + cbn [app] in Eb. injection Eb as -> ->. inversion Df; subst. exists f. split; [assumption|]. right. destruct fr as [|y fr].
                * exfalso. cbn in Er. injection Er as -> ->. apply Forall2_zlen in Fs. rewrite zlen_app in Fs. change (zlen [k]) with 1 in Fs. change (zlen (@nil entry)) with 0 in Fs. pose proof (zlen_nonneg f). lia.
                * cbn [app] in Er. injection Er as -> ->. exists k, fr, e. auto. }
          destruct old as [|x old].
          -- cbn [app tl]. exists [], ring. repeat split; auto. lia.
          -- cbn [app tl]. exists (old ++ [mkE (e_bytes e0) (e_slice e0) Gone]), ring. rewrite <- app_assoc. split; [reflexivity|]. split; [apply Forall_app; split; [now inversion Fo|constructor; [unfold old_entry; cbn; discriminate|constructor]]|].
             split; [exact Fs|]. split; [rewrite zlen_app; rewrite zlen_cons in Lo; change (zlen [_]) with 1; lia|exact Op'].
    - (* PopBack *)
      unfold rb_pop_back, d_pop_back. rewrite Sl. cbn [negb assert bind]. destruct (snoc_cases (d_blocks (rb_d r))) as [Eb|(g & k & Eb)]; rewrite Eb.
      + cbn. exact I.
      + replace (zlen (g ++ [k]) >? 0) with true by (rewrite zlen_app; change (zlen [k]) with 1; pose proof (zlen_nonneg g); lia). cbn [assert bind]. rewrite removelast_snoc. cbn [raw_slice rb_d d_data]. rewrite Nat.eqb_refl. cbn [negb led_step].
        rewrite Eb in Fs. apply Forall2_snoc_inv in Fs as (m & y & -> & Fm & _). rewrite Eh, app_assoc, removelast_snoc. rewrite Eb in Fb. apply Forall_app in Fb as [Fg _].
        split; [|split; [|split; [exact Ow|split; [exact Ls|]]]].
        * repeat split; cbn [rb_d d_data d_sealed rb_capacity rb_discard d_blocks]; auto; lia.
        * intros T. destruct (Y T) as [Lay K]. split; [cbn [rb_d d_blocks rb_capacity]; rewrite Eb, map_app in Lay; eapply layout_removelast; exact Lay|]. cbn [l_held]. rewrite Eh, app_assoc in K. apply Forall_app in K as [K _].
          eapply Forall_impl; [|exact K]. intros x Kx s S. exact (Kx s S).
        * cbn [l_held l_owed l_lost rb_d d_blocks d_data]. exists old, m. split; [reflexivity|]. split; [exact Fo|]. split; [exact Fm|]. split; [exact Lo|]. exists g. split; [|left; reflexivity].
          destruct Op as [Ef|(k' & fr & e & Eb' & _)].
          -- rewrite Ef in Eb. rewrite Eb in Df. now apply Forall_app in Df as [Dg _].
          -- rewrite Eb' in Eb. now apply app_inj_tail in Eb as [<- _].
    - exact I.
    - exact I.
    - (* Clear *)
      cbn [raw_slice rb_clear rb_d d_clear d_data]. rewrite Nat.eqb_refl. cbn [negb led_step led_new]. split; [|split; [|split; [reflexivity|split; [reflexivity|]]]].
      + repeat split; cbn [rb_clear d_clear rb_d d_data d_sealed rb_capacity rb_discard d_blocks]; auto; try lia.
      + intros T. split; [cbn; now apply layout_nil|constructor].
      + exists [], []. cbn. repeat split; auto. exists []. split; [constructor|auto].
  Qed.

  Lemma acc_run_ok ops : forall h r L, acc_inv h r L -> (strict = true -> never_full (h, r, L) ops) ->
    let '(h', r', L') := acc_run (h, r, L) ops in acc_inv h' r' L'.
  Proof.
    induction ops as [|o ops IH]; intros h r L I NF; [exact I|]. cbn [acc_run fold_left].
    pose proof (acc_step_ok h r L o I (fun T => proj1 (NF T))) as X. assert (NF' : strict = true -> never_full (acc_step (h, r, L) o) ops) by (intros T; exact (proj2 (NF T))).
    destruct (acc_step (h, r, L) o) as [[h1 r1] L1]. exact (IH _ _ _ X NF').
  Qed.

  Lemma acc_new h c h0 r0 : rb_new h c = Ok (h0, r0) -> acc_inv h0 r0 led_new.
  Proof.
    intros E. assert (Hc : 0 <= c). { unfold rb_new, d_new in E. destruct (Z_le_dec 0 c) as [Hc|Hc]; [exact Hc|]. unfold make in E. replace (0 <=? c) with false in E by (symmetry; apply Z.leb_gt; lia). discriminate. }
    destruct (rb_new_inv true h c Hc) as (h1 & r1 & E1 & (W & Ly & _)). assert (h1 = h0 /\ r1 = r0) as [-> ->] by (split; congruence).
    split; [exact W|]. split; [intros _; split; [now apply Ly|constructor]|]. unfold rb_new, d_new in E. destruct (make h c) as [[h2 s2]| | |]; try discriminate. cbn [bind] in E. injection E as <- <-.
    split; [reflexivity|]. split; [reflexivity|]. exists [], []. repeat split; auto; [constructor|]. exists []. split; [constructor|auto].
  Qed.
End Acc.

(** ** Blocks set aside are out of reach of every later call, with no condition *)
Definition away (h : heap) (r : rbuf) (e : entry) : Prop :=
  e_place e = Aside -> forall s, e_slice e = Some s -> s_arr s <> s_arr (d_data (rb_d r)) /\ (s_arr s < length h)%nat.

Lemma away_tl h r l : Forall (away h r) l -> Forall (away h r) (tl l).
Proof. intros F. destruct F; cbn; auto. Qed.
Lemma away_before h r l : Forall (away h r) l -> Forall (away h r) (before_open l).
Proof. intros F. apply Forall_forall. rewrite Forall_forall in F. intros e He. apply F. now apply before_in. Qed.
Lemma away_release h r l : Forall (away h r) l -> Forall (away h r) (release l).
Proof. induction 1 as [|e l He F IH]; [constructor|]. cbn [release]. destruct (in_ring e); constructor; auto. intros P. discriminate. Qed.
Lemma away_removelast h r l : Forall (away h r) l -> Forall (away h r) (removelast l).
Proof. intros F. destruct (snoc_cases l) as [->|(f & x & ->)]; [exact F|]. rewrite removelast_snoc. now apply Forall_app in F as [F _]. Qed.
Lemma away_same h r r' l : d_data (rb_d r') = d_data (rb_d r) -> Forall (away h r) l -> Forall (away h r') l.
Proof. intros E F. eapply Forall_impl; [|exact F]. intros e A P s S. rewrite E. auto. Qed.

Lemma in_ring_array h r L e s : acc_inv false h r L -> In e (l_held L) -> e_place e = InRing -> e_slice e = Some s -> s_arr s = s_arr (d_data (rb_d r)).
Proof.
  intros (_ & _ & _ & _ & old & ring & Eh & Fo & Fs & _) HI P S. rewrite Eh in HI. apply in_app_or in HI as [HI|HI].
  - rewrite Forall_forall in Fo. now apply Fo in HI.
  - clear - Fs HI S. induction Fs as [|k x f l H _ IH]; [destruct HI|]. destruct HI as [->|HI]; [|auto]. destruct H as (_ & _ & X). rewrite X in S. destruct (bk_completed k); [|discriminate]. now injection S as <-.
Qed.

Lemma away_step h r L o : acc_inv false h r L -> Forall (away h r) (l_held L) ->
  let '(h', r', L') := acc_step (h, r, L) o in
  Forall (away h' r') (l_held L') /\ (forall t, (s_arr t < length h)%nat -> s_arr t <> s_arr (d_data (rb_d r)) -> read h' t = read h t).
Proof.
  intros I A. pose proof I as (W & _). pose proof W as (V & Sl & _). unfold acc_step. destruct o as [d| | | | | |]; cbn [rb_impl].
  - destruct (acc_write false h r L d I ltac:(discriminate)) as (h' & r' & Ew & _). rewrite Ew. cbn [bind raw_slice].
    destruct (rb_pick r) as [[[[head tail] c] front] ob] eqn:E. destruct (rb_write_ok h r d _ _ _ _ _ W E) as (h2 & r2 & Ew2 & _ & Ln & _ & _ & Cs). assert (h2 = h' /\ r2 = r') as [-> ->] by (split; congruence).
    assert (X : forall l, s_arr (d_data (rb_d r')) = s_arr (d_data (rb_d r)) -> Forall (away h r) l -> Forall (away h' r') l).
    { intros l Ea F. eapply Forall_impl; [|exact F]. intros e Ae P s S. destruct (Ae P s S). rewrite Ea. split; [auto|lia]. }
    pose proof (valid_lt _ _ V) as Lt. unfold led_step. destruct Cs as [Dt _ _ _ _ Fr|Dt _ _ _ _ _ _ Fr|Dt _ _ _ Fr _ _].
    + rewrite Dt, Nat.eqb_refl. cbn [negb l_held]. split; [apply Forall_app; split; [apply X; [now rewrite Dt|now apply away_before]|constructor; [intros P; discriminate|constructor]]|]. intros t _ Ht. apply Fr. left. exact Ht.
    + rewrite Dt, Nat.eqb_refl. cbn [negb l_held]. split; [apply Forall_app; split; [apply X; [now rewrite Dt|now apply away_before]|constructor; [intros P; discriminate|constructor]]|]. intros t _ Ht. apply Fr. left. exact Ht.
    + replace (Nat.eqb (s_arr (d_data (rb_d r'))) (s_arr (d_data (rb_d r)))) with false by (symmetry; apply Nat.eqb_neq; lia). cbn [negb l_held]. split; [|intros t Ht _; now apply Fr].
      apply Forall_app. split; [|constructor; [intros P; discriminate|constructor]]. apply Forall_map. apply Forall_forall. intros e He. apply before_in in He.
      rewrite Forall_forall in A. intros P s S. rewrite Dt. unfold set_aside, in_ring in P, S. destruct (e_place e) eqn:Pe; cbn in P, S; try congruence.
      * rewrite (in_ring_array h r L e s I He Pe S). lia.
      * destruct (A e He Pe s S). lia.
  - unfold rb_fetch, d_fetch. rewrite Sl. cbn [negb assert bind]. destruct (last_of (d_blocks (rb_d r))) as [k|]; cbn [of_opt bind]; [|auto]. destruct (bk_completed k); [cbn; auto|].
    destruct (reslice _ _ _) as [s| | |]; cbn [bind raw_slice rb_d d_data]; auto. cbn [led_step l_held]. split; [|auto].
    apply Forall_app. split; [eapply away_same; [|apply away_before; exact A]; reflexivity|constructor; [intros P; discriminate|constructor]].
  - unfold rb_pop. rewrite Sl. cbn [negb assert bind]. unfold d_pop. rewrite Sl. cbn [negb assert bind led_step].
    destruct (rb_discard r >? 0); cbn [bind raw_slice led_step]; (split; [|auto]); destruct (l_owed L >? 0); [|destruct (existsb in_ring (l_held L))| |destruct (existsb in_ring (l_held L))];
      cbn [l_held]; (eapply away_same; [|apply away_tl; try apply away_release; exact A]; reflexivity).
  - unfold rb_pop_back, d_pop_back. rewrite Sl. cbn [negb assert bind]. destruct (zlen (d_blocks (rb_d r)) >? 0); cbn [assert bind raw_slice led_step l_held]; (split; [|auto]); [|exact A].
    eapply away_same; [|apply away_removelast; exact A]. reflexivity.
  - cbn [raw_slice led_step]. auto.
  - cbn [raw_slice led_step]. auto.
  - cbn [raw_slice led_step led_new l_held]. split; [constructor|auto].
Qed.

Lemma away_run ops : forall h r L, acc_inv false h r L -> Forall (away h r) (l_held L) ->
  let '(h', r', L') := acc_run (h, r, L) ops in Forall (away h' r') (l_held L').
Proof.
  induction ops as [|o ops IH]; intros h r L I A; [exact A|]. cbn [acc_run fold_left]. pose proof (away_step h r L o I A) as X. pose proof (acc_step_ok false h r L o I ltac:(discriminate)) as Y.
  destruct (acc_step (h, r, L) o) as [[h1 r1] L1]. destruct X as [X _]. exact (IH _ _ _ Y X).
Qed.

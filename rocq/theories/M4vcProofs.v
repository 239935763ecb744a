(** * M4vcProofs: M4VCExtraDataToAnnexB on arbitrary bytes. *)
From Verif Require Import Base BufioModel BytesSpec BytesProofs RingProofs NaluModel NaluSpec NaluProofs SplitProofs AvccProofs RecordModel RecordSpec CursorProofs RecordProofs.

Definition at_units (o room : list Z) (x : res (list Z * list Z)) : res bytes_buffer :=
  '(w, _) <- x;; Ok (mkw (o ++ w) (skipn (length w) room)).

(** The loop reads one unit, or fails as the specification says. *)
Lemma m4vc_step_cases f src out rest o room u s : src = out ++ rest -> bytes_ok rest -> zlen src < 2 ^ 63 -> small o room -> u <> 0 ->
  (exists x, (x = Err \/ x = Panic) /\ m4vc_loop (S f) src (mkw out rest) (mkw o room) u s = x /\ forall n, copy_units (S n) (zlen room) rest = match x with Panic => Panic | _ => Err end) \/
  (exists n t, rest = be_bytes 2 (zlen n) ++ n ++ t /\ set_ok n /\ 4 + zlen n <= zlen room /\
     forall k, copy_units (S k) (zlen room) rest = ('(w, r) <- copy_units k (zlen room - 4 - zlen n) t;; Ok (sc true ++ n ++ w, r))).
Proof.
  intros Es B L Sm Hu.
  destruct rest as [|a [|b t]].
  1,2: left; exists Err; split; [now left|]; split; [|reflexivity]; cbn [m4vc_loop]; replace (u =? 0) with false by lia;
    rewrite rd_uint_short by (try lia; unfold small; rewrite <- ?Es; try lia; cbn; lia); reflexivity.
  inversion B as [|? ? Ba B1]; subst. inversion B1 as [|? ? Bb Bt]; subst. unfold byte_ok in Ba, Bb.
  set (v := 256 * a + b). assert (Ev : be_value [a; b] = v) by (unfold v, be_value; cbn [fold_left]; lia).
  assert (R : rd_uint 2 (mkw out (a :: b :: t)) = (mkw (out ++ [a; b]) t, Ok v)).
  { change (a :: b :: t) with ([a; b] ++ t). rewrite rd_uint_app; [now rewrite Ev|exact L|lia|reflexivity]. }
  assert (Eb : be_bytes 2 v = [a; b]).
  { rewrite <- Ev. change 2%nat with (length [a; b]). apply be_value_bytes. repeat constructor; unfold byte_ok; lia. }
  pose proof (zlen_nonneg t) as Nt. pose proof (zlen_nonneg room) as Nr. rewrite zlen_app, !zlen_cons in L. pose proof (zlen_nonneg out) as No.
  destruct (Z_lt_dec (zlen room) 4) as [S4|L4].
  { left. exists Err. split; [now left|]. split.
    - cbn [m4vc_loop]. replace (u =? 0) with false by lia. rewrite R. unfold try_. cbn [fst snd bind]. change StartCode4 with (sc true).
      rewrite wr_bytes_short by (auto; change (zlen (sc true)) with 4; lia). reflexivity.
    - intros n. cbn [copy_units]. now replace (zlen room <? 4) with true by lia. }
  destruct (Z_lt_dec (zlen t) v) as [St|Lt].
  { left. exists Panic. split; [now right|]. split.
    - cbn [m4vc_loop]. replace (u =? 0) with false by lia. rewrite R. unfold try_. cbn [fst snd bind]. change StartCode4 with (sc true).
      rewrite wr_end by (auto; change (zlen (sc true)) with 4; lia). unfold try_w at 1. cbn [fst snd bind].
      cbn [mkw bb_offset]. unfold slice.
      match goal with |- context [if ?c then _ else _] => replace c with false by (rewrite ?zlen_app, ?zlen_cons; change (zlen (@nil Z)) with 0; lia) end. reflexivity.
    - intros n. cbn [copy_units]. fold v. replace (zlen room <? 4) with false by lia. now replace (zlen t <? v) with true by lia. }
  destruct (app_split t v) as (n & t' & -> & Ln); [lia|]. apply bytes_ok_app in Bt as [Bn Bt'].
  assert (Sn : set_ok n) by (split; [exact Bn|lia]).
  assert (Er : a :: b :: n ++ t' = be_bytes 2 (zlen n) ++ n ++ t') by (rewrite Ln, Eb; reflexivity).
  assert (Lnat : Z.to_nat v = length n) by (unfold zlen in Ln; lia).
  destruct (Z_lt_dec (zlen room) (4 + v)) as [S5|L5].
  - left. exists Err. split; [now left|]. split.
    + rewrite Er. rewrite m4vc_step by (auto; rewrite <- Er, zlen_app, !zlen_cons; lia). unfold put_all. cbn [concat]. rewrite app_nil_r, zlen_app. change (zlen (sc true)) with 4.
      replace (4 + zlen n <=? zlen room) with false by lia. reflexivity.
    + intros k. cbn [copy_units]. fold v. replace (zlen room <? 4) with false by lia. replace (zlen (n ++ t') <? v) with false by lia. now replace (zlen room <? 4 + v) with true by lia.
  - right. exists n, t'. split; [exact Er|]. split; [exact Sn|]. split; [lia|]. intros k. cbn [copy_units]. fold v.
    replace (zlen room <? 4) with false by lia. replace (zlen (n ++ t') <? v) with false by lia. replace (zlen room <? 4 + v) with false by lia.
    rewrite Lnat, firstn_app, Nat.sub_diag, firstn_all, skipn_app, skipn_all, Nat.sub_diag. cbn [firstn skipn app]. rewrite app_nil_r, Ln. reflexivity.
Qed.

Lemma copy_units_ok n : forall room rest w r, bytes_ok rest -> copy_units n room rest = Ok (w, r) -> (exists h, rest = h ++ r) /\ (0 <= room -> zlen w <= room) /\ (n = O -> w = []).
Proof.
  induction n as [|n IH]; intros room rest w r B E; cbn [copy_units] in E; [injection E as <- <-; split; [now exists []|split; [change (zlen (@nil Z)) with 0; lia|reflexivity]]|].
  destruct rest as [|a [|b t]]; try discriminate.
  inversion B as [|? ? Ba B1]; subst. inversion B1 as [|? ? Bb Bt]; subst. unfold byte_ok in Ba, Bb.
  assert (Hv : exists v, v = 256 * a + b) by eauto. destruct Hv as [v Ev]. rewrite <- Ev in E. assert (0 <= v) by lia. clear Ev.
  destruct (room <? 4) eqn:E1; [discriminate|]. destruct (zlen t <? v) eqn:E2; [discriminate|]. destruct (room <? 4 + v) eqn:E3; [discriminate|].
  destruct (copy_units n _ _) as [[w' r']| | |] eqn:E4; cbn [bind] in E; try discriminate. injection E as <- <-.
  apply IH in E4 as ((h & Eh) & Lw & _); [|rewrite <- (firstn_skipn (Z.to_nat v)) in Bt; now apply bytes_ok_app in Bt].
  split; [exists (a :: b :: firstn (Z.to_nat v) t ++ h); cbn [app]; rewrite <- app_assoc, <- Eh, firstn_skipn; reflexivity|]. split; [|discriminate].
  intros R. specialize (Lw ltac:(lia)). rewrite !zlen_cons, !zlen_app. assert (zlen (firstn (Z.to_nat v) t) = v) by (unfold zlen in *; rewrite firstn_length; lia). lia.
Qed.

Lemma m4vc_loop_units n : forall f src out rest o room s, src = out ++ rest -> bytes_ok rest -> zlen src < 2 ^ 63 -> small o room -> (n < f)%nat -> 1 <= s ->
  m4vc_loop f src (mkw out rest) (mkw o room) (Z.of_nat n) s = at_units o room (copy_units n (zlen room) rest).
Proof.
  induction n as [|n IH]; intros f src out rest o room s Es B L Sm Lf Hs; (destruct f as [|f]; [lia|]).
  - cbn. now rewrite app_nil_r.
  - destruct (m4vc_step_cases f src out rest o room (Z.of_nat (S n)) s Es B L Sm ltac:(lia)) as [(x & Hx & E & Ec)|(u & t & Er & Su & Lr & Ec)].
    + rewrite E, Ec. destruct Hx as [-> | ->]; reflexivity.
    + rewrite Ec. rewrite Er. rewrite m4vc_step by (auto; try lia; now rewrite <- Er).
      unfold put_all. cbn [concat]. rewrite app_nil_r, zlen_app. change (zlen (sc true)) with 4. replace (4 + zlen u <=? zlen room) with true by lia. cbn [bind]. cbv zeta.
      replace (s + 1 =? 1) with false by lia. rewrite andb_false_r. replace (Z.of_nat (S n) - 1) with (Z.of_nat n) by lia.
      assert (Ls : zlen (skipn (length (sc true ++ u)) room) = zlen room - 4 - zlen u).
      { rewrite zlen_skip_fit; rewrite zlen_app; change (zlen (sc true)) with 4; lia. }
      rewrite IH; [|rewrite Es, Er, <- !app_assoc; reflexivity| |exact L| |lia|lia].
      * rewrite Ls. unfold at_units. destruct (copy_units n _ t) as [[w r]| | |]; cbn [bind]; try reflexivity. rewrite <- !app_assoc. do 2 f_equal.
        rewrite skipn_skipn, !app_length. f_equal; lia.
      * rewrite Er in B. apply bytes_ok_app in B as [_ B]. apply bytes_ok_app in B as [_ B]. exact B.
      * eapply small_shift; [|exact Sm]. rewrite Ls, zlen_app. change (zlen (sc true)) with 4. lia.
Qed.

Lemma m4vc_loop_units' u f src out rest o room s : src = out ++ rest -> bytes_ok rest -> zlen src < 2 ^ 63 -> small o room -> 0 <= u < Z.of_nat f -> 1 <= s ->
  m4vc_loop f src (mkw out rest) (mkw o room) u s = at_units o room (copy_units (Z.to_nat u) (zlen room) rest).
Proof. intros Es B L Sm Hu Hs. rewrite <- (Z2Nat.id u) at 1 by lia. apply m4vc_loop_units; auto. lia. Qed.
Lemma m4vc_loop_zero f src r w s : m4vc_loop (S f) src r w 0 s = Ok w.
Proof. reflexivity. Qed.
Lemma m4vc_exact src : bytes_ok src -> zlen src < 2 ^ 62 -> m4vc_extra_to_annexb src = m4vc_spec src.
Proof.
  intros B L. unfold m4vc_extra_to_annexb. change 1000%nat with (S 999). set (fuel := 999%nat). assert (Hf : (286 <= fuel)%nat) by (unfold fuel; lia). clearbody fuel.
  rewrite bb_new_mkw. pose proof (zlen_nonneg src) as Ns.
  destruct (Z_lt_dec (zlen src) 5) as [Sh|L5].
  { destruct src as [|a0 [|a1 [|a2 [|a3 [|a4 t]]]]]; [reflexivity..| |rewrite !zlen_cons in Sh; pose proof (zlen_nonneg t); lia].
    reflexivity. }
  destruct src as [|h0 [|h1 [|h2 [|h3 [|h4 d]]]]]; try (unfold zlen in L5; cbn [length] in L5; lia). set (src := h0 :: h1 :: h2 :: h3 :: h4 :: d) in *.
  assert (E0 : try_w (bb_seek (mkw [] src) 4) = Ok (mkw [h0; h1; h2; h3] (h4 :: d))).
  { change src with ([h0; h1; h2; h3] ++ h4 :: d). apply (seek_ok []); [|reflexivity]. unfold small. change ([] ++ [h0; h1; h2; h3] ++ h4 :: d) with src. lia. }
  rewrite E0. cbn [bind]. assert (Sm1 : small [h0; h1; h2; h3] (h4 :: d)) by (unfold small; change ([h0; h1; h2; h3] ++ h4 :: d) with src; lia).
  rewrite rd_u8_ok by auto. cbn [bind]. apply (small_app _ [h4]) in Sm1. cbn [app] in Sm1 |- *.
  set (room := zeros (Z.to_nat (zlen src + 256))) in *.
  assert (Lr : zlen room = zlen src + 256) by (unfold room, zlen at 1; rewrite zeros_length; lia).
  assert (Smr : small [] room) by (unfold small; cbn [app]; lia). rewrite bb_new_mkw.
  assert (Fin : forall w, zlen w <= zlen room -> wr_written (mkw ([] ++ w) (skipn (length w) room)) = Ok w).
  { intros w Lw. unfold wr_written. cbn [mkw bb_data bb_offset app]. pose proof (slice_app_mid [] w (skipn (length w) room)) as E. cbn [app] in E. change (zlen (@nil Z)) with 0 in E. rewrite Z.add_0_l in E. now rewrite E. }
  destruct d as [|c t].
  { rewrite rd_u8_nil by exact Sm1. cbn [bind]. rewrite m4vc_loop_zero. cbn [bind]. exact (Fin [] ltac:(change (zlen (@nil Z)) with 0; lia)). }
  rewrite rd_u8_cons by exact Sm1. cbn [bind app]. rewrite land31'.
  assert (Bt : bytes_ok t /\ byte_ok c) by (unfold src in B; repeat (apply Forall_cons_iff in B as [? B]); auto). destruct Bt as [Bt Bc].
  set (pre := [h0; h1; h2; h3; h4; c]). assert (Es : src = pre ++ t) by reflexivity.
  assert (Ms : m4vc_spec src = ('(o, r) <- copy_units (Z.to_nat (c mod 32)) (zlen room) t;;
    match r with
    | p :: r' => if (c mod 32 =? 1) && (3 <=? zlen r) then '(o', _) <- copy_units (Z.to_nat p) (zlen room - zlen o) r';; Ok (o ++ o') else Ok o
    | [] => Ok o end)) by (rewrite Lr; reflexivity).
  rewrite Ms. clear Ms. pose proof (Z.mod_pos_bound c 32 ltac:(lia)) as Hc.
  destruct (Z.eq_dec (c mod 32) 0) as [Z0|NZ].
  { rewrite Z0, m4vc_loop_zero. cbn [Z.to_nat copy_units bind]. change (0 =? 1) with false. cbn [andb].
    change (wr_written (mkw [] room) = match t with [] => Ok [] | _ :: _ => Ok [] end).
    pose proof (Fin [] ltac:(change (zlen (@nil Z)) with 0; lia)) as F0. cbn [app length skipn] in F0. rewrite F0. destruct t; reflexivity. }
  destruct (m4vc_step_cases fuel src pre t [] room (c mod 32) 0 Es Bt ltac:(lia) Smr NZ) as [(x & Hx & E & Ec)|(u & t' & Er & Su & Lu & Ec)].
  { rewrite E. replace (Z.to_nat (c mod 32)) with (S (Z.to_nat (c mod 32 - 1))) by lia. rewrite Ec. destruct Hx as [-> | ->]; reflexivity. }
  replace (Z.to_nat (c mod 32)) with (S (Z.to_nat (c mod 32 - 1))) by lia. rewrite Ec. rewrite Er at 1.
  rewrite m4vc_step by (auto; try lia; now rewrite <- Er).
  unfold put_all. cbn [concat]. rewrite app_nil_r, zlen_app. change (zlen (sc true)) with 4. replace (4 + zlen u <=? zlen room) with true by lia. cbn [bind]. cbv zeta.
  change (0 + 1 =? 1) with true. rewrite andb_true_r. change (0 + 1) with 1.
  assert (Ls : zlen (skipn (length (sc true ++ u)) room) = zlen room - 4 - zlen u).
  { rewrite zlen_skip_fit; rewrite zlen_app; change (zlen (sc true)) with 4; lia. }
  assert (Sm2 : small ([] ++ sc true ++ u) (skipn (length (sc true ++ u)) room)).
  { eapply small_shift; [|exact Smr]. rewrite Ls, zlen_app. change (zlen (sc true)) with 4. lia. }
  assert (Bt' : bytes_ok t') by (clear - Bt Er; rewrite Er in Bt; apply bytes_ok_app in Bt as [_ Bt]; apply bytes_ok_app in Bt as [_ Bt]; exact Bt).
  assert (Sm3 : small (pre ++ be_bytes 2 (zlen u) ++ u) t') by (unfold small; rewrite <- !app_assoc, <- Er, <- Es; lia).
  assert (Rd : bb_readable (mkw (pre ++ be_bytes 2 (zlen u) ++ u) t') = zlen t').
  { unfold bb_readable. cbn [mkw bb_length bb_offset]. rewrite zlen_app. lia. }
  rewrite Rd. destruct ((zlen t' >? 2) && (c mod 32 - 1 =? 0)) eqn:Sw.
  - (* one SPS, then the second count *)
    assert (C1 : c mod 32 = 1) by lia. rewrite C1. change (Z.to_nat (1 - 1)) with 0%nat. cbn [copy_units bind]. change (1 =? 1) with true. cbn [andb].
    destruct t' as [|p r']; [change (zlen (@nil Z)) with 0 in Sw; discriminate|]. replace (3 <=? zlen (p :: r')) with true by lia. rewrite app_nil_r.
    rewrite rd_u8_cons by exact Sm3. pose proof Bt' as Bt2. apply Forall_cons_iff in Bt2 as [Bp Br]. unfold byte_ok in Bp.
    rewrite m4vc_loop_units'; [|transitivity (pre ++ t); [exact Es|]; rewrite Er, <- !app_assoc; reflexivity|exact Br|lia|exact Sm2|lia|lia].
    rewrite Ls, zlen_app. change (zlen (sc true)) with 4. replace (zlen room - (4 + zlen u)) with (zlen room - 4 - zlen u) by lia.
    unfold at_units. destruct (copy_units (Z.to_nat p) _ r') as [[w q]| | |] eqn:E3; cbn [bind]; try reflexivity.
    apply copy_units_ok in E3 as (_ & Lw & _); [|exact Br]. specialize (Lw ltac:(lia)).
    rewrite skipn_skipn, <- !app_assoc. replace (length (sc true ++ u) + length w)%nat with (length (sc true ++ u ++ w)) by (rewrite !app_length; lia).
    apply Fin. rewrite !zlen_app. change (zlen (sc true)) with 4. lia.
  - rewrite m4vc_loop_units'; [|transitivity (pre ++ t); [exact Es|]; rewrite Er, <- !app_assoc; reflexivity|exact Bt'|lia|exact Sm2|lia|lia].
    rewrite Ls. unfold at_units. destruct (copy_units (Z.to_nat (c mod 32 - 1)) _ t') as [[w q]| | |] eqn:E3; cbn [bind]; try reflexivity.
    pose proof E3 as E3'. apply copy_units_ok in E3 as ((h & Eh) & Lw & _); [|exact Bt']. specialize (Lw ltac:(lia)).
    rewrite skipn_skipn, <- !app_assoc. replace (length (sc true ++ u) + length w)%nat with (length (sc true ++ u ++ w)) by (rewrite !app_length; lia).
    rewrite Fin by (rewrite !zlen_app; change (zlen (sc true)) with 4; lia).
    destruct q as [|p q]; [reflexivity|]. destruct (c mod 32 =? 1) eqn:C1; [|reflexivity]. replace (Z.to_nat (c mod 32 - 1)) with 0%nat in E3' by lia. cbn [copy_units] in E3'.
    injection E3' as <- Eq. rewrite <- Eq. rewrite Eq in Sw |- *. replace (3 <=? zlen (p :: q)) with false by lia. reflexivity.
Qed.

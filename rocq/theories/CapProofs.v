(** * CapProofs: what spare capacity changes. *)
From Verif Require Import Base BufioModel BytesSpec BytesProofs RingProofs NaluModel NaluSpec NaluProofs SplitProofs AvccProofs RecordModel RecordSpec CursorProofs RecordProofs AnnexbProofs StretchSpec StretchProofs AacModel PacketModel PacketProofs CapModel.

Lemma slice_cap_some {A} (s spare : list A) lo hi x : slice s lo hi = Some x -> slice_cap s spare lo hi = Some x.
Proof.
  unfold slice_cap, slice. intros E. destruct ((0 <=? lo) && (lo <=? hi) && (hi <=? zlen s)) eqn:C; [|discriminate].
  injection E as <-. rewrite zlen_app. pose proof (zlen_nonneg spare). replace (_ && _ && _) with true by lia. f_equal.
  rewrite skipn_app. assert (Z.to_nat lo - length s = 0)%nat as -> by (unfold zlen in *; lia). cbn [skipn]. rewrite firstn_app.
  rewrite skipn_length. assert (Z.to_nat (hi - lo) - (length s - Z.to_nat lo) = 0)%nat as -> by (unfold zlen in *; lia). cbn [firstn]. now rewrite app_nil_r.
Qed.

(** The outcome of the loop with spare capacity: a panic becomes an error when the cut-off unit is covered. *)
Definition covered {A} (k : Z) (spare : list Z) (x : res A) : res A := match x with Panic => if k <=? zlen spare then Err else Panic | y => y end.

(** [k] bytes are missing from a unit of src. *)
Definition cut_by (k : Z) (src : list Z) : Prop := exists h a b t, src = h ++ a :: b :: t /\ k = 256 * a + b - zlen t.

Lemma m4vc_loop_cap_spec f : forall src out rest o room u s, src = out ++ rest -> bytes_ok rest -> small out rest -> small o room ->
  exists k, 1 <= k <= 65535 /\ (m4vc_loop f src (mkw out rest) (mkw o room) u s = Panic -> cut_by k src) /\ forall spare, m4vc_loop_cap f src spare (mkw out rest) (mkw o room) u s = covered k spare (m4vc_loop f src (mkw out rest) (mkw o room) u s).
Proof.
  induction f as [|f IH]; intros src out rest o room u s Es B Sm Sw; [exists 1; split; [lia|]; split; [discriminate|reflexivity]|].
  cbn [m4vc_loop m4vc_loop_cap]. destruct (u =? 0); [exists 1; split; [lia|]; split; [discriminate|reflexivity]|]. cbv zeta.
  destruct rest as [|a [|b t]].
  1,2: exists 1; split; [lia|]; rewrite rd_uint_short by (auto; try lia; cbn; lia); split; [discriminate|reflexivity].
  pose proof B as B'. apply Forall_cons_iff in B' as [Ba B1]. apply Forall_cons_iff in B1 as [Bb Bt]. unfold byte_ok in Ba, Bb.
  set (v := 256 * a + b).
  assert (R : rd_uint 2 (mkw out (a :: b :: t)) = (mkw (out ++ [a; b]) t, Ok v)).
  { change (a :: b :: t) with ([a; b] ++ t). rewrite rd_uint_app; [|exact Sm|lia|reflexivity]. unfold v, be_value. cbn [fold_left]. do 2 f_equal. lia. }
  rewrite R. unfold try_. cbn [fst snd bind]. change StartCode4 with (sc true).
  pose proof (zlen_nonneg t) as Nt. pose proof (zlen_nonneg out) as No. pose proof (zlen_nonneg room) as Nr. pose proof (zlen_nonneg o) as Noo.
  unfold small in Sm. rewrite zlen_app, !zlen_cons in Sm. assert (Hv : 0 <= v <= 65535) by (unfold v; lia).
  assert (Ls : zlen src = zlen out + 2 + zlen t) by (rewrite Es, zlen_app, !zlen_cons; lia).
  assert (Sm2 : small (out ++ [a; b]) t) by (unfold small; rewrite !zlen_app, !zlen_cons; change (zlen (@nil Z)) with 0; lia).
  assert (Lo : zlen (out ++ [a; b]) = zlen out + 2) by (now rewrite zlen_app).
  destruct (Z_lt_dec (zlen room) 4) as [S4|L4].
  { exists 1. split; [lia|]. rewrite wr_bytes_short by (auto; change (zlen (sc true)) with 4; lia). split; [discriminate|reflexivity]. }
  set (w1 := mkw (o ++ sc true) (skipn (length (sc true)) room)).
  assert (W1 : try_w (wr_bytes (mkw o room) (sc true)) = Ok w1) by (unfold w1; rewrite wr_end by (auto; change (zlen (sc true)) with 4; lia); reflexivity).
  rewrite W1. cbn [bind]. cbn [mkw bb_offset]. rewrite Lo.
  assert (Sw1 : small (o ++ sc true) (skipn (length (sc true)) room)).
  { unfold small in *. rewrite !zlen_app in *. change (zlen (sc true)) with 4. unfold zlen in *. rewrite skipn_length. change (length (sc true)) with 4%nat. lia. }
  destruct (Z_lt_dec (zlen t) v) as [St|Lt].
  - (* cut off *)
    exists (v - zlen t). split; [lia|]. split; [intros _; exists out, a, b, t; split; [exact Es|reflexivity]|]. intros spare. unfold slice_cap, slice. rewrite zlen_app.
    replace ((0 <=? zlen out + 2) && (zlen out + 2 <=? zlen out + 2 + v) && (zlen out + 2 + v <=? zlen src)) with false by lia. cbn [of_opt bind covered].
    destruct (v - zlen t <=? zlen spare) eqn:C.
    + replace ((0 <=? zlen out + 2) && (zlen out + 2 <=? zlen out + 2 + v) && (zlen out + 2 + v <=? zlen src + zlen spare)) with true by lia. cbn [of_opt bind].
      set (d := firstn _ _). assert (Ld : zlen d <= v) by (unfold d, zlen; rewrite firstn_length; lia). clearbody d. pose proof (zlen_nonneg d).
      assert (W : exists w2, try_w (wr_bytes w1 d) = Ok w2 \/ try_w (wr_bytes w1 d) = Err).
      { unfold w1. destruct (Z_le_dec (zlen d) (zlen (skipn (length (sc true)) room))).
        - rewrite wr_end by (auto; exact Sw1). eexists. now left.
        - rewrite wr_bytes_short by (auto; lia). exists w1. now right. }
      destruct W as (w2 & [-> | ->]); [|reflexivity]. cbn [bind].
      rewrite seek_short by (auto; lia). reflexivity.
    + replace ((0 <=? zlen out + 2) && (zlen out + 2 <=? zlen out + 2 + v) && (zlen out + 2 + v <=? zlen src + zlen spare)) with false by lia. reflexivity.
  - destruct (app_split t v) as (n & t' & -> & Ln); [lia|]. apply bytes_ok_app in Bt as [Bn Bt'].
    assert (Sl : slice src (zlen out + 2) (zlen out + 2 + v) = Some n).
    { rewrite <- Lo, <- Ln. replace src with ((out ++ [a; b]) ++ n ++ t') by (rewrite Es, <- app_assoc; reflexivity). apply slice_app_mid. }
    rewrite Sl. cbn [of_opt bind].
    assert (Sc : forall spare, slice_cap src spare (zlen out + 2) (zlen out + 2 + v) = Some n) by (intros spare; now apply slice_cap_some).
    destruct (Z_le_dec (zlen n) (zlen (skipn (length (sc true)) room))) as [Fit|No2].
    2: { exists 1. split; [lia|]. unfold w1. rewrite wr_bytes_short by (auto; lia). split; [discriminate|]. intros spare. rewrite Sc. cbn [of_opt bind]. rewrite wr_bytes_short by (auto; lia). reflexivity. }
    set (w2 := mkw ((o ++ sc true) ++ n) (skipn (length n) (skipn (length (sc true)) room))). set (r2 := mkw ((out ++ [a; b]) ++ n) t').
    assert (W : try_w (wr_bytes w1 n) = Ok w2) by (unfold w1, w2; rewrite wr_end by (auto; exact Sw1); reflexivity).
    assert (K : try_w (bb_seek (mkw (out ++ [a; b]) (n ++ t')) v) = Ok r2) by (unfold r2; apply seek_ok; auto).
    assert (Sw2 : small ((o ++ sc true) ++ n) (skipn (length n) (skipn (length (sc true)) room))).
    { unfold small in Sw1 |- *. rewrite zlen_app in *. rewrite (zlen_app (o ++ sc true) n). rewrite zlen_skip_fit by lia. lia. }
    assert (Sr2 : small ((out ++ [a; b]) ++ n) t') by (unfold small in Sm2 |- *; now rewrite <- app_assoc).
    assert (Er2 : src = ((out ++ [a; b]) ++ n) ++ t') by (rewrite Es, <- !app_assoc; reflexivity).
    rewrite W, K. cbn [bind].
    destruct ((bb_readable r2 >? 2) && (u - 1 =? 0) && (s + 1 =? 1)) eqn:C.
    + destruct t' as [|p t'].
      * destruct (IH src ((out ++ [a; b]) ++ n) [] ((o ++ sc true) ++ n) (skipn (length n) (skipn (length (sc true)) room)) 0 (s + 1) Er2 Bt' Sr2 Sw2) as (k & Hk & Cu & E).
        unfold r2. rewrite rd_u8_nil by exact Sr2. exists k. split; [exact Hk|]. split; [exact Cu|]. intros spare. rewrite Sc. cbn [of_opt bind]. rewrite W. cbn [bind]. rewrite ?K. cbn [bind]. rewrite ?C. unfold r2. rewrite ?rd_u8_nil by exact Sr2. apply E.
      * apply Forall_cons_iff in Bt' as [Bp Bt'].
        destruct (IH src (((out ++ [a; b]) ++ n) ++ [p]) t' ((o ++ sc true) ++ n) (skipn (length n) (skipn (length (sc true)) room)) p (s + 1)) as (k & Hk & Cu & E);
          [rewrite Er2, <- !app_assoc; reflexivity|exact Bt'|unfold small in Sr2 |- *; now rewrite <- app_assoc|exact Sw2|].
        unfold r2. rewrite rd_u8_cons by exact Sr2. exists k. split; [exact Hk|]. split; [exact Cu|]. intros spare. rewrite Sc. cbn [of_opt bind]. rewrite W. cbn [bind]. rewrite ?K. cbn [bind]. rewrite ?C. unfold r2. rewrite ?rd_u8_cons by exact Sr2. apply E.
    + destruct (IH src ((out ++ [a; b]) ++ n) t' ((o ++ sc true) ++ n) (skipn (length n) (skipn (length (sc true)) room)) (u - 1) (s + 1) Er2 Bt' Sr2 Sw2) as (k & Hk & Cu & E).
      exists k. split; [exact Hk|]. split; [exact Cu|]. intros spare. rewrite Sc. cbn [of_opt bind]. rewrite W. cbn [bind]. rewrite ?K. cbn [bind]. rewrite ?C. apply E.
Qed.

Lemma m4vc_loop_mkw f : forall src r o room u s w, zlen src < 2 ^ 63 -> small o room -> m4vc_loop f src r (mkw o room) u s = Ok w -> exists o' room', w = mkw o' room'.
Proof.
  induction f as [|f IH]; intros src r o room u s w Lsrc Sm E; [discriminate|]. cbn [m4vc_loop] in E.
  destruct (u =? 0); [injection E as <-; eauto|]. cbv zeta in E.
  assert (W : forall o room d x, small o room -> zlen d < 2 ^ 63 -> try_w (wr_bytes (mkw o room) d) = Ok x -> exists o' room', x = mkw o' room' /\ small o' room').
  { clear. intros o room d x Sm Ld E. destruct (Z_le_dec (zlen d) (zlen room)).
    - rewrite wr_end in E by auto. injection E as <-. do 2 eexists. split; [reflexivity|]. unfold small in *. rewrite !zlen_app in *. rewrite zlen_skip_fit by lia. lia.
    - rewrite wr_bytes_short in E by (auto; lia). discriminate. }
  destruct (try_ (rd_uint 2 r)) as [[r1 size]| | |]; cbn [bind] in E; try discriminate.
  destruct (try_w (wr_bytes (mkw o room) StartCode4)) as [w1| | |] eqn:E1; cbn [bind] in E; try discriminate.
  apply W in E1 as (o1 & room1 & -> & Sm1); [|exact Sm|reflexivity].
  destruct (slice src _ _) as [d|] eqn:Ed; cbn [of_opt bind] in E; [|discriminate].
  destruct (try_w (wr_bytes (mkw o1 room1) d)) as [w2| | |] eqn:E2; cbn [bind] in E; try discriminate.
  apply W in E2 as (o2 & room2 & -> & Sm2); [|exact Sm1|].
  2: { unfold slice in Ed. destruct (_ && _ && _); [|discriminate]. assert (zlen d <= zlen src); [|lia]. injection Ed as <-. unfold zlen. rewrite firstn_length, skipn_length. lia. }
  destruct (try_w (bb_seek r1 size)) as [r2| | |]; cbn [bind] in E; try discriminate.
  destruct (_ && _ && _); [destruct (rd_u8 r2) as [r3 [x| | |]]; try discriminate|]; exact (IH _ _ _ _ _ _ _ Lsrc Sm2 E).
Qed.

Lemma m4vc_cap src : bytes_ok src -> zlen src < 2 ^ 62 ->
  exists k, 1 <= k <= 65535 /\ (m4vc_extra_to_annexb src = Panic -> cut_by k src) /\ forall spare, m4vc_extra_to_annexb_cap src spare = covered k spare (m4vc_extra_to_annexb src).
Proof.
  intros B L. unfold m4vc_extra_to_annexb_cap, m4vc_extra_to_annexb. generalize 1000%nat. intros fuel. rewrite !bb_new_mkw. pose proof (zlen_nonneg src) as Ns.
  destruct src as [|h0 [|h1 [|h2 [|h3 d]]]]; [exists 1; split; [lia|]; split; [discriminate|reflexivity]..|]. set (src := h0 :: h1 :: h2 :: h3 :: d) in *.
  assert (Sm : small [h0; h1; h2; h3] d) by (unfold small; change ([h0; h1; h2; h3] ++ d) with src; lia).
  assert (E0 : try_w (bb_seek (mkw [] src) 4) = Ok (mkw [h0; h1; h2; h3] d)) by (change src with ([h0; h1; h2; h3] ++ d); apply (seek_ok []); auto).
  rewrite E0. cbn [bind]. destruct d as [|h4 d]; [exists 1; split; [lia|]; rewrite rd_u8_nil by exact Sm; split; [discriminate|reflexivity]|].
  rewrite rd_u8_ok by exact Sm. cbn [bind]. apply (small_app _ [h4]) in Sm. cbn [app] in Sm |- *.
  set (room := zeros (Z.to_nat (zlen src + 256))) in *.
  assert (Lr : zlen room = zlen src + 256) by (unfold room, zlen at 1; rewrite zeros_length; lia).
  assert (Smr : small [] room) by (unfold small; cbn [app]; lia).
  assert (Bd : bytes_ok d) by (unfold src in B; repeat (apply Forall_cons_iff in B as [_ B]); exact B).
  assert (W : forall (u : Z) out rest, src = out ++ rest -> bytes_ok rest -> small out rest ->
    exists k, 1 <= k <= 65535 /\ ((w <- m4vc_loop fuel src (mkw out rest) (mkw [] room) u 0;; wr_written w) = Panic -> cut_by k src) /\ forall spare, (w <- m4vc_loop_cap fuel src spare (mkw out rest) (mkw [] room) u 0;; wr_written w) = covered k spare (w <- m4vc_loop fuel src (mkw out rest) (mkw [] room) u 0;; wr_written w)).
  { intros u out rest Es Br Sr. destruct (m4vc_loop_cap_spec fuel src out rest [] room u 0 Es Br Sr Smr) as (k & Hk & Cu & E). exists k. split; [exact Hk|].
    destruct (m4vc_loop fuel src (mkw out rest) (mkw [] room) u 0) as [w| | |] eqn:El; cbn [bind covered].
    - apply m4vc_loop_mkw in El as (o' & room' & ->); [|lia|exact Smr]. unfold wr_written, slice. cbn [mkw bb_data bb_offset]. rewrite zlen_app. pose proof (zlen_nonneg o'). pose proof (zlen_nonneg room').
      replace (_ && _ && _) with true by lia. split; [discriminate|]. intros spare. rewrite E. cbn [bind covered]. unfold wr_written, slice. cbn [mkw bb_data bb_offset]. rewrite zlen_app. replace (_ && _ && _) with true by lia. reflexivity.
    - split; [discriminate|]. intros spare. rewrite E. reflexivity.
    - split; [intros _; exact (Cu eq_refl)|]. intros spare. rewrite E. cbn [covered]. destruct (k <=? zlen spare); reflexivity.
    - split; [discriminate|]. intros spare. rewrite E. reflexivity. }
  destruct d as [|c t].
  - rewrite rd_u8_nil by exact Sm. cbn [bind]. apply (W 0 _ []); auto.
  - rewrite rd_u8_cons by exact Sm. cbn [bind]. apply Forall_cons_iff in Bd as [Bc Bt]. apply (W (Z.land c 31) _ t); auto.
Qed.

Lemma stored_prefix us : forall room b, stored room us = Some b -> b = firstn (Z.to_nat room) (avcc us).
Proof.
  induction us as [|u us IH]; intros room b E; cbn [stored] in E; [injection E as <-; now rewrite firstn_nil|].
  change (u :: us) with ([u] ++ us). rewrite avcc_app. destruct (room <? 4) eqn:L4; [discriminate E|]. pose proof (zlen_nonneg u). destruct (4 + zlen u <=? room) eqn:L.
  - destruct (stored _ us) as [b'|] eqn:E'; [|discriminate]. assert (b = avcc [u] ++ b') by congruence. subst b. apply IH in E' as ->. rewrite firstn_app. pose proof (avcc1_len u) as La.
    rewrite (firstn_all2 (n := Z.to_nat room) (avcc [u])) by (unfold zlen in *; lia).
    do 2 f_equal. unfold zlen in *. lia.
  - destruct us; [|discriminate]. assert (b = firstn (Z.to_nat room) (avcc [u])) by congruence. subst b. change (avcc []) with (@nil Z). now rewrite app_nil_r.
Qed.

Lemma packet_cap spare p : pk_media p = AVMediaTypeVideo -> pk_type p = PacketTypeAnnexB -> is_h26x (pk_codec p) = true -> pk_avcc p = None -> alloc_ok p -> bytes_ok (pk_data p) ->
  exists units, found_units (pk_data p) units /\
    let R := avcc units in let room := zlen (pk_data p) + 256 in let extra := match pk_alloc p with Some _ => spare | None => [] end in
    annexb_packet_to_avcc_cap spare p =
      match stored room units with
      | Some _ => if zlen R <=? room + zlen extra then let r := firstn (Z.to_nat room) R ++ firstn (Z.to_nat (zlen R - room)) extra in Ok (set_avcc p r, r) else Panic
      | None => Panic
      end.
Proof.
  intros M T H N A B. pose proof (zlen_nonneg (pk_data p)) as Nd. destruct (annexb2avcc_all (pk_data p) (alloc p (zlen (pk_data p) + 256)) B) as (units & F & E).
  exists units. split; [exact F|]. cbv zeta. pose proof (alloc_len p (zlen (pk_data p) + 256) A ltac:(lia)) as La. rewrite La in E.
  unfold annexb_packet_to_avcc_cap. rewrite M, T, H, N, E. cbn [negb orb Z.eqb AVMediaTypeVideo PacketTypeAnnexB assert bind Pos.eqb].
  set (room := zlen (pk_data p) + 256) in *. set (extra := match pk_alloc p with Some _ => spare | None => [] end). set (dst := alloc p room) in *.
  destruct (stored room units) as [b|] eqn:S1; [|reflexivity]. cbn [bind]. pose proof (stored_prefix _ _ _ S1) as Eb.
  assert (Ld : zlen (b ++ skipn (length b) dst) = room).
  { assert (zlen b <= room) by (rewrite Eb; unfold zlen; rewrite firstn_length; lia). rewrite zlen_app. unfold zlen in *. rewrite skipn_length. lia. }
  pose proof (zlen_nonneg (avcc units)) as NR. unfold slice_cap, slice. rewrite zlen_app, Ld. replace ((0 <=? 0) && (0 <=? zlen (avcc units))) with true by lia. cbn [andb].
  destruct (zlen (avcc units) <=? room + zlen extra); [|reflexivity]. cbn [of_opt bind]. rewrite Z.sub_0_r. cbn [Z.to_nat skipn].
  replace (firstn _ ((b ++ _) ++ extra)) with (firstn (Z.to_nat room) (avcc units) ++ firstn (Z.to_nat (zlen (avcc units) - room)) extra); [reflexivity|].
  rewrite firstn_app. f_equal.
  - destruct (Z_le_dec (zlen (avcc units)) room) as [L|L].
    + rewrite (stored_fits _ _ L) in S1. injection S1 as <-. assert (Z.to_nat (zlen (avcc units)) = length (avcc units)) as -> by (unfold zlen; lia).
      rewrite firstn_app, Nat.sub_diag, firstn_all. cbn [firstn]. rewrite app_nil_r. apply firstn_all2. unfold zlen in *. lia.
    + assert (Lb : zlen b = room) by (rewrite Eb; unfold zlen in *; rewrite firstn_length; lia).
      assert (skipn (length b) dst = []) as -> by (apply skipn_all2; unfold zlen in *; lia). rewrite app_nil_r, <- Eb. symmetry. apply firstn_all2. unfold zlen in *. lia.
  - f_equal. unfold zlen in *. lia.
Qed.

Lemma no_spare :
  (forall b n, br_read_bytes_cap b [] n = br_read_bytes b n) /\
  (forall src, m4vc_extra_to_annexb_cap src [] = m4vc_extra_to_annexb src) /\
  (forall p, annexb_packet_to_avcc_cap [] p = annexb_packet_to_avcc p).
Proof.
  split; [|split].
  - intros b n. unfold br_read_bytes_cap, slice_cap. now rewrite app_nil_r.
  - assert (Lp : forall f src r w u s, m4vc_loop_cap f src [] r w u s = m4vc_loop f src r w u s).
    { induction f as [|f IH]; intros src r w u s; [reflexivity|]. cbn [m4vc_loop m4vc_loop_cap]. destruct (u =? 0); [reflexivity|]. cbv zeta.
      destruct (try_ (rd_uint 2 r)) as [[r1 size]| | |]; cbn [bind]; try reflexivity. destruct (try_w (wr_bytes w StartCode4)) as [w1| | |]; cbn [bind]; try reflexivity.
      unfold slice_cap. rewrite app_nil_r. destruct (of_opt _) as [d| | |]; cbn [bind]; try reflexivity. destruct (try_w (wr_bytes w1 d)) as [w2| | |]; cbn [bind]; try reflexivity.
      destruct (try_w (bb_seek r1 size)) as [r2| | |]; cbn [bind]; try reflexivity. destruct (_ && _ && _); [destruct (rd_u8 r2) as [r3 [x| | |]]|]; auto. }
    intros src. unfold m4vc_extra_to_annexb_cap, m4vc_extra_to_annexb. generalize 1000%nat. intros fuel. destruct (try_w _) as [r0| | |]; cbn [bind]; try reflexivity.
    destruct (try_ (rd_u8 r0)) as [[r1 x]| | |]; cbn [bind]; try reflexivity. destruct (rd_u8 r1) as [r2 n]. destruct (match n with Ok _ => _ | _ => _ end) as [u| | |]; cbn [bind]; try reflexivity. now rewrite Lp.
  - intros p. unfold annexb_packet_to_avcc_cap, annexb_packet_to_avcc, slice_cap. destruct (assert _); cbn [bind]; try reflexivity. destruct (_ || _); [reflexivity|]. destruct (pk_avcc p); [reflexivity|].
    destruct (annexb2avcc _ _) as [[bytes n]| | |]; cbn [bind]; try reflexivity. destruct (pk_alloc p); now rewrite app_nil_r.
Qed.

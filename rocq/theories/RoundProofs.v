(** * RoundProofs: AVCCPacket2AnnexB on arbitrary H.265 packets, and packets converted there and back. *)
From Verif Require Import Base RingProofs BufioModel BytesSpec BytesProofs NaluModel NaluSpec NaluProofs SplitProofs AvccProofs AnnexbProofs HevcMp4Proofs RecordModel RecordSpec RecordProofs HevcRecordProofs
  SpsModel AacModel PacketModel PacketProofs PropertiesNalu PropertiesRecord.

Lemma app_inv_length {A} (a b c d : list A) : a ++ b = c ++ d -> length a = length c -> a = c /\ b = d.
Proof.
  revert c. induction a as [|x a IH]; intros [|y c] E L; cbn in L; try lia; [now split|]. cbn [app] in E. injection E as -> E. destruct (IH c E) as [-> ->]; [lia|]. now split.
Qed.

Lemma lp_cons_inv k n r l : (1 <= k <= 4)%nat -> lp_unit_ok k n -> Forall (lp_unit_ok k) l -> be_bytes k (zlen n) ++ n ++ r = lp k l ->
  exists l', l = n :: l' /\ r = lp k l' /\ Forall (lp_unit_ok k) l'.
Proof.
  intros K (Bn & Ln) F E. assert (Lb : forall v, length (be_bytes k v) = k) by (intros; apply be_bytes_length). destruct l as [|m l].
  { exfalso. apply (f_equal (@length Z)) in E. cbn [lp] in E. rewrite !app_length, Lb in E. cbn [length] in E. lia. }
  apply Forall_cons_iff in F as [(Bm & Lm) F]. cbn [lp] in E. apply app_inv_length in E as [E1 E2]; [|now rewrite !Lb].
  assert (zlen n = zlen m). { apply (f_equal be_value) in E1. rewrite !be_bytes_value, !Z.mod_small in E1 by lia. exact E1. }
  apply app_inv_length in E2 as [-> ->]; [|unfold zlen in *; lia]. exists l. auto.
Qed.

(** One iteration on arbitrary data. *)
Lemma hevc_iter k d : (1 <= k <= 4)%nat -> bytes_ok d -> d <> [] ->
  ((forall l, Forall (lp_unit_ok k) l -> d <> lp k l) /\ forall f pre dst n0 got, hevc_mp4_to_annexb_loop (S f) dst (pre ++ d) [] (Z.of_nat k) (zlen pre) n0 got = Err) \/
  exists n r, lp_unit_ok k n /\ d = be_bytes k (zlen n) ++ n ++ r /\ forall f pre dst n0 got,
    hevc_mp4_to_annexb_loop (S f) dst (pre ++ d) [] (Z.of_nat k) (zlen pre) n0 got =
    (dst2 <- of_opt (copy_at dst n0 (sc true));; dst3 <- of_opt (copy_at dst2 (n0 + 4) n);;
     hevc_mp4_to_annexb_loop f dst3 ((pre ++ be_bytes k (zlen n) ++ n) ++ r) [] (Z.of_nat k) (zlen (pre ++ be_bytes k (zlen n) ++ n)) (n0 + 4 + zlen n) (got || irap n)).
Proof.
  intros Hk B N. pose proof (zlen_nonneg d) as Nd. assert (P : zlen d <> 0) by (intros Z0; apply N, (zlen_zero d Z0)).
  assert (NL : forall l, Forall (lp_unit_ok k) l -> d = lp k l -> exists n l', l = n :: l' /\ d = be_bytes k (zlen n) ++ n ++ lp k l' /\ lp_unit_ok k n).
  { intros l F E. destruct l as [|n l]; [cbn in E; congruence|]. apply Forall_cons_iff in F as [Fn F]. exists n, l. auto. }
  destruct (Z_lt_dec (zlen d) (Z.of_nat k)) as [Sh|Lg].
  { left. split.
    - intros l F E. destruct (NL l F E) as (n & l' & _ & E' & _). rewrite E', !zlen_app in Sh. unfold zlen at 1 in Sh. rewrite be_bytes_length in Sh. pose proof (zlen_nonneg n). pose proof (zlen_nonneg (lp k l')). lia.
    - intros f pre dst n0 got. pose proof (zlen_nonneg pre). cbn [hevc_mp4_to_annexb_loop]. rewrite zlen_app. replace (zlen pre <? _) with true by lia. now replace (_ <? Z.of_nat k) with true by lia. }
  set (h := firstn k d). set (t := skipn k d). assert (Ed : d = h ++ t) by (symmetry; apply firstn_skipn).
  assert (Lk : length h = k) by (unfold h; rewrite firstn_length; unfold zlen in Lg; lia).
  assert (Bh : bytes_ok h) by (now apply bytes_ok_firstn). assert (Bt : bytes_ok t) by (now apply bytes_ok_skipn).
  assert (Lh : zlen h = Z.of_nat k) by (unfold zlen; now rewrite Lk). assert (Ld : zlen d = Z.of_nat k + zlen t) by (rewrite Ed, zlen_app; lia). pose proof (zlen_nonneg t) as Nt.
  pose proof (be_value_bound h Bh) as V. rewrite Lh in V. set (v := be_value h) in *.
  assert (K : 256 ^ Z.of_nat k <= 2 ^ 32) by (change (2 ^ 32) with (256 ^ 4); apply Z.pow_le_mono_r; lia).
  assert (RL : forall pre, read_length k (pre ++ d) (zlen pre) 0 = Ok (v, zlen (pre ++ h))) by (intros; rewrite Ed; now apply read_length_k).
  destruct ((v <? 2) || (v >? zlen t)) eqn:C.
  { left. split.
    - intros l F E. destruct (NL l F E) as (n & l' & _ & E' & (Bn & Ln)). rewrite Ed in E'. apply app_inv_length in E' as [E1 E2]; [|now rewrite be_bytes_length].
      assert (v = zlen n) by (unfold v; rewrite E1, be_bytes_value, Z.mod_small by lia; reflexivity). pose proof (zlen_nonneg (lp k l')). rewrite E2, zlen_app in C. lia.
    - intros f pre dst n0 got. pose proof (zlen_nonneg pre). cbn [hevc_mp4_to_annexb_loop]. rewrite (zlen_app pre d). replace (zlen pre <? _) with true by lia. replace (_ <? Z.of_nat k) with false by lia. rewrite Nat2Z.id.
      rewrite RL. cbn [bind]. rewrite zlen_app, Lh. now replace ((v <? 2) || _) with true by lia. }
  right. set (n := firstn (Z.to_nat v) t). set (r := skipn (Z.to_nat v) t). assert (Et : t = n ++ r) by (symmetry; apply firstn_skipn).
  assert (Lt : zlen n = v) by (unfold n; rewrite zlen_firstn; lia). assert (Ltr : zlen t = v + zlen r) by (rewrite Et at 1; rewrite zlen_app; lia). pose proof (zlen_nonneg r) as Nr.
  assert (Hn : lp_unit_ok k n) by (split; [now apply bytes_ok_firstn|lia]).
  assert (Eh : h = be_bytes k (zlen n)) by (rewrite Lt; unfold v; rewrite <- Lk; symmetry; now apply be_value_bytes).
  exists n, r. split; [exact Hn|]. split; [rewrite Ed, Et, Eh; reflexivity|]. intros f pre dst n0 got. pose proof (zlen_nonneg pre).
  cbn [hevc_mp4_to_annexb_loop]. rewrite (zlen_app pre d). replace (zlen pre <? _) with true by lia. replace (_ <? Z.of_nat k) with false by lia. rewrite Nat2Z.id, RL. cbn [bind].
  rewrite zlen_app, Lh. replace ((v <? 2) || _) with false by lia. rewrite <- Eh.
  assert (Ep : pre ++ d = (pre ++ h) ++ n ++ r) by (rewrite Ed, Et, <- app_assoc; reflexivity).
  assert (Li : zlen pre + Z.of_nat k = zlen (pre ++ h)) by (rewrite zlen_app; lia). rewrite Ep, Li.
  assert (Hi : idx ((pre ++ h) ++ n ++ r) (zlen (pre ++ h)) = Some (hd 0 n) /\ byte_ok (hd 0 n)).
  { clear -Hn. destruct Hn as (Bn & Ln). destruct n as [|x n']; [change (zlen (@nil Z)) with 0 in Ln; lia|]. split; [cbn [app]; apply idx_app_mid|now inversion Bn]. }
  destruct Hi as [Hi Hb]. rewrite Hi. cbn [of_opt bind]. rewrite hevc_type_mod by auto. fold (hevc_nal_type n). cbv zeta.
  assert (I0 : (hevc_nal_type n >=? 16) && (hevc_nal_type n <=? 23) = irap n) by (unfold irap; now rewrite Z.geb_leb).
  rewrite I0. change (zlen (@nil Z) >? 0) with false. rewrite andb_false_r. cbn [bind]. change StartCode4 with (sc true).
  rewrite <- Lt, slice_app_mid. cbn [of_opt bind]. rewrite <- !app_assoc. replace (zlen (pre ++ h) + zlen n) with (zlen (pre ++ h ++ n)) by (rewrite !zlen_app; lia). reflexivity.
Qed.

Lemma hevc_beyond k f pre d dst n0 got : (1 <= k <= 4)%nat -> bytes_ok d -> zlen dst < n0 -> 0 <= n0 ->
  let x := hevc_mp4_to_annexb_loop (S f) dst (pre ++ d) [] (Z.of_nat k) (zlen pre) n0 got in x = Ok (dst, n0) \/ x = Err \/ x = Panic.
Proof.
  intros K B L Hn x. destruct d as [|b d].
  - left. unfold x. cbn [hevc_mp4_to_annexb_loop]. now rewrite app_nil_r, Z.ltb_irrefl.
  - right. destruct (hevc_iter k (b :: d) K B ltac:(congruence)) as [[_ E]|(n & r & _ & _ & E)]; unfold x; rewrite E; [now left|right].
    unfold copy_at at 1. replace ((0 <=? n0) && (n0 <=? zlen dst)) with false by lia. reflexivity.
Qed.

Lemma copy_at_len {A} (dst : list A) off src r : copy_at dst off src = Some r -> zlen r = zlen dst.
Proof.
  unfold copy_at. destruct ((0 <=? off) && (off <=? zlen dst)) eqn:C; [|discriminate]. intros E. injection E as <-. unfold zlen in *. unfold copy. rewrite !app_length, !firstn_length, !skipn_length. lia.
Qed.

Lemma hevc_all k : (1 <= k <= 4)%nat -> forall f d, bytes_ok d -> (length d < f)%nat -> forall pre out rest got,
  let x := hevc_mp4_to_annexb_loop f (out ++ rest) (pre ++ d) [] (Z.of_nat k) (zlen pre) (zlen out) got in
  (exists l, Forall (lp_unit_ok k) l /\ d = lp k l /\ zlen (annexb4 l) <= zlen rest /\ x = Ok ((out ++ annexb4 l) ++ skipn (length (annexb4 l)) rest, zlen (out ++ annexb4 l))) \/
  ((forall l, Forall (lp_unit_ok k) l -> d = lp k l -> zlen rest < zlen (annexb4 l)) /\
   (x = Err \/ x = Panic \/ exists dst' n', x = Ok (dst', n') /\ zlen dst' = zlen (out ++ rest) /\ zlen dst' < n')).
Proof.
  intros K. induction f as [|f IH]; intros d B Hf pre out rest got x; [lia|]. subst x.
  destruct d as [|b d].
  { left. exists []. split; [constructor|]. split; [reflexivity|]. split; [apply zlen_nonneg|]. cbn [hevc_mp4_to_annexb_loop]. rewrite !app_nil_r, Z.ltb_irrefl. reflexivity. }
  set (d0 := b :: d) in *. assert (Nd : d0 <> []) by (unfold d0; congruence). clearbody d0. clear b d.
  destruct (hevc_iter k d0 K B Nd) as [[NL E]|(n & r & Hn & Ed & E)].
  { right. split; [intros l F El; now apply NL in El|]. left. apply E. }
  rewrite E. assert (Br : bytes_ok r) by (rewrite Ed in B; do 2 (apply bytes_ok_app in B as [_ B]); exact B).
  assert (Lr : (length r < f)%nat) by (rewrite Ed, !app_length in Hf; destruct Hn as [_ Hn]; unfold zlen in Hn; lia).
  pose proof (zlen_nonneg rest) as NR. pose proof (zlen_nonneg out) as NO. pose proof (zlen_nonneg n) as Nn.
  assert (A4 : forall l, annexb4 (n :: l) = (sc true ++ n) ++ annexb4 l) by reflexivity.
  assert (Ls : zlen (sc true ++ n) = 4 + zlen n) by (rewrite zlen_app, zlen_sc; reflexivity).
  assert (Inv : forall l, Forall (lp_unit_ok k) l -> d0 = lp k l -> exists l', l = n :: l' /\ r = lp k l' /\ Forall (lp_unit_ok k) l') by (intros l F El; rewrite Ed in El; now apply lp_cons_inv).
  destruct (Z_le_dec (4 + zlen n) (zlen rest)) as [Fit|No].
  - rewrite copy_at_end by (rewrite zlen_sc; cbn [sc_len]; lia). cbn [of_opt bind].
    assert (Ls4 : zlen (skipn (length (sc true)) rest) = zlen rest - 4) by (rewrite zlen_skipn_nat; [reflexivity|unfold zlen in *; cbn [sc length]; lia]).
    replace (zlen out + 4) with (zlen (out ++ sc true)) by (rewrite zlen_app, zlen_sc; reflexivity). rewrite copy_at_end by lia. cbn [of_opt bind].
    replace (zlen (out ++ sc true) + zlen n) with (zlen (out ++ sc true ++ n)) by (rewrite !zlen_app; lia).
    assert (Eo : ((out ++ sc true) ++ n) ++ skipn (length n) (skipn (length (sc true)) rest) = (out ++ sc true ++ n) ++ skipn (length (sc true ++ n)) rest)
      by (rewrite skipn_skipn, app_length, <- !app_assoc; do 4 f_equal; lia).
    rewrite Eo. assert (Lrest : zlen (skipn (length (sc true ++ n)) rest) = zlen rest - (4 + zlen n)) by (rewrite zlen_skipn_nat; unfold zlen in *; lia).
    destruct (IH r Br Lr (pre ++ be_bytes k (zlen n) ++ n) (out ++ sc true ++ n) (skipn (length (sc true ++ n)) rest) (got || irap n)) as [(l & F & El & Ll & Ex)|[NL Ex]].
    + left. exists (n :: l). split; [constructor; auto|]. split; [rewrite Ed, El; reflexivity|]. rewrite A4. split; [rewrite zlen_app; lia|]. rewrite Ex. assert (EA : (out ++ sc true ++ n) ++ annexb4 l = out ++ (sc true ++ n) ++ annexb4 l) by (rewrite <- !app_assoc; reflexivity). rewrite EA, skipn_skipn. rewrite (app_length (sc true ++ n)). reflexivity.
    + right. split.
      * intros l F El. destruct (Inv l F El) as (l' & -> & Er & F'). specialize (NL l' F' Er). rewrite A4, zlen_app. lia.
      * destruct Ex as [Ex|[Ex|(dst' & n' & Ex & L1 & L2)]]; rewrite Ex; [now left|right; now left|right; right]. exists dst', n'. split; [reflexivity|]. split; [|exact L2]. rewrite L1. rewrite (zlen_app (out ++ _)), Lrest, (zlen_app out (sc true ++ n)), (zlen_app out rest). lia.
  - right. split.
    { intros l F El. destruct (Inv l F El) as (l' & -> & _). rewrite A4, zlen_app. pose proof (zlen_nonneg (annexb4 l')). lia. }
    destruct (copy_at (out ++ rest) (zlen out) (sc true)) as [d2|] eqn:C2; [|right; now left]. cbn [of_opt bind]. destruct (copy_at d2 (zlen out + 4) n) as [d3|] eqn:C3; [|right; now left]. cbn [of_opt bind].
    apply copy_at_len in C2, C3. destruct f as [|f]; [lia|].
    destruct (hevc_beyond k f (pre ++ be_bytes k (zlen n) ++ n) r d3 (zlen out + 4 + zlen n) (got || irap n) K Br) as [Q|[Q|Q]]; [rewrite C3, C2, zlen_app; lia|lia| | |]; rewrite Q; [|now left|right; now left].
    right. right. exists d3, (zlen out + 4 + zlen n). split; [reflexivity|]. rewrite C3, C2. split; [reflexivity|]. rewrite zlen_app. lia.
Qed.

Lemma hevc_mp4_all k d rest : (k <= 4)%nat -> bytes_ok d ->
  (exists l, Forall (lp_unit_ok k) l /\ d = lp k l /\ zlen (annexb4 l) <= zlen rest) \/
  ((forall l, Forall (lp_unit_ok k) l -> d = lp k l -> zlen rest < zlen (annexb4 l)) /\
   let x := hevc_mp4_to_annexb rest d [] (Z.of_nat k) in (x = Err \/ x = Panic \/ exists dst' n', x = Ok (dst', n') /\ zlen dst' = zlen rest /\ zlen dst' < n')).
Proof.
  intros K B. destruct k as [|k].
  - destruct d as [|b d]; [left; exists []; split; [constructor|]; split; [reflexivity|apply zlen_nonneg]|]. right. split.
    + intros l F E. exfalso. destruct l as [|n l]; [discriminate|]. apply Forall_cons_iff in F as [[_ F] _]. change (256 ^ Z.of_nat 0) with 1 in F. lia.
    + left. unfold hevc_mp4_to_annexb. cbn [hevc_mp4_to_annexb_loop]. pose proof (zlen_nonneg d). rewrite zlen_cons. replace (0 <? _) with true by lia. change (Z.of_nat 0) with 0. replace (_ <? 0) with false by lia. reflexivity.
  - destruct (hevc_all (S k) ltac:(lia) (S (length d)) d B ltac:(lia) [] [] rest false) as [(l & F & E & L & _)|X]; [left; eauto|right]. exact X.
Qed.
Lemma call_sub_panic pre rest f : f rest = Panic -> call_sub (pre ++ rest) (zlen pre) f = Panic.
Proof. intros E. unfold call_sub. rewrite slice_from_app. cbn [of_opt bind]. now rewrite E. Qed.
Lemma call_sub_err pre rest f : f rest = Err -> call_sub (pre ++ rest) (zlen pre) f = Err.
Proof. intros E. unfold call_sub. rewrite slice_from_app. cbn [of_opt bind]. now rewrite E. Qed.

Lemma hevc_packet_all s p cc k v sp pp : pk_media p = AVMediaTypeVideo -> pk_type p = PacketTypeAVCC -> is_h26x (st_codec s) = true -> pk_codec p = AVCodecIdH265 ->
  pk_annexb p = None -> st_params s = Some (CdHevc cc (Z.of_nat k) v sp pp) -> alloc_ok p -> (k <= 4)%nat -> bytes_ok (pk_data p) ->
  (exists units, pk_data p = lp k units /\ Forall (lp_unit_ok k) units /\ (4 - Z.of_nat k) * zlen units <= 256 /\
     let R := key_extra p (CdHevc cc (Z.of_nat k) v sp pp) ++ annexb4 units in avcc_packet_to_annexb s p = Ok (set_annexb p R, R)) \/
  ((forall units, pk_data p = lp k units -> Forall (lp_unit_ok k) units -> 256 < (4 - Z.of_nat k) * zlen units) /\ avcc_packet_to_annexb s p = Panic).
Proof.
  intros M T H C N P A K B. set (c := CdHevc cc (Z.of_nat k) v sp pp) in *. pose proof (zlen_nonneg (pk_data p)) as ND.
  set (E := match pk_key p, st_params s with true, Some c => zlen (cd_annexb c) | _, _ => 0 end).
  assert (NE : 0 <= E) by (unfold E; destruct (pk_key p), (st_params s); try lia; apply zlen_nonneg).
  pose proof (alloc_len p (E + zlen (pk_data p) + 256) A ltac:(lia)) as LA.
  destruct (split_at (alloc p (E + zlen (pk_data p) + 256)) E ltac:(lia)) as (pre & rest & Ea & Lp). rewrite Ea, zlen_app in LA.
  destruct (hevc_mp4_all k (pk_data p) rest K B) as [(l & F & El & L)|[NL X]].
  - left. exists l. split; [exact El|]. split; [exact F|]. assert (L2 : (4 - Z.of_nat k) * zlen l <= 256) by (rewrite (zlen_annexb4 _ k), <- El in L; lia). split; [exact L2|].
    destruct k as [|k]; [|unfold c; apply avcc_hevc; auto; lia].
    assert (l = []) as -> by (destruct l as [|n l]; [reflexivity|]; apply Forall_cons_iff in F as [[_ F] _]; change (256 ^ Z.of_nat 0) with 1 in F; lia). cbn [lp] in El.
    apply (avcc_core s p c []); auto. intros pre' rest' Lr. rewrite C, P, El. reflexivity || (unfold c; cbn). 
    change (AVCodecIdH264 =? AVCodecIdH265) with false. change (AVCodecIdH265 =? AVCodecIdH265) with true. cbv iota. unfold c. rewrite (call_sub_at pre' rest' _ rest' 0) by reflexivity. reflexivity.
  - right. split; [intros l El F; specialize (NL l F El); rewrite (zlen_annexb4 _ k), <- El in NL; lia|].
    unfold avcc_packet_to_annexb. rewrite M, T, H, N. change (AVMediaTypeVideo =? AVMediaTypeVideo) with true. change (PacketTypeAVCC =? PacketTypeAVCC) with true. cbn [assert bind negb orb]. fold E. cbv zeta.
    rewrite Ea, C, P. change (AVCodecIdH264 =? AVCodecIdH265) with false. change (AVCodecIdH265 =? AVCodecIdH265) with true. cbv iota. unfold c at 1. cbv zeta in X. rewrite <- Lp at 1.
    destruct X as [X|[X|(dst' & n' & X & L1 & L2)]].
    + rewrite call_sub_err by exact X. reflexivity.
    + rewrite call_sub_panic by exact X. reflexivity.
    + rewrite (call_sub_at pre rest _ dst' n') by exact X. cbn [bind of_opt]. rewrite <- Lp at 1. rewrite slice0. cbn [of_opt bind].
      rewrite slice_none; [reflexivity|]. rewrite <- Lp, skipn_zlen, zlen_app. assert (zlen (copy pre (cd_annexb c)) = zlen pre) by (unfold copy, zlen; rewrite app_length, firstn_length, skipn_length; lia). lia.
Qed.

(* ---------------------------------------------------------------------------------------- *)
(** ** There and back *)
Lemma lp4_avcc l : lp 4 l = avcc l.
Proof. induction l as [|n l IH]; cbn [lp avcc]; [reflexivity|]. now rewrite IH. Qed.
Lemma annexb4_annexb l : annexb4 l = annexb (map (fun n => (true, n)) l).
Proof. unfold annexb4. induction l as [|n l IH]; cbn [map concat annexb]; [reflexivity|]. rewrite IH, <- app_assoc. reflexivity. Qed.
Definition norm_codes (l : list (list Z)) : list (bool * list Z) := match l with [] => [] | n :: r => (true, n) :: map (fun m => (false, m)) r end.
Lemma norm_annexb l : annexb_norm l = annexb (norm_codes l).
Proof.
  destruct l as [|n r]; [reflexivity|]. cbn [annexb_norm norm_codes annexb]. do 2 f_equal. induction r as [|m r IH]; cbn [map concat annexb]; [reflexivity|]. rewrite IH, <- app_assoc. reflexivity.
Qed.
Lemma norm_snd l : map snd (norm_codes l) = l.
Proof. destruct l as [|n r]; [reflexivity|]. cbn [norm_codes map snd]. f_equal. rewrite map_map. cbn [snd]. apply map_id. Qed.
Lemma four_snd (l : list (list Z)) : map snd (map (fun n => (true, n)) l) = l.
Proof. rewrite map_map. cbn [snd]. apply map_id. Qed.
Lemma short_norm l : zlen (short_codes (norm_codes l)) = Z.max 0 (zlen l - 1).
Proof.
  destruct l as [|n r]; [reflexivity|]. cbn [norm_codes]. unfold short_codes. cbn [filter fst negb].
  assert (E : filter (fun u : bool * list Z => negb (fst u)) (map (fun m => (false, m)) r) = map (fun m => (false, m)) r) by (induction r as [|m r IH]; cbn [map filter fst negb]; [reflexivity|now rewrite IH]).
  rewrite E, zlen_cons. unfold zlen. rewrite map_length. lia.
Qed.
Lemma short_four (l : list (list Z)) : short_codes (map (fun n => (true, n)) l) = [].
Proof. unfold short_codes. induction l as [|n l IH]; cbn [map filter fst negb]; auto. Qed.

(** The record written for a stream made of Annex-B parameter sets says that lengths have 4 bytes. *)
Lemma hevc_codec_parsed grow v s q c : bytes_ok v -> bytes_ok s -> bytes_ok q -> hevc_nal_type v = 32 -> hevc_nal_type s = 33 -> hevc_nal_type q = 34 ->
  new_hevc_codec_data (sc true ++ v) (sc true ++ s) (sc true ++ q) = Ok c -> 38 + zlen v + zlen s + zlen q <= 1024 ->
  exists d cc', cd_mp4 c = Ok (Some d) /\ parse_hevc_record grow d = Ok (CdHevc cc' 4 [sc true ++ v] [sc true ++ s] [sc true ++ q]).
Proof.
  intros Bv Bs Bq Tv Ts Tq E L. pose proof (zlen_nonneg q). pose proof (zlen_nonneg s). pose proof (zlen_nonneg v). unfold new_hevc_codec_data in E. destruct (hevc_parse_sps (sc true ++ s)) as [i| | |] eqn:Ei; try discriminate E. cbn [bind] in E. injection E as <-.
  destruct (hevc_marshal_fits v s q) as [d Ed]; [intros ->; discriminate Tv|intros ->; discriminate Ts|intros ->; discriminate Tq|exact L|]. exists d.
  destruct (C42_hevc_record_partial grow [v] [s] [q] d) as (x & Er & EV & EP & _ & ES); try (constructor; [apply sc_bytes; [assumption|lia]|constructor]); [exact Ed|exact Tv|exact Ts|exact Tq|].
  specialize (ES eq_refl). unfold parse_hevc_record. rewrite Er. cbn [bind]. unfold hs_V, hs_S, hs_P in *. rewrite EV, ES, EP. unfold with4s. cbn [map]. rewrite idx_cons_0. cbn [of_opt bind]. rewrite Ei. cbn [bind].
  eexists. split; [unfold cd_mp4; cbn [cd_c cc_m4vc]; change (hevc_marshal _ _ _) with (hevc_marshal [sc true ++ v] [sc true ++ s] [sc true ++ q]); rewrite Ed; reflexivity|].
  assert (H4 : hh_length_size (header_of hdr0) = 4) by (vm_compute; reflexivity). rewrite H4. reflexivity.
Qed.

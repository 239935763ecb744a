(** * PacketProofs: packet conversion, codec data, packet pool. *)
From Verif Require Import Base RingProofs BitSpec BufioModel GolombProofs NaluModel NaluSpec NaluProofs SplitProofs AvccProofs AnnexbProofs HevcMp4Proofs RecordModel RecordSpec RecordProofs
  HevcRecordProofs CursorProofs FloatModel SpsModel SpsSpec SpsProofs AacModel PacketModel PropertiesNalu PropertiesRecord.

(* ---------------------------------------------------------------------------------------- *)
(** ** Buffers *)

(** OnBufferAlloc, when set, returns a slice of the requested size (with any contents). *)
Definition alloc_ok (p : packet) : Prop := match pk_alloc p with None => True | Some f => forall n, 0 <= n -> zlen (f n) = n end.

Lemma alloc_len p n : alloc_ok p -> 0 <= n -> zlen (alloc p n) = n.
Proof.
  unfold alloc_ok, alloc. destruct (pk_alloc p) as [f|]; intros H N; [now apply H|]. unfold zeros, zlen. rewrite repeat_length. lia.
Qed.

Lemma firstn_zlen {A} (a b : list A) : firstn (Z.to_nat (zlen a)) (a ++ b) = a.
Proof. unfold zlen. rewrite Nat2Z.id, firstn_app, firstn_all, Nat.sub_diag. cbn. apply app_nil_r. Qed.
Lemma skipn_zlen {A} (a b : list A) : skipn (Z.to_nat (zlen a)) (a ++ b) = b.
Proof. unfold zlen. rewrite Nat2Z.id, skipn_app, skipn_all, Nat.sub_diag. reflexivity. Qed.
Lemma split_at {A} (l : list A) n : 0 <= n <= zlen l -> exists a b, l = a ++ b /\ zlen a = n.
Proof.
  intros H. exists (firstn (Z.to_nat n) l), (skipn (Z.to_nat n) l). split; [symmetry; apply firstn_skipn|]. unfold zlen in *. rewrite firstn_length. lia.
Qed.
Lemma slice0 (a b : list Z) : slice (a ++ b) 0 (zlen a) = Some a.
Proof. pose proof (slice_app_mid [] a b) as H. cbn [app] in H. change (zlen (@nil Z)) with 0 in H. now rewrite Z.add_0_l in H. Qed.
Lemma copy_exact {A} (dst src rest : list A) : length dst = length src -> copy (dst ++ rest) src = src ++ rest.
Proof. intros H. unfold copy. rewrite app_length, firstn_all2 by lia. f_equal. rewrite <- H, skipn_app, skipn_all, Nat.sub_diag. reflexivity. Qed.

Lemma call_sub_at pre rest f r n : f rest = Ok (r, n) -> call_sub (pre ++ rest) (zlen pre) f = Ok (pre ++ r, n).
Proof. intros E. unfold call_sub. rewrite slice_from_app. cbn [of_opt bind]. rewrite E. cbn [bind]. now rewrite firstn_zlen. Qed.

(* ---------------------------------------------------------------------------------------- *)
(** ** AVCCPacket2AnnexB *)

(** The parameter sets put in front of a key packet. *)
Definition key_extra (p : packet) (c : codec_data) : list Z := if pk_key p then cd_annexb c else [].

(** The second call returns the cached bytes, whatever the stream. *)
Lemma avcc_cached s p R : pk_media p = AVMediaTypeVideo -> avcc_packet_to_annexb s (set_annexb p R) = Ok (set_annexb p R, R).
Proof.
  intros M. unfold avcc_packet_to_annexb, set_annexb at 1 2 3 4. cbn [pk_media pk_annexb pk_type pk_key]. rewrite M. cbn [assert bind].
  change (AVMediaTypeVideo =? AVMediaTypeVideo) with true. cbn [bind].
  destruct (_ || _); [|reflexivity]. destruct (pk_key p && is_h26x (st_codec s)); [destruct (st_params s); [|]|]; reflexivity.
Qed.

(** The common part: the converter writes [R] at the start of what follows the extra data. *)
Lemma avcc_core s p c R : pk_media p = AVMediaTypeVideo -> pk_type p = PacketTypeAVCC -> is_h26x (st_codec s) = true ->
  pk_annexb p = None -> st_params s = Some c -> alloc_ok p ->
  (forall pre rest, zlen rest = zlen (pk_data p) + 256 ->
        (if AVCodecIdH264 =? pk_codec p then call_sub (pre ++ rest) (zlen pre) (fun t => avcc2annexb t (pk_data p) [])
         else if AVCodecIdH265 =? pk_codec p then
           match st_params s with
           | Some (CdHevc _ lengthSize _ _ _) =>
             match call_sub (pre ++ rest) (zlen pre) (fun t => hevc_mp4_to_annexb t (pk_data p) [] lengthSize) with Err => Panic | r => r end
           | _ => Panic
           end
         else Ok (pre ++ rest, 0)) = Ok (pre ++ R ++ skipn (length R) rest, zlen R)) ->
  avcc_packet_to_annexb s p = Ok (set_annexb p (key_extra p c ++ R), key_extra p c ++ R).
Proof.
  intros M T H N P A C1. unfold avcc_packet_to_annexb. rewrite M, T, H, N. change (AVMediaTypeVideo =? AVMediaTypeVideo) with true.
  change (PacketTypeAVCC =? PacketTypeAVCC) with true. cbn [assert bind negb orb]. cbv zeta.
  assert (ES : (if pk_key p then match st_params s with Some c0 => zlen (cd_annexb c0) | None => 0 end else 0) = zlen (key_extra p c)).
  { rewrite P. unfold key_extra. destruct (pk_key p); reflexivity. }
  rewrite ES. set (X := key_extra p c) in *. pose proof (zlen_nonneg X) as NX. pose proof (zlen_nonneg (pk_data p)) as ND.
  pose proof (alloc_len p (zlen X + zlen (pk_data p) + 256) A ltac:(lia)) as LA. set (buf := alloc p _) in *. clearbody buf.
  destruct (split_at buf (zlen X) ltac:(lia)) as (pre & rest & -> & Lp). rewrite zlen_app in LA. rewrite <- Lp.
  rewrite C1 by lia. cbn [bind]. rewrite P. cbn [of_opt bind]. rewrite slice0. cbn [of_opt bind].
  rewrite skipn_zlen. assert (Cp : copy pre (cd_annexb c) = X).
  { destruct (pk_key p) eqn:K; unfold X, key_extra in *; rewrite K in *.
    - pose proof (copy_exact pre (cd_annexb c) [] ltac:(unfold zlen in Lp; lia)) as E. now rewrite !app_nil_r in E.
    - apply zlen_zero_nil in Lp. subst pre. unfold copy. cbn [length firstn app]. apply skipn_nil. }
  rewrite Cp, Lp, app_assoc. replace (zlen R + zlen X) with (zlen (X ++ R)) by (rewrite zlen_app; lia). rewrite slice0. reflexivity.
Qed.

Lemma avcc_avc s p c units tail : pk_media p = AVMediaTypeVideo -> pk_type p = PacketTypeAVCC -> is_h26x (st_codec s) = true -> pk_codec p = AVCodecIdH264 ->
  pk_annexb p = None -> st_params s = Some c -> alloc_ok p -> pk_data p = avcc units ++ tail -> Forall avcc_unit_ok units -> avcc_stop tail -> bytes_ok tail ->
  let R := key_extra p c ++ annexb_norm (filter not_sei units) in avcc_packet_to_annexb s p = Ok (set_annexb p R, R).
Proof.
  intros M T H C N P A D F S B R. set (R0 := annexb_norm (filter not_sei units)) in *.
  assert (LR : zlen R0 <= zlen (pk_data p)).
  { unfold R0. rewrite <- (render_norm _ false). pose proof (render_bound (filter not_sei units) true false). pose proof (avcc_filter not_sei units).
    rewrite D, zlen_app. pose proof (zlen_nonneg tail). lia. }
  apply (avcc_core s p c R0); auto. intros pre rest Lr. rewrite C. change (AVCodecIdH264 =? AVCodecIdH264) with true. cbv iota.
  apply call_sub_at. rewrite D. apply avcc2annexb_spec; auto; [symmetry; apply render_norm|]. pose proof (zlen_nonneg (pk_data p)). lia.
Qed.

(** H.265, every unit length-prefixed with [k] bytes. *)
Lemma zlen_annexb4 l k : zlen (annexb4 l) = zlen (lp k l) + (4 - Z.of_nat k) * zlen l.
Proof.
  unfold annexb4. induction l as [|n l IH]; cbn [map concat lp]; [unfold zlen; cbn; lia|]. rewrite !zlen_app, zlen_cons.
  assert (zlen (be_bytes k (zlen n)) = Z.of_nat k) by (unfold zlen at 1; now rewrite be_bytes_length). change (zlen (sc true)) with 4. lia.
Qed.
Lemma with_extra_nil l : with_extra [] l = annexb4 l.
Proof.
  unfold with_extra. induction l as [|n l IH]; cbn [before_irap]; [reflexivity|]. destruct (irap n); [reflexivity|].
  destruct (before_irap l) as [a [|m b]]; unfold annexb4 in *; cbn [map concat] in *; rewrite <- IH, <- ?app_assoc; reflexivity.
Qed.

Lemma avcc_hevc s p cc k v sp pp units : pk_media p = AVMediaTypeVideo -> pk_type p = PacketTypeAVCC -> is_h26x (st_codec s) = true -> pk_codec p = AVCodecIdH265 ->
  pk_annexb p = None -> st_params s = Some (CdHevc cc (Z.of_nat k) v sp pp) -> alloc_ok p -> (1 <= k <= 4)%nat ->
  pk_data p = lp k units -> Forall (lp_unit_ok k) units -> (4 - Z.of_nat k) * zlen units <= 256 ->
  let R := key_extra p (CdHevc cc (Z.of_nat k) v sp pp) ++ annexb4 units in avcc_packet_to_annexb s p = Ok (set_annexb p R, R).
Proof.
  intros M T H C N P A K D F L R. set (R0 := annexb4 units) in *.
  assert (LR : zlen R0 <= zlen (pk_data p) + 256) by (unfold R0; rewrite D, (zlen_annexb4 _ k); lia).
  apply (avcc_core s p _ R0); auto. intros pre rest Lr. rewrite C, P. change (AVCodecIdH264 =? AVCodecIdH265) with false. change (AVCodecIdH265 =? AVCodecIdH265) with true. cbv iota.
  erewrite call_sub_at; [reflexivity|]. rewrite D. rewrite (C44_hevc_mp4_units k units [] rest K F); rewrite with_extra_nil; [reflexivity|fold R0; lia].
Qed.

(* ---------------------------------------------------------------------------------------- *)
(** ** AnnexBPacket2AVCC *)
Lemma avcc_core2 p R : pk_media p = AVMediaTypeVideo -> pk_type p = PacketTypeAnnexB -> is_h26x (pk_codec p) = true -> pk_avcc p = None -> alloc_ok p ->
  (let t := alloc p (zlen (pk_data p) + 256) in annexb2avcc t (pk_data p) = Ok (R ++ skipn (length R) t, zlen R)) ->
  annexb_packet_to_avcc p = Ok (set_avcc p R, R) /\ annexb_packet_to_avcc (set_avcc p R) = Ok (set_avcc p R, R).
Proof.
  intros M T H N A C. pose proof (zlen_nonneg (pk_data p)) as ND. split.
  - unfold annexb_packet_to_avcc. rewrite M, T, H, N. change (AVMediaTypeVideo =? AVMediaTypeVideo) with true. change (PacketTypeAnnexB =? PacketTypeAnnexB) with true. cbn [assert bind negb orb].
    rewrite C. cbn [bind]. rewrite slice0. reflexivity.
  - unfold annexb_packet_to_avcc, set_avcc at 1 2 3 4. cbn [pk_media pk_type pk_codec pk_avcc]. rewrite M, T, H. reflexivity.
Qed.

(** Start codes of three bytes. *)
Definition short_codes (l : list (bool * list Z)) : list (bool * list Z) := filter (fun u => negb (fst u)) l.
Lemma zlen_avcc_annexb l : zlen (avcc (map snd l)) = zlen (annexb l) + zlen (short_codes l).
Proof.
  unfold short_codes. induction l as [|[four n] l IH]; [reflexivity|]. cbn [map snd avcc annexb filter fst].
  assert (E4 : zlen (be_bytes 4 (zlen n)) = 4) by (unfold zlen at 1; now rewrite be_bytes_length).
  destruct four; cbn [negb]; rewrite ?zlen_cons, !zlen_app, E4, IH; [change (zlen (sc true)) with 4|change (zlen (sc false)) with 3]; lia.
Qed.

(* ---------------------------------------------------------------------------------------- *)
(** ** The first NAL header *)
Definition nal_header (x : list Z) : option Z :=
  match x with
  | [] => None
  | a :: x1 => if negb (a =? 0) then Some a else
    match x1 with
    | [] => None
    | b :: x2 => if negb (b =? 0) then Some a else
      match x2 with
      | [] => None
      | c :: x3 => if c =? 1 then hd_error x3 else if negb (c =? 0) then Some a else
        match x3 with [] => None | d :: x4 => if d =? 1 then hd_error x4 else Some a end
      end
    end
  end.
Lemma idx0 (l : list Z) : idx l 0 = hd_error l.
Proof. destruct l; [reflexivity|]. now rewrite idx_cons_0. Qed.
Lemma first_header_spec x : first_header x = of_opt (nal_header x).
Proof.
  unfold first_header, remove_start_code, nal_header. destruct x as [|a x]; [reflexivity|]. rewrite idx_cons_0. cbn [of_opt bind]. destruct (a =? 0); cbn [negb bind]; [|now rewrite idx_cons_0].
  destruct x as [|b x]; [reflexivity|]. change (idx (a :: b :: x) 1) with (Some b). cbn [of_opt bind]. destruct (b =? 0); cbn [negb bind]; [|now rewrite idx_cons_0].
  destruct x as [|c x]; [reflexivity|]. change (idx (a :: b :: c :: x) 2) with (Some c). cbn [of_opt bind]. destruct (c =? 1).
  - assert (E : slice_from (a :: b :: c :: x) 3 = Some x) by exact (slice_from_app [a; b; c] x). rewrite E. cbn [of_opt bind]. now rewrite idx0.
  - destruct (c =? 0); cbn [negb bind]; [|now rewrite idx_cons_0]. destruct x as [|d x]; [reflexivity|]. change (idx (a :: b :: c :: d :: x) 3) with (Some d). cbn [of_opt bind].
    destruct (d =? 1); cbn [bind]; [|now rewrite idx_cons_0].
    assert (E : slice_from (a :: b :: c :: d :: x) 4 = Some x) by exact (slice_from_app [a; b; c; d] x). rewrite E. cbn [of_opt bind]. now rewrite idx0.
Qed.

Lemma copy_at_exact (a b d : list Z) : length d = length b -> copy_at (a ++ b) (zlen a) d = Some (a ++ d).
Proof.
  intros H. rewrite copy_at_end by (unfold zlen; lia). rewrite H, skipn_all. now rewrite app_nil_r.
Qed.

Lemma annexb_key s p c a b : pk_media p = AVMediaTypeVideo -> pk_type p <> PacketTypeAVCC -> pk_key p = true -> is_h26x (st_codec s) = true -> st_params s = Some c ->
  pk_annexb p = None -> alloc_ok p -> nal_header (cd_annexb c) = Some a -> nal_header (pk_data p) = Some b ->
  avcc_packet_to_annexb s p = if a =? b then Ok (p, pk_data p) else Ok (set_annexb p (cd_annexb c ++ pk_data p), cd_annexb c ++ pk_data p).
Proof.
  intros M T K H P N A Ha Hb. unfold avcc_packet_to_annexb. rewrite M, K, H, P, N. change (AVMediaTypeVideo =? AVMediaTypeVideo) with true. cbn [assert bind].
  replace (PacketTypeAVCC =? pk_type p) with false by lia. cbn [negb orb andb]. cbv zeta. rewrite !first_header_spec, Ha, Hb. cbn [of_opt bind].
  destruct (a =? b); cbn [negb bind].
  - rewrite N. reflexivity.
  - pose proof (zlen_nonneg (cd_annexb c)) as NX. pose proof (zlen_nonneg (pk_data p)) as ND.
    pose proof (alloc_len p (zlen (cd_annexb c) + zlen (pk_data p)) A ltac:(lia)) as LA. set (buf := alloc p _) in *. clearbody buf.
    destruct (split_at buf (zlen (cd_annexb c)) ltac:(lia)) as (pre & rest & -> & Lp). rewrite zlen_app in LA.
    rewrite copy_exact by (unfold zlen in Lp; lia). rewrite copy_at_exact by (unfold zlen in *; lia). reflexivity.
Qed.

(* ---------------------------------------------------------------------------------------- *)
(** ** Codec data *)
Lemma read8 {A} (f : Z -> G A) g : g_wf g ->
  ((length (g_bits g) < 8)%nat /\ snd (g_bind (g_read_bits 8) f g) = Err) \/
  exists g' v, g_wf g' /\ (8 + length (g_bits g') = length (g_bits g))%nat /\ snd (g_bind (g_read_bits 8) f g) = snd (f v g').
Proof.
  intros W. destruct (Nat.lt_ge_cases (length (g_bits g)) 8) as [L|L].
  - left. split; [exact L|]. destruct (g_read_bits_err 8 g _ W eq_refl L) as (g' & E & _). unfold g_bind. now rewrite E.
  - right. destruct (g_read_bits_ok 8 g _ W eq_refl L) as (g' & E & W' & B). exists g'. eexists. split; [exact W'|]. split; [rewrite B, skipn_length; change (Z.to_nat 8) with 8%nat; lia|].
    unfold g_bind. rewrite E. reflexivity.
Qed.

Lemma avc_sps_len n i : avc_parse_sps (sc true ++ n) = Ok i -> 4 <= zlen n.
Proof.
  unfold avc_parse_sps. rewrite remove_sc. cbn [bind]. pose proof (golomb_new_wf n) as W.
  assert (L : length (g_bits (golomb_new n)) = (8 * length n)%nat).
  { rewrite golomb_new_bits. apply bits_of_bytes_length. }
  revert W L. generalize (golomb_new n). intros g W L E. unfold avc_sps_body in E.
  match type of E with snd (g_bind (g_read_bits 8) ?f _) = _ => pose proof (read8 f g W) as X0 end. destruct X0 as [[_ X]|(g1 & v1 & W1 & L1 & X)]; rewrite X in E; [discriminate|]. clear X.
  match type of E with snd (g_bind (g_read_bits 8) ?f _) = _ => pose proof (read8 f g1 W1) as X0 end. destruct X0 as [[_ X]|(g2 & v2 & W2 & L2 & X)]; rewrite X in E; [discriminate|]. clear X.
  match type of E with snd (g_bind (g_read_bits 8) ?f _) = _ => pose proof (read8 f g2 W2) as X0 end. destruct X0 as [[_ X]|(g3 & v3 & W3 & L3 & X)]; rewrite X in E; [discriminate|]. clear X.
  match type of E with snd (g_bind (g_read_bits 8) ?f _) = _ => pose proof (read8 f g3 W3) as X0 end. destruct X0 as [[_ X]|(g4 & v4 & W4 & L4 & X)]; rewrite X in E; [discriminate|]. unfold zlen. lia.
Qed.

(** Writing one set. *)
Lemma write_set_fits out rest n lst : small out rest -> 2 + zlen n <= zlen rest -> zlen n < 2 ^ 16 ->
  exists w, write_sets (mkw out rest) [sc true ++ n] lst = Ok (w, Some n) /\ exists o r, w = mkw o r /\ small o r /\ zlen r = zlen rest - 2 - zlen n /\ zlen o + zlen r = zlen out + zlen rest.
Proof.
  intros B L Ln. pose proof (zlen_nonneg n) as Nn. cbn [write_sets]. rewrite remove_sc. cbn [bind].
  replace (u16 (zlen n)) with (zlen n) by (unfold u16; symmetry; apply Z.mod_small; lia).
  rewrite wr_uint_fits by (auto; lia). unfold try_w at 1. cbn [fst snd bind].
  assert (B1 : small (out ++ be_bytes 2 (zlen n)) (skipn 2 rest)) by (eapply small_shift; [|exact B]; rewrite be2_len, zlen_skipn_nat; unfold zlen in *; lia).
  assert (L1 : zlen (skipn 2 rest) = zlen rest - 2) by (rewrite zlen_skipn_nat; unfold zlen in *; lia).
  rewrite wr_end by (auto; lia). unfold try_w. cbn [fst snd bind]. eexists. split; [reflexivity|]. do 2 eexists. split; [reflexivity|].
  assert (L2 : zlen (skipn (length n) (skipn 2 rest)) = zlen rest - 2 - zlen n) by (rewrite zlen_skipn_nat; unfold zlen in *; lia).
  split; [eapply small_shift; [|exact B1]; lia|]. split; [exact L2|]. rewrite !zlen_app, be2_len. lia.
Qed.

Lemma upd_exists l k (v : Z) : 0 <= k < zlen l -> exists l', upd l k v = Some l' /\ zlen l' = zlen l.
Proof. intros H. exists (set_nth (Z.to_nat k) v l). rewrite upd_some by lia. split; [reflexivity|]. unfold zlen. now rewrite set_nth_length. Qed.
Lemma slice_exists (l : list Z) i j : 0 <= i -> i <= j -> j <= zlen l -> exists d, slice l i j = Some d.
Proof. intros A B C. rewrite slice_some by lia. eexists. reflexivity. Qed.

Lemma avc_marshal_fits s q : 4 <= zlen s -> 11 + zlen s + zlen q <= 1024 -> exists d, avc_marshal [sc true ++ s] [sc true ++ q] = Ok d.
Proof.
  intros Ls L. pose proof (zlen_nonneg q) as Nq. unfold avc_marshal. change (zlen [sc true ++ s] =? 0) with false. change (zlen [sc true ++ q] =? 0) with false. cbv iota.
  assert (Zs : zeros 1024 = zeros 5 ++ 0 :: zeros 1018) by reflexivity. rewrite Zs, bb_new_mkw.
  assert (Sm : small [] (zeros 5 ++ 0 :: zeros 1018)) by (vm_compute; congruence).
  rewrite seek_ok by (auto; reflexivity). cbn [bind]. apply small_app in Sm. cbn [app] in Sm |- *. rewrite wr_u8_cons by exact Sm. unfold try_w at 1. cbn [fst snd bind].
  set (c0 := u8 _). assert (Lz : zlen (zeros 1018) = 1018) by reflexivity.
  apply (small_shift _ [c0] _ (zeros 1018)) in Sm; [|rewrite zlen_cons; change (zlen [c0]) with 1; lia].
  set (z := zeros 1018) in *. clearbody z. set (o0 := zeros 5 ++ [c0]) in *. assert (Lo : zlen o0 = 6) by reflexivity. clearbody o0.
  clearbody c0. clear Zs.
  destruct (write_set_fits o0 z s None Sm ltac:(lia) ltac:(lia)) as (w & E & o1 & r1 & -> & Sm1 & Lr1 & Lt1). cbn [bind]. rewrite E. cbn [bind].
  destruct r1 as [|y r1]; [exfalso; change (zlen (@nil Z)) with 0 in Lr1; lia|]. rewrite zlen_cons in *.
  rewrite wr_u8_cons by exact Sm1. unfold try_w at 1. cbn [fst snd bind].
  apply (small_shift _ [c0] _ r1) in Sm1; [|rewrite zlen_cons; change (zlen [c0]) with 1; lia].
  destruct (write_set_fits (o1 ++ [c0]) r1 q None Sm1 ltac:(lia) ltac:(lia)) as (w2 & E2 & o2 & r2 & -> & Sm2 & Lr2 & Lt2). rewrite E2. cbn [bind of_opt].
  rewrite zlen_app in Lt2. change (zlen [c0]) with 1 in Lt2.
  cbn [mkw bb_data bb_offset]. assert (Ld : zlen (o2 ++ r2) = 1024) by (rewrite zlen_app; lia). set (d0 := o2 ++ r2) in *. assert (Lo2 : 0 <= zlen o2 <= zlen d0) by (unfold d0; rewrite zlen_app; pose proof (zlen_nonneg o2); pose proof (zlen_nonneg r2); lia). clearbody d0.
  destruct s as [|b0 [|b1 [|b2 [|b3 s]]]]; try (exfalso; unfold zlen in Ls; cbn [length] in Ls; lia).
  change (idx (b0 :: b1 :: b2 :: b3 :: s) 1) with (Some b1). change (idx (b0 :: b1 :: b2 :: b3 :: s) 2) with (Some b2). change (idx (b0 :: b1 :: b2 :: b3 :: s) 3) with (Some b3). cbn [of_opt bind].
  repeat match goal with
  | |- context [upd ?l ?k ?v] => let E := fresh "E" in let L' := fresh "L" in destruct (upd_exists l k v) as (? & E & L'); [lia|]; rewrite E; cbn [of_opt bind]
  end.
  match goal with |- context [slice ?l ?i ?j] => destruct (slice_exists l i j) as [d Ed]; [lia|lia|lia|]; rewrite Ed end. eexists. reflexivity.
Qed.

Lemma hevc_write_fits out rest n : small out rest -> n <> [] -> 5 + zlen n <= zlen rest -> zlen n < 2 ^ 16 ->
  exists o r, hevc_write (mkw out rest) [sc true ++ n] = Ok (mkw o r) /\ small o r /\ zlen r = zlen rest - 5 - zlen n /\ zlen o + zlen r = zlen out + zlen rest.
Proof.
  intros B N L Ln. pose proof (zlen_nonneg n) as Nn. unfold hevc_write. rewrite idx_cons_0. cbn [of_opt bind]. rewrite remove_sc. cbn [bind].
  destruct n as [|b n]; [congruence|]. rewrite idx_cons_0. cbn [of_opt bind]. set (t := Z.land _ _).
  destruct rest as [|y rest]; [exfalso; change (zlen (@nil Z)) with 0 in L; lia|]. rewrite !zlen_cons in *.
  rewrite wr_u8_cons by exact B. unfold try_w at 1. cbn [fst snd bind].
  apply (small_shift _ [t] _ rest) in B; [|rewrite zlen_cons; change (zlen [t]) with 1; lia].
  rewrite wr_uint_fits by (auto; lia). unfold try_w at 1. cbn [fst snd bind].
  assert (L1 : zlen (skipn 2 rest) = zlen rest - 2) by (rewrite zlen_skipn_nat; unfold zlen in *; lia). set (cnt := u16 _).
  apply (small_shift _ (be_bytes 2 cnt) _ (skipn 2 rest)) in B; [|rewrite be2_len; lia].
  destruct (write_set_fits _ (skipn 2 rest) (b :: n) None B ltac:(rewrite zlen_cons; lia) ltac:(rewrite zlen_cons; lia)) as (w & E & o & r & -> & Sm & Lr & Lt).
  rewrite E. cbn [bind]. exists o, r. rewrite !zlen_app, be2_len in Lt. change (zlen [t]) with 1 in Lt. rewrite zlen_cons in Lr. split; [reflexivity|]. split; [exact Sm|]. lia.
Qed.

Lemma hevc_marshal_fits v s q : v <> [] -> s <> [] -> q <> [] -> 38 + zlen v + zlen s + zlen q <= 1024 ->
  exists d, hevc_marshal [sc true ++ v] [sc true ++ s] [sc true ++ q] = Ok d.
Proof.
  intros Nv Ns Nq L. pose proof (zlen_nonneg v). pose proof (zlen_nonneg s). pose proof (zlen_nonneg q). unfold hevc_marshal.
  change (zlen [sc true ++ s] =? 0) with false. change (zlen [sc true ++ q] =? 0) with false. change (zlen [sc true ++ v] =? 0) with false. cbv iota.
  assert (Ez : zeros 1024 = 0 :: zeros 20 ++ 0 :: 0 :: zeros 1001) by reflexivity. rewrite Ez.
  assert (U0 : upd (0 :: zeros 20 ++ 0 :: 0 :: zeros 1001) 0 1 = Some (1 :: zeros 20 ++ 0 :: 0 :: zeros 1001)) by (vm_compute; reflexivity). rewrite U0. cbn [of_opt bind].
  assert (U1 : upd (1 :: zeros 20 ++ 0 :: 0 :: zeros 1001) 21 3 = Some (1 :: zeros 20 ++ 3 :: 0 :: zeros 1001)) by (vm_compute; reflexivity). rewrite U1. cbn [of_opt bind].
  assert (U2 : upd (1 :: zeros 20 ++ 3 :: 0 :: zeros 1001) 22 3 = Some (hdr0 ++ zeros 1001)) by (vm_compute; reflexivity). rewrite U2. cbn [of_opt bind].
  assert (Sm : small [] (hdr0 ++ zeros 1001)) by (vm_compute; congruence).
  rewrite bb_new_mkw. rewrite (seek_ok [] hdr0 (zeros 1001) 23) by (auto; reflexivity). cbn [bind app]. apply small_app in Sm. cbn [app] in Sm.
  assert (Lz : zlen (zeros 1001) = 1001) by reflexivity. assert (Lh : zlen hdr0 = 23) by reflexivity. set (z := zeros 1001) in *. set (h := hdr0) in *. clearbody z h. clear Ez U0 U1 U2.
  destruct (hevc_write_fits h z v Sm Nv ltac:(lia) ltac:(lia)) as (o1 & r1 & E1 & Sm1 & Lr1 & Lt1). rewrite E1. cbn [bind].
  destruct (hevc_write_fits o1 r1 s Sm1 Ns ltac:(lia) ltac:(lia)) as (o2 & r2 & E2 & Sm2 & Lr2 & Lt2). rewrite E2. cbn [bind].
  destruct (hevc_write_fits o2 r2 q Sm2 Nq ltac:(lia) ltac:(lia)) as (o3 & r3 & E3 & Sm3 & Lr3 & Lt3). rewrite E3. cbn [bind mkw bb_data bb_offset].
  rewrite slice0. eexists. reflexivity.
Qed.

(** Building from units with 4-byte start codes and parsing the record. *)
Lemma sc_bytes n : bytes_ok n -> zlen n <= 1024 -> go_bytes (sc true ++ n).
Proof. intros B L. split; [apply bytes_ok_app; split; [repeat constructor; unfold byte_ok; lia|exact B]|]. rewrite zlen_app. change (zlen (sc true)) with 4. lia. Qed.

Lemma avc_codec_round_trip s q c : bytes_ok s -> bytes_ok q -> new_avc_codec_data (sc true ++ s) (sc true ++ q) = Ok c -> 11 + zlen s + zlen q <= 1024 ->
  exists d c', cd_mp4 c = Ok (Some d) /\ parse_avc_record d = Ok c' /\ cd_annexb c' = cd_annexb c /\ cd_width c' = cd_width c /\ cd_height c' = cd_height c /\ cd_mp4 c' = Ok (Some d).
Proof.
  intros Bs Bq E L. pose proof (zlen_nonneg q). pose proof (zlen_nonneg s). unfold new_avc_codec_data in E. destruct (avc_parse_sps (sc true ++ s)) as [i| | |] eqn:Ei; try discriminate E. cbn [bind] in E. injection E as <-.
  pose proof (avc_sps_len _ _ Ei) as L4. destruct (avc_marshal_fits s q L4 L) as [d Ed]. exists d.
  destruct (C39_same_lists [s] [q] d) as (r & Er & Es & Ep); [constructor; [apply sc_bytes; [exact Bs|lia]|constructor]|constructor; [apply sc_bytes; [exact Bq|lia]|constructor]|vm_compute; congruence|vm_compute; congruence|exact Ed|].
  unfold parse_avc_record. rewrite Er. cbn [bind]. rewrite Es, Ep. unfold with4s. cbn [map]. rewrite idx_cons_0. cbn [of_opt bind]. rewrite Ei. cbn [bind].
  eexists. split; [unfold cd_mp4; cbn [cd_c cc_m4vc]; change (avc_marshal _ _) with (avc_marshal [sc true ++ s] [sc true ++ q]); rewrite Ed; reflexivity|]. split; [reflexivity|]. repeat split.
Qed.

Lemma hevc_codec_round_trip grow v s q c : bytes_ok v -> bytes_ok s -> bytes_ok q -> hevc_nal_type v = 32 -> hevc_nal_type s = 33 -> hevc_nal_type q = 34 ->
  new_hevc_codec_data (sc true ++ v) (sc true ++ s) (sc true ++ q) = Ok c -> 38 + zlen v + zlen s + zlen q <= 1024 ->
  exists d c', cd_mp4 c = Ok (Some d) /\ parse_hevc_record grow d = Ok c' /\ cd_annexb c' = cd_annexb c /\ cd_width c' = cd_width c /\ cd_height c' = cd_height c /\ cd_mp4 c' = Ok (Some d).
Proof.
  intros Bv Bs Bq Tv Ts Tq E L. pose proof (zlen_nonneg q). pose proof (zlen_nonneg s). pose proof (zlen_nonneg v). unfold new_hevc_codec_data in E. destruct (hevc_parse_sps (sc true ++ s)) as [i| | |] eqn:Ei; try discriminate E. cbn [bind] in E. injection E as <-.
  destruct (hevc_marshal_fits v s q) as [d Ed]; [intros ->; discriminate Tv|intros ->; discriminate Ts|intros ->; discriminate Tq|exact L|]. exists d.
  destruct (C42_hevc_record_partial grow [v] [s] [q] d) as (x & Er & EV & EP & _ & ES); try (constructor; [apply sc_bytes; [assumption|lia]|constructor]); [exact Ed|exact Tv|exact Ts|exact Tq|].
  specialize (ES eq_refl). unfold parse_hevc_record. rewrite Er. cbn [bind]. unfold hs_V, hs_S, hs_P in *. rewrite EV, ES, EP. unfold with4s. cbn [map]. rewrite idx_cons_0. cbn [of_opt bind]. rewrite Ei. cbn [bind].
  eexists. split; [unfold cd_mp4; cbn [cd_c cc_m4vc]; change (hevc_marshal _ _ _) with (hevc_marshal [sc true ++ v] [sc true ++ s] [sc true ++ q]); rewrite Ed; reflexivity|]. split; [reflexivity|]. repeat split.
Qed.

(* ---------------------------------------------------------------------------------------- *)
(** ** Packet pool *)
Definition recycled : packet := mkPkt [] 0 0 0 false 0 0 0 0 AVMediaTypeUnknown AVCodecIdNONE PacketTypeNONE None None None.
(** Pools reached by NewAudioPacket, NewVideoPacket, FreePacket (of any packet) and the garbage collector. *)
Inductive pool_reach : pool -> Prop :=
| pr_init : pool_reach []
| pr_free s p : pool_reach s -> pool_reach (free_packet s p)
| pr_audio s ch d ts id i tb : pool_reach s -> pool_reach (snd (new_audio_packet s ch d ts id i tb))
| pr_video s ch d dts pts k ty id i tb : pool_reach s -> pool_reach (snd (new_video_packet s ch d dts pts k ty id i tb))
| pr_gc s t : pool_reach s -> incl t s -> pool_reach t.

Lemma pool_get_in s ch : (fst (pool_get s ch) = pkt_zero \/ In (fst (pool_get s ch)) s) /\ incl (snd (pool_get s ch)) s.
Proof.
  unfold pool_get. destruct ch as [k|]; cbn [fst snd]; [|split; [auto|apply incl_refl]]. destruct (nth_error s k) as [p|] eqn:E; cbn [fst snd]; [|split; [auto|apply incl_refl]].
  split; [right; eapply nth_error_In; eauto|]. intros x Hx. apply in_app_or in Hx as [Hx|Hx].
  - rewrite <- (firstn_skipn k s). apply in_or_app. auto.
  - rewrite <- (firstn_skipn (S k) s). apply in_or_app. auto.
Qed.
Lemma pool_recycled s : pool_reach s -> Forall (eq recycled) s.
Proof.
  induction 1 as [|s p H IH|s ch d ts id i tb H IH|s ch d dts pts k ty id i tb H IH|s t H IH I].
  - constructor.
  - constructor; [reflexivity|exact IH].
  - unfold new_audio_packet. destruct (pool_get s ch) as [p s'] eqn:E. cbn [snd]. pose proof (proj2 (pool_get_in s ch)) as I. rewrite E in I. cbn [snd] in I.
    rewrite Forall_forall in *. auto.
  - unfold new_video_packet. destruct (pool_get s ch) as [p s'] eqn:E. cbn [snd]. pose proof (proj2 (pool_get_in s ch)) as I. rewrite E in I. cbn [snd] in I.
    rewrite Forall_forall in *. auto.
  - rewrite Forall_forall in *. auto.
Qed.
Lemma pool_get_either s ch : pool_reach s -> fst (pool_get s ch) = pkt_zero \/ fst (pool_get s ch) = recycled.
Proof. intros H. destruct (pool_get_in s ch) as [[E|I] _]; [auto|]. right. apply pool_recycled in H. rewrite Forall_forall in H. symmetry. now apply H. Qed.

(* ---------------------------------------------------------------------------------------- *)
(** ** Muxer *)
Definition mx_step (a : muxer * list (res Z)) (s : stream) : muxer * list (res Z) := let '(m, r) := mx_add_track (fst a) s in (m, snd a ++ [r]).
Definition mx_run (l : list stream) : muxer * list (res Z) := fold_left mx_step l (mx_new, []).
Lemma mx_run_snoc l s : mx_run (l ++ [s]) = mx_step (mx_run l) s.
Proof. unfold mx_run. now rewrite fold_left_app. Qed.

Lemma tm_find_from_none f t : forall i, tm_find_from f i t = None <-> Forall (fun s => f s = false) t.
Proof.
  induction t as [|s t IH]; intros i; cbn [tm_find_from]; [split; auto|]. destruct (f s) eqn:E.
  - split; [discriminate|]. intros F. apply Forall_cons_iff in F as [F _]. congruence.
  - rewrite IH. split; [auto|]. intros F. now apply Forall_cons_iff in F.
Qed.

Definition is_ok {A} (r : res A) : bool := match r with Ok _ => true | _ => false end.
Fixpoint upto (n : nat) : list Z := match n with O => [] | S k => upto k ++ [Z.of_nat k] end.

Lemma mx_run_spec l : let '(m, rs) := mx_run l in
  length rs = length l /\ NoDup (map st_media (mx_tracks m)) /\
  (forall x, In x (map st_media (mx_tracks m)) <-> In x (map st_media l)) /\
  filter is_ok rs = map Ok (upto (length (mx_tracks m))) /\
  (forall i s, nth_error l i = Some s ->
     (nth_error rs i = Some Err /\ In (st_media s) (map st_media (firstn i l))) \/
     (~ In (st_media s) (map st_media (firstn i l)) /\ exists k, nth_error rs i = Some (Ok (Z.of_nat k)) /\ nth_error (mx_tracks m) k = Some s)).
Proof.
  induction l as [|s l IH] using rev_ind.
  - cbn. split; [reflexivity|]. split; [constructor|]. split; [tauto|]. split; [reflexivity|]. intros [|i] s; discriminate.
  - rewrite mx_run_snoc. destruct (mx_run l) as [m rs]. unfold mx_step. cbn [fst snd]. destruct IH as (L & ND & In1 & Oks & Each). unfold mx_add_track, tm_find_type.
    set (f := fun s0 => st_media s0 =? st_media s). pose proof (tm_find_from_none f (mx_tracks m) 0) as Fn.
    assert (Dup : tm_find_from f 0 (mx_tracks m) = None <-> ~ In (st_media s) (map st_media l)).
    { rewrite Fn, <- In1, Forall_forall. unfold f. split.
      - intros H I. apply in_map_iff in I as (y & E & I). specialize (H y I). lia.
      - intros H y I. apply Z.eqb_neq. intros E. apply H. rewrite <- E. now apply in_map. }
    destruct (tm_find_from f 0 (mx_tracks m)) as [k|] eqn:E; cbv beta iota.
    + assert (I : In (st_media s) (map st_media l)).
      { destruct (in_dec Z.eq_dec (st_media s) (map st_media l)) as [I|N]; [exact I|]. apply Dup in N. discriminate. }
      split; [rewrite !app_length; cbn; lia|]. split; [exact ND|]. split.
      { intros x. rewrite In1, map_app, in_app_iff. cbn [map In]. split; [auto|]. intros [H|[<-|[]]]; auto. }
      split; [rewrite filter_app; cbn [filter is_ok]; now rewrite app_nil_r|].
      intros i x Hx. destruct (Nat.lt_ge_cases i (length l)) as [Li|Li].
      * rewrite nth_error_app1 in Hx by lia. rewrite firstn_app. replace (i - length l)%nat with 0%nat by lia. cbn [firstn]. rewrite app_nil_r. rewrite nth_error_app1 by lia. apply Each. exact Hx.
      * rewrite nth_error_app2 in Hx by lia. destruct (i - length l)%nat eqn:D; [|cbn in Hx; destruct n; discriminate]. injection Hx as <-. left.
        rewrite nth_error_app2 by lia. replace (i - length rs)%nat with 0%nat by lia. split; [reflexivity|].
        rewrite firstn_app, D. cbn [firstn]. rewrite app_nil_r. rewrite firstn_all2 by lia. exact I.
    + assert (N : ~ In (st_media s) (map st_media l)) by (now apply Dup). unfold tm_add. cbn [mx_tracks].
      split; [rewrite !app_length; cbn; lia|]. split.
      { rewrite map_app. cbn [map]. assert (forall (a : list Z) x, NoDup a -> ~ In x a -> NoDup (a ++ [x])) as NDs.
        { clear. intros a x H Hx. induction H as [|y a Hy H IH]; cbn [app]; [constructor; [auto|constructor]|]. cbn [In] in Hx. constructor; [|apply IH; tauto].
          rewrite in_app_iff. cbn [In]. intros [H1|[H1|[]]]; [tauto|]. subst. apply Hx. now left. }
        apply NDs; [exact ND|]. rewrite In1. exact N. }
      split. { intros x. rewrite !map_app, !in_app_iff, In1. reflexivity. }
      split. { rewrite filter_app, Oks, app_length. cbn [filter is_ok length]. replace (length (mx_tracks m) + 1)%nat with (S (length (mx_tracks m))) by lia. cbn [upto].
               rewrite map_app. cbn [map]. do 2 f_equal. f_equal. rewrite zlen_app. unfold zlen. cbn [length]. lia. }
      intros i x Hx. destruct (Nat.lt_ge_cases i (length l)) as [Li|Li].
      * rewrite nth_error_app1 in Hx by lia. rewrite firstn_app. replace (i - length l)%nat with 0%nat by lia. cbn [firstn]. rewrite app_nil_r. rewrite (nth_error_app1 rs) by lia.
        destruct (Each i x Hx) as [H|(H & k & H1 & H2)]; [now left|right]. split; [exact H|]. exists k. split; [exact H1|]. rewrite nth_error_app1; [exact H2|]. apply nth_error_Some. congruence.
      * rewrite nth_error_app2 in Hx by lia. destruct (i - length l)%nat eqn:D; [|cbn in Hx; destruct n; discriminate]. injection Hx as <-. right.
        rewrite (nth_error_app2 rs) by lia. replace (i - length rs)%nat with 0%nat by lia. rewrite firstn_app, D. cbn [firstn]. rewrite app_nil_r, firstn_all2 by lia. split; [exact N|].
        exists (length (mx_tracks m)). cbn [nth_error]. split; [do 2 f_equal; rewrite zlen_app; unfold zlen; cbn [length]; lia|].
        rewrite nth_error_app2, Nat.sub_diag by lia. reflexivity.
Qed.

(** The tracks are only ever extended. *)
Lemma mx_run_app l1 l2 : exists t, mx_tracks (fst (mx_run (l1 ++ l2))) = mx_tracks (fst (mx_run l1)) ++ t.
Proof.
  induction l2 as [|s l2 IH] using rev_ind; [exists []; now rewrite !app_nil_r|]. rewrite app_assoc, mx_run_snoc. destruct IH as [t IH]. unfold mx_step, mx_add_track.
  destruct (tm_find_type _ _); cbn [fst mx_tracks].
  - now exists t.
  - exists (t ++ [s]). unfold tm_add. now rewrite IH, app_assoc.
Qed.

(* ---------------------------------------------------------------------------------------- *)
(** ** Conversion keeps the other fields *)
Lemma conv_cases s p p1 d : avcc_packet_to_annexb s p = Ok (p1, d) -> p1 = p \/ exists x, p1 = set_annexb p x.
Proof.
  unfold avcc_packet_to_annexb. destruct (assert _) as [u| | |]; try discriminate. cbn [bind]. destruct (_ || _).
  - assert (K : forall (r : res packet), (forall q, r = Ok q -> q = p \/ exists x, q = set_annexb p x) -> (p2 <- r;; match pk_annexb p2 with Some d0 => Ok (p2, d0) | None => Ok (p2, pk_data p2) end) = Ok (p1, d) -> p1 = p \/ exists x, p1 = set_annexb p x).
    { intros r Hr. destruct r as [q| | |]; try discriminate. cbn [bind]. intros E. apply Hr. destruct (pk_annexb q); injection E as <- _; reflexivity. }
    apply K. intros q. destruct (_ && _); [|intros E; injection E as <-; auto]. destruct (st_params s) as [c|]; [|intros E; injection E as <-; auto]. destruct (pk_annexb p); [intros E; injection E as <-; auto|].
    cbv zeta. destruct (first_header (cd_annexb c)); try discriminate. cbn [bind]. destruct (first_header (pk_data p)); try discriminate. cbn [bind]. destruct (negb _); [|intros E; injection E as <-; auto].
    destruct (copy_at _ _ _); [|discriminate]. cbn [of_opt bind]. intros E. injection E as <-. right. eexists. reflexivity.
  - destruct (pk_annexb p); [intros E; injection E as <- _; auto|]. cbv zeta.
    match goal with |- bind ?r ?k = _ -> _ => destruct r as [[b n]| | |]; try discriminate end. cbn [bind]. destruct (st_params s); [|discriminate]. cbn [of_opt bind].
    destruct (slice _ _ _); [|discriminate]. cbn [of_opt bind]. destruct (slice _ _ _); [|discriminate]. cbn [of_opt bind]. intros E. injection E as <- _. right. eexists. reflexivity.
Qed.

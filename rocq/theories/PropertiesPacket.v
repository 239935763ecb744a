(** * PropertiesPacket: C56-C61. *)
From Verif Require Import Base RingProofs NaluModel NaluSpec NaluProofs SplitProofs AvccProofs AnnexbProofs StretchSpec StretchProofs RecordModel RecordSpec RecordProofs MarshalProofs SpsModel SpsSpec SpsProofs AacModel PacketModel PacketProofs
  PropertiesNalu PropertiesRecord PropertiesSps.
From Coq Require Import Permutation.

(** Data for the examples and witnesses. *)
Definition sps_x : list Z := [103; 66; 192; 30; 217].
Definition pps_x : list Z := [104; 203; 131].
Definition cd_x : codec_data := CdAvc {| cc_width := 640; cc_height := 480; cc_annexb := Some (sc true ++ sps_x ++ sc true ++ pps_x); cc_m4vc := None |} [sc true ++ sps_x] [sc true ++ pps_x].
Definition stream_x (o : option codec_data) : stream := new_av_stream AVMediaTypeVideo 0 AVCodecIdH264 None o.
Definition avcc_pkt (key : bool) (data : list Z) : packet := init_video pkt_zero data 0 0 key PacketTypeAVCC AVCodecIdH264 0 1000.
Definition annexb_pkt (key : bool) (data : list Z) : packet := init_video pkt_zero data 0 0 key PacketTypeAnnexB AVCodecIdH264 0 1000.

(* ---------------------------------------------------------------------------------------- *)
(** ** C56: AVCCPacket2AnnexB. *)

(** As stated it is false: without codec parameters the call panics, and SEI units are left out. *)
Theorem C56_avcc_packet_refuted :
  (exists s p units, pk_media p = AVMediaTypeVideo /\ pk_type p = PacketTypeAVCC /\ st_codec s = AVCodecIdH264 /\ pk_codec p = AVCodecIdH264 /\
     pk_data p = avcc units /\ Forall avcc_unit_ok units /\ avcc_packet_to_annexb s p = Panic) /\
  (exists s p c units R, pk_media p = AVMediaTypeVideo /\ pk_type p = PacketTypeAVCC /\ st_codec s = AVCodecIdH264 /\ pk_codec p = AVCodecIdH264 /\ st_params s = Some c /\
     pk_data p = avcc units /\ Forall avcc_unit_ok units /\ avcc_packet_to_annexb s p = Ok (set_annexb p R, R) /\ R <> key_extra p c ++ annexb_norm units).
Proof.
  split.
  - exists (stream_x None), (avcc_pkt true (avcc [[101; 5]])), [[101; 5]]. repeat (split; [reflexivity|]). split; [repeat constructor; unfold byte_ok; lia|]. vm_compute. reflexivity.
  - exists (stream_x (Some cd_x)), (avcc_pkt true (avcc [[6; 1]; [101; 5]])), cd_x, [[6; 1]; [101; 5]]. eexists. repeat (split; [reflexivity|]).
    split; [repeat constructor; unfold byte_ok; lia|]. split; [vm_compute; reflexivity|]. vm_compute. congruence.
Qed.

(** It is true when the stream has codec parameters, for the units other than SEI.  Arbitrary bytes: [tail] is what cannot be read as a
    unit (see [avcc_stop]). *)
Theorem C56_avcc_packet_partial : forall s p c, pk_media p = AVMediaTypeVideo -> pk_type p = PacketTypeAVCC -> is_h26x (st_codec s) = true -> pk_codec p = AVCodecIdH264 ->
  pk_annexb p = None -> st_params s = Some c -> alloc_ok p -> bytes_ok (pk_data p) ->
  exists units tail, pk_data p = avcc units ++ tail /\ Forall avcc_unit_ok units /\ avcc_stop tail /\
    let R := key_extra p c ++ annexb_norm (filter not_sei units) in
    avcc_packet_to_annexb s p = Ok (set_annexb p R, R) /\ pk_data (set_annexb p R) = pk_data p /\
    forall s', avcc_packet_to_annexb s' (set_annexb p R) = Ok (set_annexb p R, R).
Proof.
  intros s p c M T H C N P A B. destruct (avcc_dec (pk_data p) B) as (units & tail & E & F & St). assert (Bt : bytes_ok tail) by (rewrite E in B; now apply bytes_ok_app in B). exists units, tail. split; [exact E|]. split; [exact F|]. split; [exact St|]. cbv zeta.
  split; [now apply (avcc_avc s p c units tail)|]. split; [reflexivity|]. intros s'. now apply avcc_cached.
Qed.

(** For a packet made of units alone there is nothing else. *)
Theorem C56_avcc_packet_units : forall s p c units, pk_media p = AVMediaTypeVideo -> pk_type p = PacketTypeAVCC -> is_h26x (st_codec s) = true -> pk_codec p = AVCodecIdH264 ->
  pk_annexb p = None -> st_params s = Some c -> alloc_ok p -> pk_data p = avcc units -> Forall avcc_unit_ok units -> Forall (fun n => not_sei n = true) units ->
  let R := key_extra p c ++ annexb_norm units in
  avcc_packet_to_annexb s p = Ok (set_annexb p R, R) /\ pk_data (set_annexb p R) = pk_data p /\ forall s', avcc_packet_to_annexb s' (set_annexb p R) = Ok (set_annexb p R, R).
Proof.
  intros s p c units M T H C N P A E F NS R.
  assert (EF : filter not_sei units = units) by (clear -NS; induction NS as [|n l Hn F IH]; cbn [filter]; [reflexivity|]; now rewrite Hn, IH).
  pose proof (avcc_avc s p c units [] M T H C N P A) as X. rewrite app_nil_r, EF in X. split; [|split; [reflexivity|intros s'; now apply avcc_cached]].
  apply X; auto; [|constructor]. left. vm_compute. congruence.
Qed.

(** H.265: the length of the prefix comes from the record; up to 256 / (4 - k) units are converted, four-byte lengths without limit. *)
Theorem C56_hevc_packet : forall s p cc k v sp pp units, pk_media p = AVMediaTypeVideo -> pk_type p = PacketTypeAVCC -> is_h26x (st_codec s) = true -> pk_codec p = AVCodecIdH265 ->
  pk_annexb p = None -> st_params s = Some (CdHevc cc (Z.of_nat k) v sp pp) -> alloc_ok p -> (1 <= k <= 4)%nat ->
  pk_data p = lp k units -> Forall (lp_unit_ok k) units -> (4 - Z.of_nat k) * zlen units <= 256 ->
  let R := key_extra p (CdHevc cc (Z.of_nat k) v sp pp) ++ annexb4 units in
  avcc_packet_to_annexb s p = Ok (set_annexb p R, R) /\ pk_data (set_annexb p R) = pk_data p /\ forall s', avcc_packet_to_annexb s' (set_annexb p R) = Ok (set_annexb p R, R).
Proof.
  intros s p cc k v sp pp units M T H C N P A K E F L R. split; [now apply avcc_hevc|]. split; [reflexivity|]. intros s'. now apply avcc_cached.
Qed.
(** The bound is needed: 86 units with one-byte lengths do not fit. *)
Theorem C56_hevc_packet_refuted : exists s p cc units, pk_media p = AVMediaTypeVideo /\ pk_type p = PacketTypeAVCC /\ st_codec s = AVCodecIdH265 /\ pk_codec p = AVCodecIdH265 /\
  st_params s = Some (CdHevc cc 1 [] [] []) /\ pk_data p = lp 1 units /\ Forall (lp_unit_ok 1) units /\ avcc_packet_to_annexb s p = Panic.
Proof.
  exists (new_av_stream AVMediaTypeVideo 0 AVCodecIdH265 None (Some (CdHevc {| cc_width := 0; cc_height := 0; cc_annexb := None; cc_m4vc := None |} 1 [] [] []))),
    (init_video pkt_zero (lp 1 (repeat [2; 1] 86)) 0 0 false PacketTypeAVCC AVCodecIdH265 0 1000), {| cc_width := 0; cc_height := 0; cc_annexb := None; cc_m4vc := None |}, (repeat [2; 1] 86).
  repeat (split; [reflexivity|]). split; [|vm_compute; reflexivity]. apply Forall_forall. intros x Hx. apply repeat_spec in Hx as ->. split; [repeat constructor; unfold byte_ok; lia|vm_compute; split; congruence].
Qed.
Example C56_example : let p := avcc_pkt true (avcc [[6; 1]; [101; 5; 6]; [101; 7]]) in let R := sc true ++ sps_x ++ sc true ++ pps_x ++ [0;0;0;1;101;5;6;0;0;1;101;7] in
  avcc_packet_to_annexb (stream_x (Some cd_x)) p = Ok (set_annexb p R, R).
Proof. vm_compute. reflexivity. Qed.
Print Assumptions C56_avcc_packet_refuted.
Print Assumptions C56_avcc_packet_partial.
Print Assumptions C56_avcc_packet_units.
Print Assumptions C56_hevc_packet.
Print Assumptions C56_hevc_packet_refuted.

(* ---------------------------------------------------------------------------------------- *)
(** ** C57: AnnexBPacket2AVCC. *)

(** More than 256 units with 3-byte start codes overrun the buffer. *)
Theorem C57_annexb_packet_refuted : exists p l, pk_media p = AVMediaTypeVideo /\ pk_type p = PacketTypeAnnexB /\ pk_codec p = AVCodecIdH264 /\ pk_data p = annexb l /\ Forall unit_ok l /\
  annexb_packet_to_avcc p = Panic.
Proof.
  exists (annexb_pkt false (annexb (repeat (false, [97]) 257))), (repeat (false, [97]) 257). repeat (split; [reflexivity|]). split; [|vm_compute; reflexivity].
  apply Forall_forall. intros x Hx. apply repeat_spec in Hx as ->. assert (F : Forall unit_ok [(false, [97])]) by nok. now apply Forall_cons_iff in F.
Qed.

Theorem C57_annexb_packet_partial : forall p, pk_media p = AVMediaTypeVideo -> pk_type p = PacketTypeAnnexB -> is_h26x (pk_codec p) = true -> pk_avcc p = None -> alloc_ok p ->
  bytes_ok (pk_data p) -> zlen (pk_data p) < 2 ^ 32 -> count_sc (pk_data p) <= 256 ->
  exists units, Forall avcc_unit_ok units /\ let R := avcc units in
    annexb_packet_to_avcc p = Ok (set_avcc p R, R) /\ pk_data (set_avcc p R) = pk_data p /\ annexb_packet_to_avcc (set_avcc p R) = Ok (set_avcc p R, R).
Proof.
  intros p M T H N A B L C. pose proof (zlen_nonneg (pk_data p)) as Nd.
  destruct (C28_annexb2avcc_wellformed (pk_data p) (alloc p (zlen (pk_data p) + 256))) as (units & F & Lu & E); [exact B|exact L|rewrite alloc_len by (auto; lia); lia|].
  exists units. split; [exact F|]. cbv zeta. destruct (avcc_core2 p (avcc units) M T H N A E) as [X1 X2]. split; [exact X1|]. split; [reflexivity|exact X2].
Qed.
(** Units with a nonzero header byte, at most 256 of them with 3-byte start codes: all of them. *)
Theorem C57_annexb_packet_units : forall p l, pk_media p = AVMediaTypeVideo -> pk_type p = PacketTypeAnnexB -> is_h26x (pk_codec p) = true -> pk_avcc p = None -> alloc_ok p ->
  l <> [] -> pk_data p = annexb l -> Forall (fun u => unit_ok u /\ hd 0 (snd u) <> 0 /\ zlen (snd u) < 2 ^ 32) l -> zlen (short_codes l) <= 256 ->
  let R := avcc (map snd l) in
    annexb_packet_to_avcc p = Ok (set_avcc p R, R) /\ pk_data (set_avcc p R) = pk_data p /\ annexb_packet_to_avcc (set_avcc p R) = Ok (set_avcc p R, R).
Proof.
  intros p l M T H N A Nl E F C R. pose proof (zlen_nonneg (pk_data p)) as Nd.
  destruct (avcc_core2 p R M T H N A) as [X1 X2]; [|split; [exact X1|split; [reflexivity|exact X2]]]. cbv zeta.
  pose proof (alloc_len p (zlen (pk_data p) + 256) A ltac:(lia)) as La. set (t := alloc p _) in *. clearbody t. rewrite E in La |- *. apply C27_annexb2avcc_partial; [exact Nl|exact F|].
  rewrite zlen_avcc_annexb. lia.
Qed.
Example C57_example : let p := annexb_pkt true (annexb [(true, [103; 1]); (false, [104; 0; 2]); (true, [101])]) in let R := [0;0;0;2;103;1;0;0;0;3;104;0;2;0;0;0;1;101] in
  annexb_packet_to_avcc p = Ok (set_avcc p R, R).
Proof. vm_compute. reflexivity. Qed.
Print Assumptions C57_annexb_packet_refuted.
Print Assumptions C57_annexb_packet_partial.
(** Exactly, for all bytes: the units found, and a panic when they need more than 256 bytes over the packet's size. *)
Theorem C57_annexb_packet_exact : forall p, pk_media p = AVMediaTypeVideo -> pk_type p = PacketTypeAnnexB -> is_h26x (pk_codec p) = true -> pk_avcc p = None -> alloc_ok p ->
  bytes_ok (pk_data p) -> exists units, found_units (pk_data p) units /\ let R := avcc units in
    annexb_packet_to_avcc p = (if zlen R <=? zlen (pk_data p) + 256 then Ok (set_avcc p R, R) else Panic).
Proof.
  intros p M T H N A B. pose proof (zlen_nonneg (pk_data p)) as Nd. destruct (annexb2avcc_all (pk_data p) (alloc p (zlen (pk_data p) + 256)) B) as (units & F & E).
  exists units. split; [exact F|]. cbv zeta. rewrite alloc_len in E by (auto; lia). destruct (zlen (avcc units) <=? zlen (pk_data p) + 256) eqn:L.
  - rewrite stored_fits in E by lia. destruct (avcc_core2 p (avcc units) M T H N A E) as [X1 _]. exact X1.
  - unfold annexb_packet_to_avcc. rewrite M, T, H, N, E. cbn [negb orb Z.eqb AVMediaTypeVideo PacketTypeAnnexB assert bind Pos.eqb]. destruct (stored _ units) as [b|] eqn:S1; [|reflexivity]. cbn [bind].
    rewrite slice_none; [reflexivity|]. pose proof (alloc_len p (zlen (pk_data p) + 256) A ltac:(lia)) as La. destruct (stored_short _ _ _ S1) as [Q| ->]; [|cbn in L; lia].
    rewrite zlen_app. assert (zlen (skipn (length b) (alloc p (zlen (pk_data p) + 256))) = 0) by (unfold zlen in *; rewrite skipn_length; lia). lia.
Qed.
Print Assumptions C57_annexb_packet_exact.
Print Assumptions C57_annexb_packet_units.
(** The codecs of C56-C58, and what happens to all other packets. *)
Theorem C57_codecs : forall id, is_h26x id = true <-> id = 27 \/ id = 173.
Proof. intros id. unfold is_h26x, AVCodecIdH264, AVCodecIdH265. rewrite orb_true_iff. lia. Qed.
Theorem C57_other_packets : forall p,
  (pk_media p <> 0 -> annexb_packet_to_avcc p = Panic /\ forall s, avcc_packet_to_annexb s p = Panic) /\
  (pk_media p = 0 -> pk_type p <> 1 \/ (pk_codec p <> 27 /\ pk_codec p <> 173) -> annexb_packet_to_avcc p = Ok (p, pk_data p)) /\
  (forall d, pk_media p = 0 -> pk_type p = 1 -> pk_codec p = 27 \/ pk_codec p = 173 -> pk_avcc p = Some d -> annexb_packet_to_avcc p = Ok (p, d)).
Proof.
  intros p. pose proof (C57_codecs (pk_codec p)) as H. unfold annexb_packet_to_avcc, avcc_packet_to_annexb, AVMediaTypeVideo, PacketTypeAnnexB. split; [|split].
  - intros M. replace (0 =? pk_media p) with false by lia. split; reflexivity.
  - intros M T. replace (0 =? pk_media p) with true by lia. cbn [assert bind]. destruct (is_h26x (pk_codec p)); [|now rewrite orb_true_r].
    destruct T as [T|T]; [replace (1 =? pk_type p) with false by lia; reflexivity|]. destruct H as [H _]. specialize (H eq_refl). lia.
  - intros d M T C A. rewrite M, T, A. apply H in C. rewrite C. reflexivity.
Qed.
Print Assumptions C57_codecs.
Print Assumptions C57_other_packets.

(* ---------------------------------------------------------------------------------------- *)
(** ** C58: parameter sets in front of Annex-B key packets. *)

(** False when the packet or the extra data has no NAL header: the call panics. *)
Theorem C58_key_packet_refuted : exists s p c, pk_media p = AVMediaTypeVideo /\ pk_type p = PacketTypeAnnexB /\ pk_key p = true /\ st_codec s = AVCodecIdH264 /\ st_params s = Some c /\
  pk_annexb p = None /\ avcc_packet_to_annexb s p = Panic.
Proof. exists (stream_x (Some cd_x)), (annexb_pkt true (sc true)), cd_x. repeat (split; [reflexivity|]). vm_compute. reflexivity. Qed.

(** With both headers: exactly the stated behaviour; the second call returns the same bytes. *)
Theorem C58_key_packet_partial : forall s p c a b, pk_media p = AVMediaTypeVideo -> pk_type p <> PacketTypeAVCC -> pk_key p = true -> is_h26x (st_codec s) = true -> st_params s = Some c ->
  pk_annexb p = None -> alloc_ok p -> nal_header (cd_annexb c) = Some a -> nal_header (pk_data p) = Some b ->
  let R := cd_annexb c ++ pk_data p in
  (a <> b -> avcc_packet_to_annexb s p = Ok (set_annexb p R, R) /\ forall s', avcc_packet_to_annexb s' (set_annexb p R) = Ok (set_annexb p R, R)) /\
  (a = b -> avcc_packet_to_annexb s p = Ok (p, pk_data p)).
Proof.
  intros s p c a b M T K H P N A Ha Hb R. pose proof (annexb_key s p c a b M T K H P N A Ha Hb) as E. split.
  - intros D. replace (a =? b) with false in E by lia. split; [exact E|]. intros s'. now apply avcc_cached.
  - intros D. replace (a =? b) with true in E by lia. exact E.
Qed.
(** Otherwise (not a key packet, another codec, no parameters) the data is returned as it is. *)
Theorem C58_other_packets : forall s p, pk_media p = AVMediaTypeVideo -> pk_type p <> PacketTypeAVCC \/ is_h26x (st_codec s) = false -> pk_annexb p = None ->
  pk_key p = false \/ is_h26x (st_codec s) = false \/ st_params s = None -> avcc_packet_to_annexb s p = Ok (p, pk_data p).
Proof.
  intros s p M T N H. unfold avcc_packet_to_annexb. rewrite M, N. change (AVMediaTypeVideo =? AVMediaTypeVideo) with true. cbn [assert bind].
  assert (negb (PacketTypeAVCC =? pk_type p) || negb (is_h26x (st_codec s)) = true) as ->.
  { destruct T as [T|T]; [|rewrite T; apply orb_true_r]. replace (PacketTypeAVCC =? pk_type p) with false by lia. reflexivity. }
  destruct (pk_key p && is_h26x (st_codec s)) eqn:K; cbn [bind]; [|now rewrite N]. apply andb_true_iff in K as [K1 K2].
  destruct H as [H|[H|H]]; [congruence|congruence|]. rewrite H. cbn [bind]. now rewrite N.
Qed.
(** The header of data starting with a start code. *)
Theorem C58_header : forall four b t, nal_header (sc four ++ b :: t) = Some b.
Proof. intros [|] b t; reflexivity. Qed.
(** And when a header is missing it panics. *)
Theorem C58_no_header : forall s p c, pk_media p = AVMediaTypeVideo -> pk_type p <> PacketTypeAVCC -> pk_key p = true -> is_h26x (st_codec s) = true -> st_params s = Some c ->
  pk_annexb p = None -> nal_header (cd_annexb c) = None \/ nal_header (pk_data p) = None -> avcc_packet_to_annexb s p = Panic.
Proof.
  intros s p c M T K H P N Hd. unfold avcc_packet_to_annexb. rewrite M, K, H, P, N. change (AVMediaTypeVideo =? AVMediaTypeVideo) with true. cbn [assert bind].
  replace (PacketTypeAVCC =? pk_type p) with false by lia. cbn [negb orb andb]. cbv zeta. rewrite !first_header_spec. destruct Hd as [Hd|Hd]; rewrite Hd; [reflexivity|].
  destruct (nal_header (cd_annexb c)); reflexivity.
Qed.
Example C58_example : let p := annexb_pkt true [0;0;1;101;5] in let q := annexb_pkt true [0;0;1;103;5] in let R := sc true ++ sps_x ++ sc true ++ pps_x ++ [0;0;1;101;5] in
  avcc_packet_to_annexb (stream_x (Some cd_x)) p = Ok (set_annexb p R, R) /\ avcc_packet_to_annexb (stream_x (Some cd_x)) q = Ok (q, [0;0;1;103;5]).
Proof. split; vm_compute; reflexivity. Qed.
Print Assumptions C58_key_packet_refuted.
Print Assumptions C58_key_packet_partial.
Print Assumptions C58_other_packets.
Print Assumptions C58_header.
Print Assumptions C58_no_header.

(* ---------------------------------------------------------------------------------------- *)
(** ** C59: codec data. *)
Definition sps_y : list Z := pack (sps264_bits sps_ex ++ [true]).
Definition sps_big : list Z := sps_y ++ zeros 1000.
Definition cd_big : codec_data := CdAvc {| cc_width := 1920; cc_height := 1080; cc_annexb := Some (sc true ++ sps_big ++ sc true ++ pps_x); cc_m4vc := None |} [sc true ++ sps_big] [sc true ++ pps_x].

(** Sets without start codes are stored without them in one form only; sets which do not fit in 1024 bytes have no MP4 form. *)
Theorem C59_codec_data_refuted :
  (exists s q c d c', bytes_ok s /\ bytes_ok q /\ new_avc_codec_data s q = Ok c /\ cd_mp4 c = Ok (Some d) /\ parse_avc_record d = Ok c' /\ cd_annexb c' <> cd_annexb c) /\
  (exists s q c, bytes_ok s /\ bytes_ok q /\ new_avc_codec_data (sc true ++ s) (sc true ++ q) = Ok c /\ cd_mp4 c = Ok None).
Proof.
  split.
  - exists sps_y, pps_x. do 3 eexists. split; [vm_compute; repeat constructor; discriminate|]. split; [vm_compute; repeat constructor; discriminate|]. split; [vm_compute; reflexivity|]. split; [vm_compute; reflexivity|]. split; [vm_compute; reflexivity|]. vm_compute. congruence.
  - exists sps_big, pps_x, cd_big. split; [unfold sps_big; apply bytes_ok_app; split; [vm_compute; repeat constructor; discriminate|apply Forall_forall; intros x Hx; apply repeat_spec in Hx as ->; unfold byte_ok; lia]|].
    split; [vm_compute; repeat constructor; discriminate|]. split; vm_compute; reflexivity.
Qed.

(** With the 4-byte start codes ParseExtraDataFromKeyNALU puts in front, whenever the sets fit, both directions hold. *)
Theorem C59_avc_codec_data_partial : forall s q c, bytes_ok s -> bytes_ok q -> new_avc_codec_data (sc true ++ s) (sc true ++ q) = Ok c -> 11 + zlen s + zlen q <= 1024 ->
  exists d c', cd_mp4 c = Ok (Some d) /\ parse_avc_record d = Ok c' /\ cd_annexb c' = cd_annexb c /\ cd_width c' = cd_width c /\ cd_height c' = cd_height c /\ cd_mp4 c' = Ok (Some d).
Proof. exact avc_codec_round_trip. Qed.
Theorem C59_hevc_codec_data_partial : forall grow v s q c, bytes_ok v -> bytes_ok s -> bytes_ok q -> hevc_nal_type v = 32 -> hevc_nal_type s = 33 -> hevc_nal_type q = 34 ->
  new_hevc_codec_data (sc true ++ v) (sc true ++ s) (sc true ++ q) = Ok c -> 38 + zlen v + zlen s + zlen q <= 1024 ->
  exists d c', cd_mp4 c = Ok (Some d) /\ parse_hevc_record grow d = Ok c' /\ cd_annexb c' = cd_annexb c /\ cd_width c' = cd_width c /\ cd_height c' = cd_height c /\ cd_mp4 c' = Ok (Some d).
Proof. exact hevc_codec_round_trip. Qed.
(** Codec data parsed from a record: MP4ExtraData is that record. *)
Theorem C59_parsed : forall grow data,
  (forall c, parse_avc_record data = Ok c -> cd_mp4 c = Ok (Some data)) /\ (forall c, parse_hevc_record grow data = Ok c -> cd_mp4 c = Ok (Some data)).
Proof.
  intros grow data. split; intros c E.
  - unfold parse_avc_record in E. destruct (avc_unmarshal avc_record_zero data) as [r| | |]; try discriminate. cbn [bind] in E. destruct (idx (ar_sps r) 0); try discriminate. cbn [of_opt bind] in E.
    destruct (avc_parse_sps l); try discriminate. cbn [bind] in E. injection E as <-. reflexivity.
  - unfold parse_hevc_record in E. destruct (hevc_unmarshal grow data) as [[h s]| | |]; try discriminate. cbn [bind] in E. destruct (idx (ns_read (hs_heap s) (hs_sps s)) 0); try discriminate. cbn [of_opt bind] in E.
    destruct (hevc_parse_sps l); try discriminate. cbn [bind] in E. injection E as <-. reflexivity.
Qed.
(** Streams made from a key frame: the codec data is that of the last SPS and PPS, and the Annex-B extra data is those two units. *)
Lemma last_of_type_in type t l n : last_of_type type t l = Some n -> In n l /\ type n = t.
Proof. unfold last_of_type. intros H. apply find_some in H as [I E]. split; [now apply in_rev|lia]. Qed.
(** The audio fields of such a stream are not set. *)
Definition audio_none : audio_config := {| ac_sample_rate := 0; ac_sample_size := 0; ac_channels := 0; ac_has_adts := false; ac_bit_rate := 0 |}.
Theorem C59_avc_stream : forall l index st, l <> [] -> Forall unit_ok l -> create_avc_stream (annexb l) index = Ok st ->
  exists s q c, last_of_type avc_nal_type 7 (map snd l) = Some s /\ last_of_type avc_nal_type 8 (map snd l) = Some q /\ st_params st = Some c /\
    st_media st = AVMediaTypeVideo /\ st_index st = index /\ st_codec st = 27 /\ st_timebase st = 0 /\ st_audio st = audio_none /\ st_data st = Some (cd_annexb c) /\ cd_annexb c = annexb [(true, s); (true, q)] /\
    (11 + zlen s + zlen q <= 1024 -> exists d c', cd_mp4 c = Ok (Some d) /\ parse_avc_record d = Ok c' /\ cd_annexb c' = cd_annexb c /\ cd_width c' = cd_width c /\ cd_height c' = cd_height c).
Proof.
  intros l index st Nl F E. unfold create_avc_stream in E. rewrite C36_avc_extra in E by auto.
  destruct (last_of_type avc_nal_type 7 (map snd l)) as [s|] eqn:Es; [|discriminate]. destruct (last_of_type avc_nal_type 8 (map snd l)) as [q|] eqn:Eq; [|discriminate]. cbn [with4 option_map bind] in E. change [0; 0; 0; 1] with (sc true) in E.
  destruct (new_avc_codec_data (sc true ++ s) (sc true ++ q)) as [c| | |] eqn:Ec; try discriminate E. cbn [bind] in E. injection E as <-. exists s, q, c.
  assert (B : forall n, In n (map snd l) -> bytes_ok n).
  { intros n I. apply in_map_iff in I as ([four m] & <- & I). rewrite Forall_forall in F. destruct (F _ I) as (H & _). exact H. }
  apply last_of_type_in in Es as [Is _]. apply last_of_type_in in Eq as [Iq _]. do 9 (split; [reflexivity|]). split.
  - unfold new_avc_codec_data in Ec. destruct (avc_parse_sps _) as [i| | |]; try discriminate. cbn [bind] in Ec. injection Ec as <-. unfold cd_annexb. cbn [cd_c cc_annexb mix concat app of_nil annexb]. rewrite <- ?app_assoc, ?app_nil_r. reflexivity.
  - intros L. destruct (avc_codec_round_trip s q c) as (d & c' & H1 & H2 & H3 & H4 & H5 & _); auto. exists d, c'. auto.
Qed.
Theorem C59_hevc_stream : forall grow l index st, l <> [] -> Forall unit_ok l -> create_hevc_stream (annexb l) index = Ok st ->
  exists v s q c, last_of_type hevc_nal_type 32 (map snd l) = Some v /\ last_of_type hevc_nal_type 33 (map snd l) = Some s /\ last_of_type hevc_nal_type 34 (map snd l) = Some q /\
    st_params st = Some c /\ st_media st = AVMediaTypeVideo /\ st_index st = index /\ st_codec st = 173 /\ st_timebase st = 0 /\ st_audio st = audio_none /\ st_data st = Some (cd_annexb c) /\
    cd_annexb c = annexb [(true, v); (true, s); (true, q)] /\ (exists cc, c = CdHevc cc 0 [sc true ++ v] [sc true ++ s] [sc true ++ q]) /\
    (38 + zlen v + zlen s + zlen q <= 1024 ->
     exists d c', cd_mp4 c = Ok (Some d) /\ parse_hevc_record grow d = Ok c' /\ cd_annexb c' = cd_annexb c /\ cd_width c' = cd_width c /\ cd_height c' = cd_height c).
Proof.
  intros grow l index st Nl F E. unfold create_hevc_stream in E. rewrite C37_hevc_extra in E by auto.
  destruct (last_of_type hevc_nal_type 32 (map snd l)) as [v|] eqn:Ev; [|discriminate]. destruct (last_of_type hevc_nal_type 33 (map snd l)) as [s|] eqn:Es; [|discriminate].
  destruct (last_of_type hevc_nal_type 34 (map snd l)) as [q|] eqn:Eq; [|discriminate]. cbn [with4 option_map bind] in E. change [0; 0; 0; 1] with (sc true) in E.
  destruct (new_hevc_codec_data (sc true ++ v) (sc true ++ s) (sc true ++ q)) as [c| | |] eqn:Ec; try discriminate E. cbn [bind] in E. injection E as <-. exists v, s, q, c.
  assert (B : forall n, In n (map snd l) -> bytes_ok n).
  { intros n I. apply in_map_iff in I as ([four m] & <- & I). rewrite Forall_forall in F. destruct (F _ I) as (H & _). exact H. }
  apply last_of_type_in in Ev as [Iv Tv]. apply last_of_type_in in Es as [Is Ts]. apply last_of_type_in in Eq as [Iq Tq]. do 10 (split; [reflexivity|]). split; [|split].
  - unfold new_hevc_codec_data in Ec. destruct (hevc_parse_sps _) as [i| | |]; try discriminate. cbn [bind] in Ec. injection Ec as <-. unfold cd_annexb. cbn [cd_c cc_annexb mix concat app of_nil annexb]. rewrite <- ?app_assoc, ?app_nil_r. reflexivity.
  - unfold new_hevc_codec_data in Ec. destruct (hevc_parse_sps _) as [i| | |]; try discriminate. cbn [bind] in Ec. injection Ec as <-. eexists. reflexivity.
  - intros L. destruct (hevc_codec_round_trip grow v s q c) as (d & c' & H1 & H2 & H3 & H4 & H5 & _); auto. exists d, c'. auto.
Qed.
(** MP4ExtraData of codec data made from parameter sets: the record, nil when it does not fit, or a panic (C99). *)
Theorem C59_mp4 : forall cc k v s p, cc_m4vc cc = None -> Forall go_bytes v -> Forall go_bytes s -> Forall go_bytes p ->
  (forall d, avc_written s p = Ok d -> cd_mp4 (CdAvc cc s p) = Ok (Some d)) /\ (avc_written s p = Err -> cd_mp4 (CdAvc cc s p) = Ok None) /\ (avc_written s p = Panic -> cd_mp4 (CdAvc cc s p) = Panic) /\
  (forall d, hevc_written v s p = Ok d -> cd_mp4 (CdHevc cc k v s p) = Ok (Some d)) /\ (hevc_written v s p = Err -> cd_mp4 (CdHevc cc k v s p) = Ok None) /\ (hevc_written v s p = Panic -> cd_mp4 (CdHevc cc k v s p) = Panic).
Proof.
  intros cc k v s p N Fv Fs Fp. unfold cd_mp4. cbn [cd_c]. rewrite N, avc_marshal_exact, hevc_marshal_exact by auto. repeat split; intros; match goal with H : _ = _ |- _ => rewrite H end; reflexivity.
Qed.
(** Codec data for a track: from a record when the packets are length-prefixed (type 2), from a key frame otherwise; other codecs have none. *)
Theorem C59_dispatch : forall grow ty id data,
  (id <> 27 -> id <> 173 -> generate_video_codec_data grow ty id data = Ok None) /\
  (forall c, generate_video_codec_data grow 2 27 data = Ok (Some c) <-> parse_avc_record data = Ok c) /\
  (forall c, generate_video_codec_data grow 2 173 data = Ok (Some c) <-> parse_hevc_record grow data = Ok c) /\
  (ty <> 2 -> forall c, generate_video_codec_data grow ty 27 data = Ok (Some c) <-> exists s p, avc_parse_extra_data data = Ok (s, p) /\ new_avc_codec_data s p = Ok c) /\
  (ty <> 2 -> forall c, generate_video_codec_data grow ty 173 data = Ok (Some c) <-> exists v s p, hevc_parse_extra_data data = Ok (v, s, p) /\ new_hevc_codec_data v s p = Ok c).
Proof.
  intros grow ty id data. unfold generate_video_codec_data, PacketTypeAVCC, AVCodecIdH264, AVCodecIdH265. split; [|split; [|split; [|split]]].
  - intros A B. replace (id =? 27) with false by lia. replace (id =? 173) with false by lia. now destruct (ty =? 2).
  - intros c. cbn [Z.eqb Pos.eqb]. destruct (parse_avc_record data); cbn [bind]; split; congruence.
  - intros c. cbn [Z.eqb Pos.eqb]. destruct (parse_hevc_record grow data); cbn [bind]; split; congruence.
  - intros T c. replace (ty =? 2) with false by lia. cbn [Z.eqb Pos.eqb]. destruct (avc_parse_extra_data data) as [[s p]| | |]; cbn [bind]; try (split; [discriminate|intros (? & ? & ? & _); discriminate]).
    destruct (new_avc_codec_data s p) eqn:E; cbn [bind]; (split; [intros X; first [discriminate X | exists s, p; split; [reflexivity|congruence]]|intros (s' & p' & X & Y); injection X as <- <-; congruence]).
  - intros T c. replace (ty =? 2) with false by lia. cbn [Z.eqb Pos.eqb]. destruct (hevc_parse_extra_data data) as [[[v s] p]| | |]; cbn [bind]; try (split; [discriminate|intros (? & ? & ? & ? & _); discriminate]).
    destruct (new_hevc_codec_data v s p) eqn:E; cbn [bind]; (split; [intros X; first [discriminate X | exists v, s, p; split; [reflexivity|congruence]]|intros (v' & s' & p' & X & Y); injection X as <- <- <-; congruence]).
Qed.
Example C59_example : bytes_ok sps_y /\ exists c d c', new_avc_codec_data (sc true ++ sps_y) (sc true ++ pps_x) = Ok c /\ cd_mp4 c = Ok (Some d) /\ parse_avc_record d = Ok c' /\
  cd_width c' = 1920 /\ cd_height c' = 1080 /\ cd_annexb c' = sc true ++ sps_y ++ sc true ++ pps_x.
Proof. split; [vm_compute; repeat constructor; discriminate|]. do 3 eexists. repeat (split; [vm_compute; reflexivity|]). vm_compute; reflexivity. Qed.
Print Assumptions C59_codec_data_refuted.
Print Assumptions C59_avc_codec_data_partial.
Print Assumptions C59_hevc_codec_data_partial.
Print Assumptions C59_parsed.
Print Assumptions C59_avc_stream.
Print Assumptions C59_hevc_stream.
Print Assumptions C59_mp4.
Print Assumptions C59_dispatch.

(* ---------------------------------------------------------------------------------------- *)
(** ** C60: recycled packets. *)

(** A recycled audio packet has packet type NONE, a new one has type 0. *)
Theorem C60_audio_refuted : exists s ch d ts id i tb, pool_reach s /\ fst (new_audio_packet s ch d ts id i tb) <> fst (new_audio_packet [] None d ts id i tb).
Proof. exists (free_packet [] pkt_zero), (Some 0%nat), [1], 0, 1, 0, 1. split; [apply pr_free, pr_init|]. vm_compute. congruence. Qed.

Definition with_type (p : packet) (t : Z) : packet :=
  mkPkt (pk_data p) (pk_pts p) (pk_dts p) (pk_duration p) (pk_key p) (pk_created p) (pk_buffer p) (pk_index p) (pk_timebase p) (pk_media p) (pk_codec p) t (pk_avcc p) (pk_annexb p) (pk_alloc p).
(** It is the only difference; video packets never differ. *)
Theorem C60_recycled_partial : forall s, pool_reach s ->
  (forall ch d dts pts k ty id i tb, fst (new_video_packet s ch d dts pts k ty id i tb) = fst (new_video_packet [] None d dts pts k ty id i tb)) /\
  (forall ch d ts id i tb, exists t, (t = 0 \/ t = 3) /\ fst (new_audio_packet s ch d ts id i tb) = with_type (fst (new_audio_packet [] None d ts id i tb)) t).
Proof.
  intros s R. split.
  - intros ch d dts pts k ty id i tb. unfold new_video_packet. destruct (pool_get_either s ch R) as [E|E]; destruct (pool_get s ch) as [p s']; cbn [fst] in *; subst p; reflexivity.
  - intros ch d ts id i tb. unfold new_audio_packet. destruct (pool_get_either s ch R) as [E|E]; destruct (pool_get s ch) as [p s']; cbn [fst] in *; subst p; [exists 0|exists PacketTypeNONE]; split; auto.
Qed.
(** What the caller gave is what the packet holds, and no cached conversion survives. *)
Theorem C60_fields : forall s, pool_reach s -> forall ch d dts pts k ty id i tb, let p := fst (new_video_packet s ch d dts pts k ty id i tb) in
  p = mkPkt d pts dts 0 k 0 0 i tb AVMediaTypeVideo id ty None None None.
Proof. intros s R ch d dts pts k ty id i tb. cbv zeta. rewrite (proj1 (C60_recycled_partial s R)). reflexivity. Qed.
(** ExtractAudioPacket keeps ADTS headers: it always makes the packet of the whole data. *)
Theorem C60_extract_audio : forall s ch codec d ts i tb adts, extract_audio_packet s ch codec d ts i tb adts = Ok (new_audio_packet s ch d ts codec i tb).
Proof. intros. unfold extract_audio_packet. destruct (_ && _); [|reflexivity]. pose proof (slice_from_app [] d) as E. cbn [app] in E. change (zlen (@nil Z)) with 0 in E. now rewrite E. Qed.
(** A packet is handed out once: the pool afterwards is what was there without it. *)
Theorem C60_once : forall s ch, (exists k p s', ch = Some k /\ nth_error s k = Some p /\ pool_get s ch = (p, s') /\ Permutation s (p :: s')) \/ pool_get s ch = (pkt_zero, s).
Proof.
  intros s [k|]; [|now right]. cbn [pool_get]. destruct (nth_error s k) as [p|] eqn:E; [left|now right]. exists k, p. eexists. split; [reflexivity|]. split; [exact E|]. split; [reflexivity|].
  apply nth_error_split in E as (l1 & l2 & -> & <-). rewrite firstn_app, firstn_all, Nat.sub_diag. change (firstn 0 (p :: l2)) with (@nil packet). rewrite app_nil_r.
  replace (skipn (S (length l1)) (l1 ++ p :: l2)) with l2; [symmetry; apply Permutation_middle|]. rewrite skipn_app. rewrite skipn_all2 by lia. replace (S (length l1) - length l1)%nat with 1%nat by lia. reflexivity.
Qed.
Example C60_example : let used := set_annexb (avcc_pkt true [1; 2; 3]) [9; 9] in pool_reach (free_packet [] used) /\
  fst (new_video_packet (free_packet [] used) (Some 0%nat) [7] 1 2 false PacketTypeAnnexB AVCodecIdH264 3 90000) = mkPkt [7] 2 1 0 false 0 0 3 90000 0 27 1 None None None /\
  snd (new_video_packet (free_packet [] used) (Some 0%nat) [7] 1 2 false PacketTypeAnnexB AVCodecIdH264 3 90000) = [].
Proof. split; [apply pr_free, pr_init|]. split; vm_compute; reflexivity. Qed.
Print Assumptions C60_audio_refuted.
Print Assumptions C60_recycled_partial.
Print Assumptions C60_fields.
Print Assumptions C60_extract_audio.
Print Assumptions C60_once.

(* ---------------------------------------------------------------------------------------- *)
(** ** C61: muxer tracks.  [rs] are the results of the calls of AddTrack on [l], in order. *)
Theorem C61_muxer_tracks : forall l, let '(m, rs) := mx_run l in
  length rs = length l /\ NoDup (map st_media (mx_tracks m)) /\
  (forall x, In x (map st_media (mx_tracks m)) <-> In x (map st_media l)) /\
  filter is_ok rs = map Ok (upto (length (mx_tracks m))) /\
  (forall i s, nth_error l i = Some s ->
     (nth_error rs i = Some Err /\ In (st_media s) (map st_media (firstn i l))) \/
     (~ In (st_media s) (map st_media (firstn i l)) /\ exists k, nth_error rs i = Some (Ok (Z.of_nat k)) /\ nth_error (mx_tracks m) k = Some s)).
Proof. exact mx_run_spec. Qed.
Theorem C61_never_moves : forall l1 l2, exists t, mx_tracks (fst (mx_run (l1 ++ l2))) = mx_tracks (fst (mx_run l1)) ++ t.
Proof. exact mx_run_app. Qed.
(** WriteHeader reports no bytes, keeps the tracks, and does not close the track list: AddTrack gives the same answers afterwards. *)
Theorem C61_write_header : forall m, snd (mx_write_header m) = 0 /\ mx_tracks (fst (mx_write_header m)) = mx_tracks m /\ mx_completed (fst (mx_write_header m)) = true /\
  forall s, snd (mx_add_track (fst (mx_write_header m)) s) = snd (mx_add_track m s) /\ mx_tracks (fst (mx_add_track (fst (mx_write_header m)) s)) = mx_tracks (fst (mx_add_track m s)).
Proof.
  intros m. split; [reflexivity|]. split; [reflexivity|]. split; [reflexivity|]. intros s. unfold mx_add_track, mx_write_header. cbn [fst mx_tracks]. destruct (tm_find_type _ _); split; reflexivity.
Qed.
(** AddTrack does not mark the muxer as complete, and a new one is not. *)
Theorem C61_not_completed : forall l, mx_completed (fst (mx_run l)) = false.
Proof.
  induction l as [|s l IH] using rev_ind; [reflexivity|]. rewrite mx_run_snoc. destruct (mx_run l) as [m rs]. cbn [fst] in IH. unfold mx_step, mx_add_track. cbn [fst snd]. destruct (tm_find_type _ _); exact IH.
Qed.
Example C61_example : let v := stream_x None in let a := new_av_stream AVMediaTypeAudio 0 AVCodecIdAAC None None in
  mx_run [v; a; v; a; a] = ({| mx_tracks := [v; a]; mx_completed := false |}, [Ok 0; Ok 1; Err; Err; Err]) /\ upto 3 = [0; 1; 2].
Proof. split; vm_compute; reflexivity. Qed.
Print Assumptions C61_muxer_tracks.
Print Assumptions C61_never_moves.
Print Assumptions C61_write_header.
Print Assumptions C61_not_completed.

(* ---------------------------------------------------------------------------------------- *)
(** ** C34, C35 through IsKeyFrame: the codec selects the test; any other codec has no key frames. *)
Theorem C34_dispatch : forall data, is_key_frame AVCodecIdH264 data = avc_is_key_frame data.
Proof. reflexivity. Qed.
Theorem C35_dispatch : forall data, is_key_frame AVCodecIdH265 data = hevc_is_key_frame data /\
  forall id, id <> AVCodecIdH264 -> id <> AVCodecIdH265 -> is_key_frame id data = Ok false.
Proof.
  intros data. split; [reflexivity|]. intros id N1 N2. unfold is_key_frame. destruct (Z.eqb_spec AVCodecIdH264 id); [congruence|]. destruct (Z.eqb_spec AVCodecIdH265 id); [congruence|]. reflexivity.
Qed.
Print Assumptions C34_dispatch.
Print Assumptions C35_dispatch.
Example C34_dispatch_example : is_key_frame AVCodecIdH264 [0; 0; 0; 1; 101; 5] = Ok true /\ is_key_frame AVCodecIdH265 [0; 0; 0; 1; 101; 5] = Ok false /\ is_key_frame 167 [0; 0; 0; 1; 101; 5] = Ok false.
Proof. repeat split; vm_compute; reflexivity. Qed.

(** * PropertiesRound: C56 for arbitrary H.265 packets, and C104: a packet converted to the other form and back. *)
From Verif Require Import Base RingProofs BitSpec NaluModel NaluSpec NaluProofs SplitProofs AvccProofs AnnexbProofs RecordModel RecordSpec SpsModel SpsSpec AacModel PacketModel PacketProofs
  PropertiesNalu PropertiesRecord PropertiesSps PropertiesPacket RoundProofs.

(** ** C56: every H.265 packet is either a sequence of units with the right length prefixes, at most 256 / (4 - k) of them, or the call panics. With the
    length size 0 of a stream made from a key frame no unit has a length prefix, so only the empty packet is converted. *)
Theorem C56_hevc_packet_exact : forall s p cc k v sp pp, pk_media p = AVMediaTypeVideo -> pk_type p = PacketTypeAVCC -> is_h26x (st_codec s) = true -> pk_codec p = AVCodecIdH265 ->
  pk_annexb p = None -> st_params s = Some (CdHevc cc (Z.of_nat k) v sp pp) -> alloc_ok p -> (k <= 4)%nat -> bytes_ok (pk_data p) ->
  (exists units, pk_data p = lp k units /\ Forall (lp_unit_ok k) units /\ (4 - Z.of_nat k) * zlen units <= 256 /\
     let R := key_extra p (CdHevc cc (Z.of_nat k) v sp pp) ++ annexb4 units in avcc_packet_to_annexb s p = Ok (set_annexb p R, R)) \/
  ((forall units, pk_data p = lp k units -> Forall (lp_unit_ok k) units -> 256 < (4 - Z.of_nat k) * zlen units) /\ avcc_packet_to_annexb s p = Panic).
Proof. exact hevc_packet_all. Qed.
Example C56_hevc_exact_example :
  let cc := {| cc_width := 0; cc_height := 0; cc_annexb := None; cc_m4vc := None |} in
  let st k := new_av_stream AVMediaTypeVideo 0 AVCodecIdH265 None (Some (CdHevc cc k [] [] [])) in
  let pkt d := init_video pkt_zero d 0 0 false PacketTypeAVCC AVCodecIdH265 0 1000 in
  avcc_packet_to_annexb (st 2) (pkt [0; 2; 38; 1; 0; 3; 2; 1; 7]) = Ok (set_annexb (pkt [0; 2; 38; 1; 0; 3; 2; 1; 7]) [0;0;0;1;38;1;0;0;0;1;2;1;7], [0;0;0;1;38;1;0;0;0;1;2;1;7]) /\
  avcc_packet_to_annexb (st 2) (pkt [0; 2; 38; 1; 0; 3; 2; 1]) = Panic /\ avcc_packet_to_annexb (st 0) (pkt [0; 0; 0; 2; 38; 1]) = Panic.
Proof. split; [vm_compute; reflexivity|]. split; vm_compute; reflexivity. Qed.
Print Assumptions C56_hevc_packet_exact.

(* ---------------------------------------------------------------------------------------- *)
(** ** C104 *)

(** A packet with this codec and data which has not been converted yet. *)
Definition annexb_form (id : Z) (data : list Z) (p : packet) : Prop := pk_media p = AVMediaTypeVideo /\ pk_type p = PacketTypeAnnexB /\ pk_codec p = id /\ pk_avcc p = None /\ alloc_ok p /\ pk_data p = data.
Definition avcc_form (id : Z) (data : list Z) (q : packet) : Prop := pk_media q = AVMediaTypeVideo /\ pk_type q = PacketTypeAVCC /\ pk_codec q = id /\ pk_annexb q = None /\ alloc_ok q /\ pk_data q = data.
(** Units that survive the way to AVCC. *)
Definition kept (u : bool * list Z) : Prop := unit_ok u /\ hd 0 (snd u) <> 0 /\ zlen (snd u) < 2 ^ 32.

(** A key frame with parameter sets of 1920x1088. *)
Definition hsps_z : list Z := escape (66 :: 1 :: pack (sps265_bits (q_of None) ++ [true])).
Definition hevc_key : list (bool * list Z) := [(true, [64; 1; 12]); (false, hsps_z); (true, [68; 1; 193]); (false, [38; 1; 175; 6])].

(** After CreateHevcStreamFromKeyFrame no length-prefixed packet can be converted. *)
Theorem C104_key_frame_stream : forall l index st d q, l <> [] -> Forall unit_ok l -> create_hevc_stream (annexb l) index = Ok st -> d <> [] -> bytes_ok d -> avcc_form AVCodecIdH265 d q ->
  avcc_packet_to_annexb st q = Panic.
Proof.
  intros l index st d q Nl F E Nd B (M & T & C & N & A & D). destruct (C59_hevc_stream (fun n => n) l index st Nl F E) as (v & s & w & c & _ & _ & _ & P & _ & _ & Sc & _ & _ & _ & _ & (cc & ->) & _).
  destruct (hevc_packet_all st q cc 0 _ _ _ M T ltac:(rewrite Sc; reflexivity) C N P A ltac:(lia) ltac:(rewrite D; exact B)) as [(u & Eu & Fu & _)|[_ X]]; [exfalso|exact X].
  destruct u as [|n u]; [apply Nd; rewrite <- D; exact Eu|]. apply Forall_cons_iff in Fu as [[_ Fu] _]. change (256 ^ Z.of_nat 0) with 1 in Fu. lia.
Qed.

(** So the claim is false. The units of the witness are valid and all of them are in the AVCC packet. *)
Theorem C104_round_trip_refuted : exists st p d, create_hevc_stream (annexb hevc_key) 0 = Ok st /\ Forall kept hevc_key /\ annexb_form AVCodecIdH265 (annexb hevc_key) p /\
  annexb_packet_to_avcc p = Ok (set_avcc p d, d) /\ d = avcc (map snd hevc_key) /\ forall q, avcc_form AVCodecIdH265 d q -> avcc_packet_to_annexb st q = Panic.
Proof.
  set (p := init_video pkt_zero (annexb hevc_key) 0 0 true PacketTypeAnnexB AVCodecIdH265 0 1000). 
  assert (K : Forall kept hevc_key).
  { assert (U : Forall unit_ok hevc_key) by nok. apply Forall_forall. intros u Hu. rewrite Forall_forall in U. split; [now apply U|]. destruct Hu as [<-|[<-|[<-|[<-|[]]]]]; split; vm_compute; congruence. }
  assert (B : bytes_ok (avcc (map snd hevc_key))). { vm_compute. repeat constructor; discriminate. }
  do 3 eexists. split; [vm_compute; reflexivity|]. split; [exact K|]. split; [|split; [|split; [reflexivity|]]].
  - instantiate (1 := p). unfold p. repeat split.
  - vm_compute. reflexivity.
  - intros q Q. eapply C104_key_frame_stream with (l := hevc_key); [discriminate| |vm_compute; reflexivity| |exact B|exact Q]; [|discriminate]. eapply Forall_impl; [|exact K]. now intros u [H _].
Qed.

(** H.264, with units that are not SEI (C31 gives the others): Annex-B to AVCC and back. *)
Theorem C104_avc_partial : forall s c l p, is_h26x (st_codec s) = true -> st_params s = Some c -> l <> [] -> Forall kept l -> Forall (fun u => not_sei (snd u) = true) l -> zlen (short_codes l) <= 256 ->
  annexb_form AVCodecIdH264 (annexb l) p -> exists d, annexb_packet_to_avcc p = Ok (set_avcc p d, d) /\
    forall q, avcc_form AVCodecIdH264 d q -> let R := key_extra q c ++ annexb_norm (map snd l) in avcc_packet_to_annexb s q = Ok (set_annexb q R, R).
Proof.
  intros s c l p H P Nl F NS L (M & T & C & N & A & D). exists (avcc (map snd l)). split; [apply (C57_annexb_packet_units p l); auto; rewrite C; reflexivity|].
  intros q (Mq & Tq & Cq & Nq & Aq & Dq). apply (C56_avcc_packet_units s q c (map snd l)); auto; apply Forall_map; [|exact NS]. eapply Forall_impl; [|exact F]. intros u ((B & Ne & _) & _ & Lu). split; [exact B|]. destruct (snd u) as [|x y]; [congruence|]. rewrite zlen_cons in *. pose proof (zlen_nonneg y). lia.
Qed.
(** The bytes are the same when the start codes are those the library writes and no parameter sets are put in front. *)
Theorem C104_same_bytes : forall s c n r p, let l := (true, n) :: map (fun m => (false, m)) r in
  is_h26x (st_codec s) = true -> st_params s = Some c -> Forall kept l -> Forall (fun u => not_sei (snd u) = true) l -> zlen r <= 256 ->
  annexb_form AVCodecIdH264 (annexb l) p -> exists d, annexb_packet_to_avcc p = Ok (set_avcc p d, d) /\
    forall q, avcc_form AVCodecIdH264 d q -> pk_key q = false -> avcc_packet_to_annexb s q = Ok (set_annexb q (annexb l), annexb l).
Proof.
  intros s c n r p l H P F NS L X. assert (El : l = norm_codes (n :: r)) by reflexivity. assert (Sh : zlen (short_codes l) <= 256) by (rewrite El, short_norm, zlen_cons; lia).
  destruct (C104_avc_partial s c l p H P ltac:(discriminate) F NS Sh X) as (d & E1 & E2). exists d. split; [exact E1|]. intros q Q K. specialize (E2 q Q). cbv zeta in E2. unfold key_extra in E2. rewrite K in E2. cbn [app] in E2.
  rewrite El, norm_snd, norm_annexb, <- El in E2. exact E2.
Qed.
(** The other way round: at most 257 units without key flag, AVCC to Annex-B and back. *)
Theorem C104_avcc_first_partial : forall s c units q, is_h26x (st_codec s) = true -> st_params s = Some c -> units <> [] -> Forall (fun n => kept (true, n) /\ not_sei n = true) units -> zlen units <= 257 ->
  avcc_form AVCodecIdH264 (avcc units) q -> pk_key q = false -> exists d, avcc_packet_to_annexb s q = Ok (set_annexb q d, d) /\
    forall p, annexb_form AVCodecIdH264 d p -> annexb_packet_to_avcc p = Ok (set_avcc p (avcc units), avcc units).
Proof.
  intros s c units q H P Nu F L (M & T & C & N & A & D) K. exists (annexb_norm units). split.
  - destruct (C56_avcc_packet_units s q c units) as (X & _); auto.
    + eapply Forall_impl; [|exact F]. intros n (((B & Ne & _) & _ & Lu) & _). cbn [snd] in *. split; [exact B|]. destruct n as [|x y]; [congruence|]. rewrite zlen_cons in *. pose proof (zlen_nonneg y). lia.
    + eapply Forall_impl; [|exact F]. now intros n [_ ?].
    + unfold key_extra in X. rewrite K in X. exact X.
  - intros p (Mp & Tp & Cp & Np & Ap & Dp). destruct (C57_annexb_packet_units p (norm_codes units)) as (X & _); auto.
    + rewrite Cp. reflexivity.
    + destruct units; [congruence|discriminate].
    + rewrite Dp. apply norm_annexb.
    + destruct units as [|n r]; [congruence|]. apply Forall_cons_iff in F as [[Fn _] F]. constructor; [exact Fn|]. apply Forall_map. eapply Forall_impl; [|exact F]. intros m [Fm _]. exact Fm.
    + rewrite short_norm. lia.
    + rewrite norm_snd in X. exact X.
Qed.

(** H.265, when the parameters of the receiving stream were parsed from the record the library writes for the sending one: the record says that lengths have 4 bytes, so every
    packet of units with 2 bytes or more comes back, the parameter sets in front of a key packet. *)
Theorem C104_hevc_partial : forall grow l0 index st, l0 <> [] -> Forall unit_ok l0 -> create_hevc_stream (annexb l0) index = Ok st ->
  exists v s q c, last_of_type hevc_nal_type 32 (map snd l0) = Some v /\ last_of_type hevc_nal_type 33 (map snd l0) = Some s /\ last_of_type hevc_nal_type 34 (map snd l0) = Some q /\ st_params st = Some c /\
    (38 + zlen v + zlen s + zlen q <= 1024 -> exists rec c', cd_mp4 c = Ok (Some rec) /\ parse_hevc_record grow rec = Ok c' /\
       forall st' l p, is_h26x (st_codec st') = true -> st_params st' = Some c' -> l <> [] -> Forall kept l -> Forall (fun u => 2 <= zlen (snd u)) l -> zlen (short_codes l) <= 256 ->
         annexb_form AVCodecIdH265 (annexb l) p -> exists d, annexb_packet_to_avcc p = Ok (set_avcc p d, d) /\
           forall r, avcc_form AVCodecIdH265 d r -> let R := (if pk_key r then annexb [(true, v); (true, s); (true, q)] else []) ++ annexb4 (map snd l) in avcc_packet_to_annexb st' r = Ok (set_annexb r R, R)).
Proof.
  intros grow l0 index st Nl F E. destruct (C59_hevc_stream grow l0 index st Nl F E) as (v & s & q & c & Ev & Es & Eq & P & _ & _ & _ & _ & _ & _ & Ea & (cc & Ec) & RT). exists v, s, q, c. repeat (split; [assumption|]).
  intros L. destruct (RT L) as (rec & c' & M4 & PR & CA & _). exists rec, c'. split; [exact M4|]. split; [exact PR|].
  assert (Bn : forall n, In n (map snd l0) -> bytes_ok n).
  { intros n I. apply in_map_iff in I as ([four m] & <- & I). rewrite Forall_forall in F. destruct (F _ I) as (H & _). exact H. }
  pose proof (last_of_type_in _ _ _ _ Ev) as [Iv Tv]. pose proof (last_of_type_in _ _ _ _ Es) as [Is Ts]. pose proof (last_of_type_in _ _ _ _ Eq) as [Iq Tq].
  assert (K4 : exists cc', c' = CdHevc cc' 4 [sc true ++ v] [sc true ++ s] [sc true ++ q]).
  { unfold create_hevc_stream in E. rewrite C37_hevc_extra, Ev, Es, Eq in E by auto. cbn [with4 option_map bind] in E. change [0; 0; 0; 1] with (sc true) in E.
    destruct (new_hevc_codec_data (sc true ++ v) (sc true ++ s) (sc true ++ q)) as [c0| | |] eqn:E0; try discriminate E. cbn [bind] in E. assert (c0 = c) as -> by (injection E as <-; cbn in P; congruence).
    destruct (hevc_codec_parsed grow v s q c) as (rec' & cc' & M4' & PR'); auto. rewrite M4 in M4'. assert (rec' = rec) as -> by congruence. rewrite PR in PR'. exists cc'. congruence. }
  destruct K4 as (cc' & Ec'). intros st' l p H P' Nll Fl F2 Sh (Mp & Tp & Cp & Np & Ap & Dp). exists (avcc (map snd l)). split; [apply (C57_annexb_packet_units p l); auto; rewrite Cp; reflexivity|].
  intros r (Mr & Tr & Cr & Nr & Ar & Dr). rewrite Ec' in P'.
  destruct (C56_hevc_packet st' r cc' 4 _ _ _ (map snd l) Mr Tr H Cr Nr P' Ar) as (X & _); [lia|rewrite lp4_avcc; exact Dr| |change (4 - Z.of_nat 4) with 0; lia|].
  - apply Forall_map. rewrite Forall_forall in *. intros u Hu. destruct (Fl u Hu) as ((B & _) & _ & Lu). split; [exact B|]. change (256 ^ Z.of_nat 4) with (2 ^ 32). specialize (F2 u Hu). lia.
  - unfold key_extra in X. change (CdHevc cc' (Z.of_nat 4) _ _ _) with (CdHevc cc' 4 [sc true ++ v] [sc true ++ s] [sc true ++ q]) in X. rewrite <- Ec', CA, Ea in X. exact X.
Qed.

(** The key frame above, through the record, with a packet of two slices. *)
Example C104_example : exists st c rec c', create_hevc_stream (annexb hevc_key) 0 = Ok st /\ st_params st = Some c /\ cd_mp4 c = Ok (Some rec) /\ parse_hevc_record (fun n => n) rec = Ok c' /\
  let st' := new_av_stream AVMediaTypeVideo 0 AVCodecIdH265 None (Some c') in
  let p := init_video pkt_zero (annexb [(false, [2; 1; 208; 9]); (true, [2; 1; 7])]) 0 0 false PacketTypeAnnexB AVCodecIdH265 0 1000 in
  let d := [0; 0; 0; 4; 2; 1; 208; 9; 0; 0; 0; 3; 2; 1; 7] in let q := init_video pkt_zero d 0 0 false PacketTypeAVCC AVCodecIdH265 0 1000 in
  let R := [0; 0; 0; 1; 2; 1; 208; 9; 0; 0; 0; 1; 2; 1; 7] in
  annexb_packet_to_avcc p = Ok (set_avcc p d, d) /\ avcc_packet_to_annexb st' q = Ok (set_annexb q R, R).
Proof. do 4 eexists. do 4 (split; [vm_compute; reflexivity|]). cbv zeta. split; vm_compute; reflexivity. Qed.
Print Assumptions C104_key_frame_stream.
Print Assumptions C104_round_trip_refuted.
Print Assumptions C104_avc_partial.
Print Assumptions C104_same_bytes.
Print Assumptions C104_avcc_first_partial.
Print Assumptions C104_hevc_partial.

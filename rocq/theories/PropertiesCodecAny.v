(** * PropertiesCodecAny: C59 for parameter sets in any form (with a start code of 3 or 4 bytes, or without). *)
From Verif Require Import Base RingProofs NaluModel NaluSpec NaluProofs SplitProofs AvccProofs RecordModel RecordSpec RecordProofs HevcRecordProofs MarshalProofs SpsModel PacketModel PacketProofs
  PropertiesRecord PropertiesPacket.

Lemma strip_one x l : Forall2 strip [x] l -> exists n, l = [n] /\ remove_start_code x = Ok n /\ bare x = Some n.
Proof.
  intros F. inversion F as [|? n ? t H F2]; subst. inversion F2; subst. exists n. unfold strip in H. split; [reflexivity|]. split; [exact H|]. rewrite bare_spec in H. destruct (bare x); cbn [of_opt] in H; congruence.
Qed.
(** Whatever form the sets have: when there is an MP4 form at all, parsing it gives codec data whose Annex-B form is the bare sets with
    4-byte start codes and whose picture size is the same. *)
Theorem C59_avc_any : forall s q c d, go_bytes s -> go_bytes q -> new_avc_codec_data s q = Ok c -> cd_mp4 c = Ok (Some d) ->
  exists s0 q0 c', bare s = Some s0 /\ bare q = Some q0 /\ parse_avc_record d = Ok c' /\ cd_annexb c = s ++ q /\ cd_annexb c' = annexb [(true, s0); (true, q0)] /\
    cd_width c' = cd_width c /\ cd_height c' = cd_height c /\ cd_mp4 c' = Ok (Some d).
Proof.
  intros s q c d Gs Gq E M. unfold new_avc_codec_data in E. destruct (avc_parse_sps s) as [i| | |] eqn:Ei; try discriminate E. cbn [bind] in E. injection E as <-.
  unfold cd_mp4 in M. cbn [cd_c cc_m4vc] in M. destruct (avc_marshal [s] [q]) as [d'| | |] eqn:Em; try discriminate M. injection M as ->.
  destruct (C39_avc_record_round_trip [s] [q] d) as (S & P & b0 & b1 & b2 & b3 & t & FS & FP & EL & Eu); [constructor; [assumption|constructor]|constructor; [assumption|constructor]|vm_compute; congruence|vm_compute; congruence|exact Em|].
  apply strip_one in FS as (s0 & -> & Rs & Bs). apply strip_one in FP as (q0 & -> & Rq & Bq). exists s0, q0.
  assert (Ei' : avc_parse_sps (sc true ++ s0) = Ok i).
  { unfold avc_parse_sps in *. rewrite Rs in Ei. cbn [bind] in Ei. rewrite (remove_sc true). exact Ei. }
  unfold parse_avc_record. rewrite Eu. cbn [bind ar_sps ar_pps]. unfold with4s. cbn [map]. rewrite RingProofs.idx_cons_0. cbn [of_opt bind]. rewrite Ei'. cbn [bind]. eexists.
  split; [exact Bs|]. split; [exact Bq|]. split; [reflexivity|]. split; [|split; [|split; [reflexivity|split; reflexivity]]].
  - unfold cd_annexb. cbn [cd_c cc_annexb]. unfold mix. cbn [concat app]. rewrite !app_nil_r. destruct (s ++ q) as [|x t'] eqn:Esq; [|reflexivity].
    apply app_eq_nil in Esq as [-> _]. discriminate Bs.
  - reflexivity.
Qed.
Theorem C59_hevc_any : forall grow v s q c d v0 s0 q0, go_bytes v -> go_bytes s -> go_bytes q -> new_hevc_codec_data v s q = Ok c -> cd_mp4 c = Ok (Some d) ->
  bare v = Some v0 -> bare s = Some s0 -> bare q = Some q0 -> hevc_nal_type v0 = 32 -> hevc_nal_type s0 = 33 -> hevc_nal_type q0 = 34 ->
  exists c', parse_hevc_record grow d = Ok c' /\ cd_annexb c = v ++ s ++ q /\ cd_annexb c' = annexb [(true, v0); (true, s0); (true, q0)] /\
    cd_width c' = cd_width c /\ cd_height c' = cd_height c /\ cd_mp4 c' = Ok (Some d).
Proof.
  intros grow v s q c d v0 s0 q0 Gv Gs Gq E M Bv Bs Bq Tv Ts Tq. unfold new_hevc_codec_data in E. destruct (hevc_parse_sps s) as [i| | |] eqn:Ei; try discriminate E. cbn [bind] in E. injection E as <-.
  unfold cd_mp4 in M. cbn [cd_c cc_m4vc] in M. destruct (hevc_marshal [v] [s] [q]) as [d'| | |] eqn:Em; try discriminate M. injection M as ->.
  destruct (hevc_round_trip grow [v] [s] [q] d) as (V & S & P & FV & FS & FP & H); try (constructor; [assumption|constructor]); [exact Em|].
  apply strip_one in FV as (v1 & -> & Rv & Bv'). apply strip_one in FS as (s1 & -> & Rs & Bs'). apply strip_one in FP as (q1 & -> & Rq & Bq'). assert (v1 = v0 /\ s1 = s0 /\ q1 = q0) as (-> & -> & ->) by (repeat split; congruence).
  destruct (H Tv Ts Tq) as (x & Eu & EV & ES & EP).
  assert (Ei' : hevc_parse_sps (sc true ++ s0) = Ok i).
  { unfold hevc_parse_sps in *. rewrite Rs in Ei. cbn [bind] in Ei. rewrite (remove_sc true). exact Ei. }
  unfold parse_hevc_record. rewrite Eu. cbn [bind]. unfold hs_V, hs_S, hs_P in *. rewrite EV, ES, EP. unfold with4s. cbn [map last]. rewrite RingProofs.idx_cons_0. cbn [of_opt bind]. rewrite Ei'. cbn [bind]. eexists.
  split; [reflexivity|]. split; [|split; [|split; [reflexivity|split; reflexivity]]].
  - unfold cd_annexb. cbn [cd_c cc_annexb]. unfold mix. cbn [concat app]. rewrite !app_nil_r. destruct (v ++ s ++ q) as [|y t'] eqn:Esq; [|reflexivity].
    apply app_eq_nil in Esq as [-> _]. discriminate Bv.
  - reflexivity.
Qed.
Print Assumptions C59_avc_any.
Print Assumptions C59_hevc_any.
(** An SPS with a 3-byte start code and a PPS without one. *)
Example C59_any_example : exists c d c', new_avc_codec_data (sc false ++ sps_y) pps_x = Ok c /\ cd_mp4 c = Ok (Some d) /\ cd_annexb c = [0; 0; 1] ++ sps_y ++ pps_x /\
  parse_avc_record d = Ok c' /\ cd_annexb c' = [0; 0; 0; 1] ++ sps_y ++ [0; 0; 0; 1] ++ pps_x.
Proof. do 3 eexists. repeat (split; [vm_compute; reflexivity|]). vm_compute; reflexivity. Qed.

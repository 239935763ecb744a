(** * PropertiesReturns: every call returns (C147). *)
From Verif Require Import Base BufioModel NaluModel RecordModel SpsModel AacModel CapModel PacketModel DemuxModel HandlerModel ReturnsProofs.
From Coq Require Import String.
Local Open Scope list_scope.

(** [NoFuel] stands for a loop that is not over when its budget of rounds is used up; the budgets in the model are the length of the input
    plus one for the loops over the input, the number of unread bits plus one for avc/sps.go:155, 100 for the leading zeros of a code and
    1000 for the units of M4VCExtraDataToAnnexB. *)
Definition returns {A} (r : res A) : Prop := exists x, r = x /\ match x with Ok _ | Err | Panic => True | NoFuel => False end.
Lemma returns_ends {A} (r : res A) : ends r -> returns r.
Proof. unfold ends, returns. intros E. exists r. split; [reflexivity|]. destruct r; auto. Qed.

(** ** C147: start codes, key frames, parameter sets *)
Theorem C147_search : forall p r,
  returns (find_start_code p) /\ returns (find_start_code2 p) /\ returns (snd (find_start_code_with_reader r)) /\
  returns (avc_is_key_frame p) /\ returns (hevc_is_key_frame p) /\ returns (split_nalu p) /\
  returns (avc_parse_extra_data p) /\ returns (hevc_parse_extra_data p).
Proof. intros p r. repeat split; apply returns_ends; auto using fsc_reader_ends with ends. Qed.
Print Assumptions C147_search.

(** ** C147: the two formats of a stream *)
Theorem C147_convert : forall dst w p extra k, bytes_ok p ->
  returns (avcc2annexb dst p extra) /\ returns (annexb2avcc dst p) /\ returns (avc_mp4_to_annexb w p extra) /\ returns (hevc_mp4_to_annexb dst p extra k).
Proof. intros dst w p extra k B. repeat split; apply returns_ends; auto with ends. Qed.
Print Assumptions C147_convert.

(** ** C147: decoder configuration records and sequence parameter sets *)
Theorem C147_record : forall grow a d spare v s p, bytes_ok d ->
  returns (avc_unmarshal a d) /\ returns (avc_marshal s p) /\ returns (avc_extra_to_annexb d) /\
  returns (hevc_unmarshal grow d) /\ returns (hevc_marshal v s p) /\ returns (hevc_extra_to_annexb grow d) /\
  returns (m4vc_extra_to_annexb d) /\ returns (m4vc_extra_to_annexb_cap d spare).
Proof. intros grow a d spare v s p B. repeat split; apply returns_ends; auto using ends_m4vc, ends_m4vc_cap with ends. Qed.
Print Assumptions C147_record.

(** The codes are read from any reader state, the sets from any slice. *)
Theorem C147_sps : forall g d, returns (snd (g_zeros_loop 33 0 g)) /\ returns (snd (g_read_ue g)) /\ returns (snd (g_read_se g)) /\ returns (avc_parse_sps d) /\ returns (hevc_parse_sps d).
Proof. intros g d. repeat split; apply returns_ends; [apply gends_zeros; lia|..]; auto using gends_ue, gends_se with ends. Qed.
Print Assumptions C147_sps.

(** ** C147: packets, the demuxer in any state, the recorder *)
Theorem C147_packet : forall s p, bytes_ok (pk_data p) ->
  returns (avcc_packet_to_annexb s p) /\ returns (annexb_packet_to_avcc p) /\ returns (is_key_frame (pk_codec p) (pk_data p)).
Proof. intros s p B. repeat split; apply returns_ends; auto using ends_to_avcc, ends_is_key with ends. Qed.
Print Assumptions C147_packet.

Theorem C147_demuxer : (forall o d a, returns (step o d a)) /\ (forall d l, returns (run d l)).
Proof. split; intros; apply returns_ends; [apply ends_step|apply ends_run]. Qed.
Print Assumptions C147_demuxer.

Theorem C147_recorder : forall path h l, Forall (fun e => match e with EvPacket p => bytes_ok (pk_data p) | _ => True end) l -> returns (fh_session path h l).
Proof. intros path h l F. apply returns_ends, ends_fh_session, F. Qed.
Print Assumptions C147_recorder.

(** Sizes that point nowhere, counts without contents, a code of zeros only; ParseNalUnits is the one function that stays in its loop (C75). *)
Example C147_example :
  avcc2annexb (zeros 64) [0; 0; 0; 1; 9; 0; 0; 0; 0; 0; 0; 0; 0] [] = Ok ([0; 0; 0; 1; 9] ++ zeros 59, 5) /\
  hevc_mp4_to_annexb (zeros 64) [255; 255; 255; 255; 255; 255; 255; 255; 2; 1] [] 8 = Err /\
  m4vc_extra_to_annexb [1; 100; 0; 30; 255; 255; 0; 0; 0; 0; 0; 0] = Err /\
  snd (g_read_ue (golomb_new (repeat 0 40))) = Ok (2 ^ 32 - 1) /\
  (forall n, parse_nal_units n [0; 0; 1; 9; 9] = NoFuel).
Proof.
  repeat split; try (vm_compute; reflexivity). induction n as [|n IH]; [reflexivity|]. cbn [parse_nal_units].
  change (find_start_code [0; 0; 1; 9; 9]) with (Ok (3, 3)). cbn [bind]. exact IH.
Qed.

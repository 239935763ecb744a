(** * LoggerProofs: what the logger prints, and that it can be read back. *)
From Coq Require Import String Ascii Decimal DecimalString.
From Verif Require UtilModel.
From Verif Require Import Base RingProofs PropertiesUtil AacModel UtilModel PacketModel DemuxModel DemuxProofs HandlerProofs LoggerModel.
From Coq Require Import List.
Import ListNotations.
Local Open Scope list_scope.

(** ** Lines *)
Definition media_name (m : Z) : string := match media_string m with Ok n => n | _ => EmptyString end.
Definition track_line (s : stream) : string :=
  ("tack type: " ++ media_name (st_media s) ++ " codec: " ++ codec_string (st_codec s) ++ " index: " ++ itoa (st_index s) ++
   (if (AVMediaTypeAudio =? st_media s)%Z then " sample_rate: " ++ itoa (ac_sample_rate (st_audio s)) ++ " channels: " ++ itoa (ac_channels (st_audio s)) ++ crlf else crlf))%string.
Definition packet_line (p : packet) : string :=
  ("packet type: " ++ media_name (pk_media p) ++ " dts: " ++ itoa (pk_dts p) ++ " pts: " ++ itoa (pk_pts p) ++ crlf)%string.
Definition complete_line : string := ("track complete" ++ crlf)%string.
Definition joined (l : list string) : string := fold_right String.append EmptyString l.

Lemma sapp_assoc a : forall b c, ((a ++ b) ++ c = a ++ (b ++ c))%string.
Proof. induction a as [|x a IH]; intros b c; cbn; [reflexivity|]. now rewrite IH. Qed.
Lemma sapp_nil a : (a ++ "" = a)%string.
Proof. induction a as [|x a IH]; cbn; [reflexivity|]. now rewrite IH. Qed.
Lemma joined_app a b : joined (a ++ b) = (joined a ++ joined b)%string.
Proof. induction a as [|x a IH]; cbn [app joined fold_right]; [reflexivity|]. unfold joined in IH. rewrite IH. now rewrite sapp_assoc. Qed.
Definition named (m : Z) : Prop := exists n, media_string m = Ok n.

Lemma new_track_line g s : named (st_media s) -> lg_new_track g s = Ok (mkLog (lg_tracks g ++ [s]) (lg_out g ++ track_line s)%string (lg_err g)).
Proof. intros [n E]. unfold lg_new_track, track_line, media_name. rewrite E. cbn [bind]. destruct (_ =? _); reflexivity. Qed.
Lemma packet_prints g p : named (pk_media p) -> lg_packet g p = Ok (mkLog (lg_tracks g) (lg_out g ++ packet_line p)%string (lg_err g)).
Proof. intros [n E]. unfold lg_packet, packet_line, media_name. rewrite E. reflexivity. Qed.
Lemma packet_fails g p : ~ named (pk_media p) -> lg_packet g p = Panic.
Proof. intros N. unfold lg_packet. destruct (media_string (pk_media p)) as [n| | |] eqn:E; cbn [bind]; [exfalso; apply N; eexists; exact E| |reflexivity|]; unfold media_string in E; repeat (destruct (_ =? _) in E; [discriminate E|]); discriminate E. Qed.

(** ** Sessions *)
Lemma lg_session_app a b : forall g, lg_session g (a ++ b) = (g1 <- lg_session g a;; lg_session g1 b).
Proof. induction a as [|e t IH]; intros g; cbn [app lg_session bind]; [reflexivity|]. destruct (lg_event g e); cbn [bind]; [apply IH|reflexivity..]. Qed.
Lemma lg_session_handler l : forall g, lg_session g l = lg_session g (handler_events l).
Proof.
  induction l as [|e t IH]; intros g; [reflexivity|]. unfold handler_events in *. destruct e; cbn [filter is_handler lg_session lg_event bind]; auto.
  - destruct (lg_new_track g s); cbn [bind]; auto.
  - destruct (lg_packet g p); cbn [bind]; auto.
Qed.
Lemma lg_tracks_lines ts : forall g, Forall (fun s => named (st_media s)) ts ->
  lg_session g (map EvNewTrack ts) = Ok (mkLog (lg_tracks g ++ ts) (lg_out g ++ joined (map track_line ts))%string (lg_err g)).
Proof.
  induction ts as [|s t IH]; intros g F; cbn [map lg_session lg_event joined fold_right].
  - rewrite app_nil_r, sapp_nil. now destruct g.
  - apply Forall_cons_iff in F as [Fs F]. rewrite new_track_line by exact Fs. cbn [bind]. rewrite IH by exact F. cbn [lg_tracks lg_out lg_err]. rewrite <- app_assoc, sapp_assoc. reflexivity.
Qed.
Lemma lg_packets_lines ps : forall g, Forall (fun p => named (pk_media p)) ps ->
  lg_session g (map EvPacket ps) = Ok (mkLog (lg_tracks g) (lg_out g ++ joined (map packet_line ps))%string (lg_err g)).
Proof.
  induction ps as [|p t IH]; intros g F; cbn [map lg_session lg_event joined fold_right].
  - rewrite sapp_nil. now destruct g.
  - apply Forall_cons_iff in F as [Fs F]. rewrite packet_prints by exact Fs. cbn [bind]. rewrite IH by exact F. cbn [lg_tracks lg_out lg_err]. rewrite sapp_assoc. reflexivity.
Qed.
Lemma lg_packets_iff ps : forall g, (exists g', lg_session g (map EvPacket ps) = Ok g') <-> Forall (fun p => named (pk_media p)) ps.
Proof.
  intros g. split; [|intros F; rewrite (lg_packets_lines _ _ F); eauto]. revert g. induction ps as [|p t IH]; intros g [g' E]; constructor; cbn [map lg_session lg_event] in E; destruct (lg_packet g p) as [g1| | |] eqn:Ep; cbn [bind] in E; try discriminate E.
  - unfold lg_packet in Ep. destruct (media_string (pk_media p)) as [n| | |] eqn:M; try discriminate Ep. now exists n.
  - eapply IH. eauto.
Qed.

(** ** Reading it back *)
Fixpoint free (c : ascii) (s : string) : Prop := match s with EmptyString => True | String x t => x <> c /\ free c t end.
Lemma free_split c a : forall b x y, free c a -> free c b -> (a ++ String c x = b ++ String c y)%string -> a = b /\ x = y.
Proof.
  induction a as [|u a IH]; intros [|v b] x y Da Db E; cbn in *.
  - now injection E.
  - destruct Db as [Db _]. injection E as E _. congruence.
  - destruct Da as [Da _]. injection E as E _. congruence.
  - injection E as -> E. destruct (IH b x y) as [-> ->]; tauto.
Qed.
Definition plain_char (c : ascii) : Prop := c = " "%char \/ c = "013"%char.
Lemma free_uint c d : plain_char c -> free c (NilEmpty.string_of_uint d).
Proof. intros [->| ->]; induction d; cbn; auto; split; auto; discriminate. Qed.
Lemma free_itoa c z : plain_char c -> free c (itoa z).
Proof.
  intros P. unfold itoa, NilZero.string_of_int. assert (H : forall d, free c (NilZero.string_of_uint d)).
  { intros d. unfold NilZero.string_of_uint. destruct d; try (apply free_uint, P). destruct P as [->| ->]; cbn; split; auto; discriminate. }
  destruct (Z.to_int z) as [d|d]; cbn [free]; [apply H|]. split; [destruct P as [->| ->]; discriminate|apply H].
Qed.
Lemma free_media m : free " " (media_name m).
Proof. unfold media_name, media_string. repeat (destruct (_ =? _); [cbn; repeat split; discriminate|]). exact Logic.I. Qed.
Lemma free_codec a : free " " (codec_string a).
Proof. unfold codec_string. repeat (destruct (_ =? _); [cbn; repeat split; discriminate|]). apply free_itoa. now left. Qed.
Lemma media_name_inj a b : named a -> named b -> media_name a = media_name b -> a = b.
Proof. intros [n Ea] [m Eb]. unfold media_name. rewrite Ea, Eb. intros <-. eapply media_inj; eassumption. Qed.
Lemma itoa_back a b : itoa a = itoa b -> a = b.
Proof. apply itoa_inj. Qed.

(** What a line says. *)
Definition track_facts (s : stream) : Z * Z * Z * option (Z * Z) :=
  (st_media s, st_codec s, st_index s, if AVMediaTypeAudio =? st_media s then Some (ac_sample_rate (st_audio s), ac_channels (st_audio s)) else None).
Definition packet_facts (p : packet) : Z * Z * Z := (pk_media p, pk_dts p, pk_pts p).

Lemma crlf_split a b x y : free "013" a -> free "013" b -> (a ++ crlf ++ x = b ++ crlf ++ y)%string -> a = b /\ x = y.
Proof. intros Fa Fb E. apply free_split in E as [E1 E2]; auto. cbn in E2. injection E2 as E2. auto. Qed.
Lemma packet_line_back p q x y : named (pk_media p) -> named (pk_media q) -> (packet_line p ++ x = packet_line q ++ y)%string -> packet_facts p = packet_facts q /\ x = y.
Proof.
  intros Np Nq E. unfold packet_line in E. rewrite !sapp_assoc in E. apply string_app_inv_l in E.
  apply (free_split " ") in E as [E1 E]; try apply free_media. apply (string_app_inv_l "dts: ") in E.
  apply (free_split " ") in E as [E2 E]; try (apply free_itoa; now left). apply (string_app_inv_l "pts: ") in E.
  apply crlf_split in E as [E3 E]; try (apply free_itoa; now right). apply media_name_inj in E1; auto. apply itoa_back in E2, E3. unfold packet_facts. split; congruence.
Qed.
Lemma track_line_back s t x y : named (st_media s) -> named (st_media t) -> (track_line s ++ x = track_line t ++ y)%string -> track_facts s = track_facts t /\ x = y.
Proof.
  intros Np Nq E. unfold track_line in E. rewrite !sapp_assoc in E. apply string_app_inv_l in E.
  apply (free_split " ") in E as [E1 E]; try apply free_media. apply (string_app_inv_l "codec: ") in E.
  apply (free_split " ") in E as [E2 E]; try apply free_codec. apply (string_app_inv_l "index: ") in E.
  apply media_name_inj in E1; auto. apply (proj1 C74_names_unambiguous) in E2. unfold track_facts. rewrite <- E1, <- E2 in *. destruct (AVMediaTypeAudio =? st_media s).
  - rewrite !sapp_assoc in E. apply (free_split " ") in E as [E3 E]; try (apply free_itoa; now left). apply (string_app_inv_l "sample_rate: ") in E.
    apply (free_split " ") in E as [E4 E]; try (apply free_itoa; now left). apply (string_app_inv_l "channels: ") in E.
    apply crlf_split in E as [E5 E]; try (apply free_itoa; now right). apply itoa_back in E3, E4, E5. split; congruence.
  - apply crlf_split in E as [E3 E]; try (apply free_itoa; now right). apply itoa_back in E3. split; congruence.
Qed.
Lemma packets_back ps : forall qs, Forall (fun p => named (pk_media p)) ps -> Forall (fun p => named (pk_media p)) qs -> joined (map packet_line ps) = joined (map packet_line qs) -> map packet_facts ps = map packet_facts qs.
Proof.
  induction ps as [|p ps IH]; intros [|q qs] Fp Fq E; [reflexivity|discriminate E..|]. apply Forall_cons_iff in Fp as [Np Fp], Fq as [Nq Fq].
  cbn [map joined fold_right] in E. apply packet_line_back in E as [E1 E]; auto. cbn [map]. f_equal; [exact E1|]. now apply IH.
Qed.
Lemma tracks_back ss : forall ts x y, Forall (fun p => named (st_media p)) ss -> Forall (fun p => named (st_media p)) ts ->
  (joined (map track_line ss) ++ complete_line ++ x = joined (map track_line ts) ++ complete_line ++ y)%string -> map track_facts ss = map track_facts ts /\ x = y.
Proof.
  induction ss as [|s ss IH]; intros [|t ts] x y Fs Ft E.
  - cbn [map joined fold_right] in E. apply string_app_inv_l in E. apply string_app_inv_l in E. auto.
  - discriminate E.
  - discriminate E.
  - apply Forall_cons_iff in Fs as [Ns Fs], Ft as [Nt Ft]. cbn [map joined fold_right] in E. rewrite !sapp_assoc in E. apply track_line_back in E as [E1 E]; auto. apply IH in E as [E2 E]; auto. cbn [map]. split; congruence.
Qed.

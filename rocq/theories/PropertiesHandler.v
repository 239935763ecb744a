(** * PropertiesHandler: C76, C87, C88, the file handler. *)
From Coq Require Import String.
From Verif Require Import Base AacModel UtilModel NaluSpec PacketModel PacketProofs PropertiesPacket DemuxModel DemuxProofs PropertiesDemux HandlerModel HandlerSpec HandlerProofs.
From Coq Require Import List.
Import ListNotations.
Local Open Scope list_scope.

Definition empty_disk : disk := fun _ => [].
Definition audio_x (i : Z) : stream := new_av_stream AVMediaTypeAudio i AVCodecIdAAC None None.

(* ---------------------------------------------------------------------------------------- *)
(** ** C76: access units. *)
(** The parameter sets of an AVCC key packet are written twice: AVCCPacket2AnnexB has already put them in front. *)
Theorem C76_file_handler_refuted : exists s p c h0 h n, st_params s = Some c /\ pk_key p = true /\ pk_type p = PacketTypeAVCC /\
  fh_open "x" (fh_start empty_disk) [s] = Ok h0 /\ fh_run h0 [p] = Ok h /\ file_name "x" s = Ok n /\
  fh_disk h n = cd_annexb c ++ cd_annexb c ++ [0; 0; 0; 1; 101; 5].
Proof.
  exists (stream_x (Some cd_x)), (avcc_pkt true (avcc [[101; 5]])), cd_x. do 3 eexists. split; [reflexivity|]. split; [reflexivity|]. split; [reflexivity|].
  split; [vm_compute; reflexivity|]. split; [vm_compute; reflexivity|]. split; [vm_compute; reflexivity|]. vm_compute. reflexivity.
Qed.

(** Every history: each packet goes to the file of its track, in order; [writes_of] says what is written for one packet. *)
Theorem C76_file_handler_partial : forall path k ts ps h0 h, NoDup (map st_index ts) -> fh_open path (fh_start k) ts = Ok h0 -> fh_run h0 ps = Ok h ->
  exists ws, Forall2 (writes_of ts) ps ws /\
  forall j s n, nth_error ts j = Some s -> file_name path s = Ok n -> fh_disk h n = written ps ws j ++ skipn (length (written ps ws j)) (k n).
Proof.
  intros path k ts ps h0 h N O R. pose proof (fh_open_ok _ _ _ _ N O) as K. apply fh_run_spec in R as (ws & F & A); [|exact K]. apply fh_open_spec in O as (ns & Fn & T0 & Fs & D).
  cbn [fh_start fh_tracks fh_files fh_disk app] in *. rewrite T0 in F. exists ws. split; [exact F|]. destruct A as (_ & _ & A & _). rewrite D in A.
  intros j s n J E. destruct (Forall2_nth_l _ _ _ Fn _ _ J) as (n' & J' & E'). rewrite E in E'. injection E' as <-.
  destruct (A j n 0) as [_ A1]; [rewrite Fs; now rewrite (map_nth_error _ _ _ J')|]. rewrite A1. unfold overwrite. cbn [Z.to_nat firstn app]. rewrite Z.add_0_l. unfold zlen. now rewrite Nat2Z.id.
Qed.
(** One access unit, unless it is an AVCC key packet of a stream with parameters: those have the parameter sets before. *)
Theorem C76_one_unit : forall tracks p w, writes_of tracks p w ->
  (pk_media p <> AVMediaTypeVideo -> w = [pk_data p]) /\
  (pk_media p = AVMediaTypeVideo -> exists s p1 d, idx tracks (pk_index p) = Some s /\ avcc_packet_to_annexb s p = Ok (p1, d) /\
     (pk_key p && (PacketTypeAVCC =? pk_type p) = false \/ st_params s = None -> w = [d]) /\
     (pk_key p && (PacketTypeAVCC =? pk_type p) = true -> forall c, st_params s = Some c -> w = [cd_annexb c; d])).
Proof.
  intros tracks p w (d & A & ->). unfold access_unit in A. split.
  - intros M. replace (AVMediaTypeVideo =? pk_media p) with false in * by lia. cbn [andb]. now rewrite A.
  - intros M. replace (AVMediaTypeVideo =? pk_media p) with true in * by lia. destruct A as (s & p1 & Es & Ed). exists s, p1, d. split; [exact Es|]. split; [exact Ed|]. cbn [andb]. rewrite Es. split.
    + intros [H|H]; [now rewrite H|]. destruct (pk_key p && _); [now rewrite H|reflexivity].
    + intros K c Ec. now rewrite K, Ec.
Qed.
Example C76_example : exists h0 h, fh_open "out" (fh_start empty_disk) [stream_x (Some cd_x); audio_x 1] = Ok h0 /\
  fh_run h0 [avcc_pkt false (avcc [[97; 5]]); init_audio pkt_zero [7; 8] 0 AVCodecIdAAC 1 1000; avcc_pkt false (avcc [[97; 6]; [97; 7]])] = Ok h /\
  fh_disk h "out.video.0.H264"%string = [0;0;0;1;97;5; 0;0;0;1;97;6;0;0;1;97;7] /\ fh_disk h "out.audio.1.AAC"%string = [7; 8].
Proof. do 2 eexists. split; [vm_compute; reflexivity|]. split; [vm_compute; reflexivity|]. split; vm_compute; reflexivity. Qed.
Print Assumptions C76_file_handler_refuted.
Print Assumptions C76_file_handler_partial.
Print Assumptions C76_one_unit.

(* ---------------------------------------------------------------------------------------- *)
(** ** C87: file names. *)
Theorem C87_file_names : forall path,
  (forall s t n, file_name path s = Ok n -> file_name path t = Ok n -> st_media s = st_media t /\ st_index s = st_index t /\ st_codec s = st_codec t) /\
  (forall name h d evs, run (dm_new name) h = Ok (d, evs) -> exists ns, Forall2 (fun s n => file_name path s = Ok n) (dm_tracks d) ns /\ NoDup ns).
Proof.
  intros path. split; [apply file_name_inj|]. intros name h d evs R. pose proof (run_wf _ _ _ _ (wf_new name) R) as W. pose proof (reach_av _ _ _ _ R) as A.
  assert (E : exists ns, Forall2 (fun s n => file_name path s = Ok n) (dm_tracks d) ns).
  { induction A as [|s t M _ (ns & IH)]; [exists []; constructor|]. destruct (av_media _ M) as [m Em].
    eexists (_ :: ns). constructor; [|exact IH]. unfold file_name. rewrite Em. reflexivity. }
  destruct E as [ns E]. exists ns. split; [exact E|]. eapply names_nodup; eauto. now apply wf_indices.
Qed.
Print Assumptions C87_file_names.
Example C87_example : file_name "a.b" (audio_x 12) = Ok "a.b.audio.12.AAC"%string /\ file_name "a" (new_av_stream 9 0 27 None None) = Panic.
Proof. split; vm_compute; reflexivity. Qed.

(* ---------------------------------------------------------------------------------------- *)
(** ** C88: a demuxer writing to files. *)
(** A file left over from an earlier session is not truncated, so its tail stays behind the new data. *)
Definition old_disk : disk := fun n => if (n =? "f.audio.0.PCMA")%string then [90; 91; 92; 93; 94] else [].
Theorem C88_session_refuted : exists path k name h d evs f s n, Forall well_behaved h /\ run (dm_new name) h = Ok (d, evs) /\ fh_session path (fh_start k) evs = Ok f /\
  dm_tracks d = [s] /\ file_name path s = Ok n /\ map pk_data (delivered evs) = [[1]; [3]] /\ fh_disk f n = [1; 3; 92; 93; 94].
Proof.
  exists "f"%string, old_disk, "ps"%string, (calls [OpSetHandler; OpAudio 0 G711A [1] 0; OpAudio 0 G711A [3] 18000; OpAudio 0 G711A [5] 27000]). do 5 eexists.
  split; [apply Forall_map, Forall_forall; intros a I; split; [exact o0_ok|]; repeat (destruct I as [<-|I]; [exact Logic.I|]); destruct I|].
  split; [vm_compute; reflexivity|]. split; [vm_compute; reflexivity|]. split; [reflexivity|]. split; [vm_compute; reflexivity|]. split; vm_compute; reflexivity.
Qed.
Print Assumptions C88_session_refuted.

(** The file of a track starts with the writes of the packets delivered for it, in order, followed by what the old file had beyond that; no other file changes. *)
Theorem C88_session_partial : forall path k name h d evs f, run (dm_new name) h = Ok (d, evs) -> fh_session path (fh_start k) evs = Ok f ->
  exists ws, Forall2 (writes_of (dm_tracks d)) (delivered evs) ws /\
  (dm_completed d = true -> forall j s n, nth_error (dm_tracks d) j = Some s -> file_name path s = Ok n ->
     fh_disk f n = written (delivered evs) ws j ++ skipn (length (written (delivered evs) ws j)) (k n)) /\
  (forall n, dm_completed d = false \/ (forall s, In s (dm_tracks d) -> file_name path s <> Ok n) -> fh_disk f n = k n).
Proof. exact session_spec. Qed.
(** New files hold the writes and nothing else. *)
Theorem C88_new_files : forall path name h d evs f, run (dm_new name) h = Ok (d, evs) -> fh_session path (fh_start empty_disk) evs = Ok f ->
  exists ws, Forall2 (writes_of (dm_tracks d)) (delivered evs) ws /\
  (dm_completed d = true -> forall j s n, nth_error (dm_tracks d) j = Some s -> file_name path s = Ok n -> fh_disk f n = written (delivered evs) ws j).
Proof.
  intros path name h d evs f R S. destruct (session_spec _ _ _ _ _ _ _ R S) as (ws & F & A & _). exists ws. split; [exact F|]. intros C j s n J E. rewrite (A C j s n J E). unfold empty_disk.
  rewrite skipn_nil. apply app_nil_r.
Qed.
(** The handler fails only on a packet that cannot be converted, or whose media type a hook has destroyed: files and tracks are always there. *)
Theorem C88_fails_only_on_data : forall path k name h d evs, Forall well_behaved h -> run (dm_new name) h = Ok (d, evs) ->
  (exists f, fh_session path (fh_start k) evs = Ok f) <->
  Forall (fun p => (exists m, media_string (pk_media p) = Ok m) /\ exists w, writes_of (dm_tracks d) p w) (delivered evs).
Proof. exact session_total. Qed.
Print Assumptions C88_session_partial.
Print Assumptions C88_new_files.
Print Assumptions C88_fails_only_on_data.
Example C88_example : exists d evs f, run (dm_new "ts") (calls hist1) = Ok (d, evs) /\ fh_session "t" (fh_start empty_disk) evs = Ok f /\
  fh_disk f "t.audio.0.PCMA"%string = [1; 3] /\ fh_disk f "t.audio.1.PCMA"%string = [2; 4] /\ fh_disk f "t.audio.2.PCMA"%string = [].
Proof. do 3 eexists. split; [vm_compute; reflexivity|]. split; [vm_compute; reflexivity|]. repeat split; vm_compute; reflexivity. Qed.

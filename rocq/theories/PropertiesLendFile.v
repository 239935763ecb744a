(** * PropertiesLendFile: C150, what a recording over a DirectDataPipeline holds. *)
From Verif Require Import Base BlockModel PacketModel DemuxModel DemuxProofs DeliverySpec HandlerModel HandlerSpec HandlerProofs SystemSpec PipeModel PipeSpec BorrowSpec BorrowProofs PropertiesDemux PropertiesDelivery
  PropertiesHandler PropertiesSystem RecordingModel LendFileModel LendFileProofs.
From Coq Require Import String List.
Import ListNotations.
Local Open Scope list_scope.

(* ---------------------------------------------------------------------------------------- *)
(** ** C150 A recording over a DirectDataPipeline has the right length and the wrong bytes *)
(** [record_lent] runs the demuxer on a DirectDataPipeline with the file handler attached. [lend_run] is the same run with a handler that
    only notes what it sees (C138): the packets and the bytes that their slices show. The recording is what the file handler makes of
    packets that hold those bytes, for every path and whatever is on the disk: the same files, or the same failure. *)
Theorem C150_recorded : forall path k name l d evs, Forall well_behaved (map fst l) -> Forall plain_hook (map fst l) -> Forall honest l -> run (dm_new name) (map fst l) = Ok (d, evs) ->
  exists y0 y out, lend_new name = Ok y0 /\ lend_run y0 l = Ok (y, out) /\ ln_dm y = d /\ map fst out = delivered evs /\
    record_lent path k name l = (f <- fh_session path (fh_start k) (seen_events evs out);; Ok (y, f)) /\
    delivered (seen_events evs out) = map (fun x => with_data (fst x) (snd x)) out.
Proof.
  intros path k name l d evs F P Hn R. destruct (lendfile_reach path (fh_start k) name l d evs F P Hn R) as (y0 & y & out & N & E & L & O & G). exists y0, y, out. repeat (split; [assumption || apply L|]).
  split; [unfold record_lent; rewrite N; exact G|exact (seen_delivered _ _ O)].
Qed.
Print Assumptions C150_recorded.

(** It does not fail on audio: whatever the bytes have become, they are written. *)
Theorem C150_audio_succeeds : forall path k name l d evs, Forall well_behaved (map fst l) -> Forall plain_hook (map fst l) -> Forall honest l -> run (dm_new name) (map fst l) = Ok (d, evs) ->
  Forall (fun p => pk_media p = AVMediaTypeAudio) (delivered evs) -> exists y f, record_lent path k name l = Ok (y, f).
Proof.
  intros path k name l d evs F P Hn R M. destruct (C150_recorded path k name l d evs F P Hn R) as (y0 & y & out & _ & _ & _ & O & E & _).
  destruct (session_runs path k name _ d evs out F R O M) as [f S]. rewrite S in E. eauto.
Qed.
Print Assumptions C150_audio_succeeds.

(** The file of a track that is not video: the bytes shown for its packets, one after the other, and behind them what the file held
    before. It is as long as the file with the right bytes. Other files stay as they are. *)
Theorem C150_file : forall path k name l d evs y f, Forall well_behaved (map fst l) -> Forall plain_hook (map fst l) -> Forall honest l -> run (dm_new name) (map fst l) = Ok (d, evs) ->
  record_lent path k name l = Ok (y, f) ->
  exists y0 out, lend_new name = Ok y0 /\ lend_run y0 l = Ok (y, out) /\ map fst out = delivered evs /\
    (dm_completed d = true -> forall j s n, nth_error (dm_tracks d) j = Some s -> file_name path s = Ok n -> Forall (fun p => pk_media p <> AVMediaTypeVideo) (of_index (Z.of_nat j) (delivered evs)) ->
      let c := concat (map snd (filter (fun x => pk_index (fst x) =? Z.of_nat j) out)) in fh_disk f n = c ++ skipn (length c) (k n)) /\
    (forall n, dm_completed d = false \/ (forall s, In s (dm_tracks d) -> file_name path s <> Ok n) -> fh_disk f n = k n).
Proof. exact lendfile_content. Qed.
Print Assumptions C150_file.
Theorem C150_length : forall path k name l d evs y f, Forall well_behaved (map fst l) -> Forall plain_hook (map fst l) -> Forall honest l -> run (dm_new name) (map fst l) = Ok (d, evs) ->
  record_lent path k name l = Ok (y, f) -> dm_completed d = true -> forall j s n, nth_error (dm_tracks d) j = Some s -> file_name path s = Ok n -> k n = [] ->
  Forall (fun p => pk_media p <> AVMediaTypeVideo) (of_index (Z.of_nat j) (delivered evs)) ->
  zlen (fh_disk f n) = zlen (concat (map pk_data (of_index (Z.of_nat j) (delivered evs)))).
Proof.
  intros path k name l d evs y f F P Hn R E C j s n J Fn Kn M. destruct (lendfile_content path k name l d evs y f F P Hn R E) as (y0 & out & N & L & O & A & _). specialize (A C j s n J Fn M). cbv zeta in A.
  rewrite A, Kn, skipn_nil, app_nil_r. rewrite <- O, <- of_track_fst. pose proof (lend_sizes name l d evs y0 y out F P Hn R N L) as Sz. apply same_sizes. apply Forall_forall. intros x Ix. apply filter_In in Ix as [Ix _]. rewrite Forall_forall in Sz. now apply Sz.
Qed.
Print Assumptions C150_length.

(** Blocks of one size, each written in one piece, and a new file. A call appends its own block (or the newest, if it writes none), once
    for every packet of the track that it delivers: never the data of those packets, unless it happens to be equal. *)
Theorem C150_same_size : forall path k name l c d evs d' e n y f y' f', Forall well_behaved (map fst (l ++ [c])) -> Forall plain_hook (map fst (l ++ [c])) -> Forall honest (l ++ [c]) ->
  run (dm_new name) (map fst l) = Ok (d, evs) -> step (fst (fst c)) d (snd (fst c)) = Ok (d', e) -> Forall (fun b => exists x, b = [x] /\ zlen x = n) (blocks (l ++ [c])) ->
  record_lent path k name l = Ok (y, f) -> record_lent path k name (l ++ [c]) = Ok (y', f') ->
  dm_completed d' = true -> forall j s nm, nth_error (dm_tracks d') j = Some s -> file_name path s = Ok nm -> k nm = [] ->
  Forall (fun p => pk_media p <> AVMediaTypeVideo) (of_index (Z.of_nat j) (delivered (evs ++ e))) ->
  fh_disk f' nm = fh_disk f nm ++ concat (repeat (last (map (@concat Z) (blocks (l ++ [c]))) []) (length (of_index (Z.of_nat j) (delivered e)))).
Proof. exact lendfile_grows. Qed.
Print Assumptions C150_same_size.

(** Four blocks of one stream. The file should hold 1 to 9, the data of the packets delivered; it holds 4 to 12. *)
Definition C150_calls : list call :=
  [((o0, OpSetHandler), []); ((o0, OpAudio 0 G711A [1; 2; 3] 0), [[1; 2; 3]]); ((o0, OpAudio 0 G711A [4; 5; 6] 9000), [[4; 5; 6]]); ((o0, OpProbeComplete), []);
   ((o0, OpAudio 0 G711A [7; 8; 9] 18000), [[7; 8; 9]]); ((o0, OpAudio 0 G711A [10; 11; 12] 27000), [[10; 11; 12]])].
Example C150_example :
  ('(y, f) <- record_lent "t" empty_disk "ps" C150_calls;; Ok (fh_disk f "t.audio.0.PCMA"%string, dm_completed (ln_dm y))) = Ok ([4; 5; 6; 7; 8; 9; 10; 11; 12], true) /\
  ('(d, evs) <- run (dm_new "ps") (map fst C150_calls);; f <- fh_session "t" (fh_start empty_disk) evs;; Ok (fh_disk f "t.audio.0.PCMA"%string, map pk_data (delivered evs))) =
    Ok ([1; 2; 3; 4; 5; 6; 7; 8; 9], [[1; 2; 3]; [4; 5; 6]; [7; 8; 9]]) /\
  Forall honest C150_calls.
Proof. split; [vm_compute; reflexivity|]. split; [vm_compute; reflexivity|]. repeat (apply Forall_cons; [first [exact Logic.I|reflexivity]|]); apply Forall_nil. Qed.
(** So the claim that a recording holds the data of the packets delivered is false over a DirectDataPipeline. *)
Theorem C150_differs : exists path name l d evs y f n, Forall well_behaved (map fst l) /\ Forall plain_hook (map fst l) /\ Forall honest l /\ run (dm_new name) (map fst l) = Ok (d, evs) /\
  record_lent path empty_disk name l = Ok (y, f) /\ map (file_name path) (dm_tracks d) = [Ok n] /\ fh_disk f n <> concat (map pk_data (delivered evs)).
Proof.
  destruct (run (dm_new "ps") (map fst C150_calls)) as [[d evs]| | |] eqn:R; try (exfalso; clear - R; vm_compute in R; discriminate R).
  destruct (record_lent "t" empty_disk "ps" C150_calls) as [[y f]| | |] eqn:E; try (exfalso; clear - E; vm_compute in E; discriminate E).
  exists "t"%string, "ps"%string, C150_calls, d, evs, y, f, "t.audio.0.PCMA"%string. split; [|split; [|split; [|split; [exact R|split; [exact E|]]]]].
  - unfold C150_calls. cbn [map fst]. repeat (apply Forall_cons; [split; [exact o0_ok|exact Logic.I]|]). apply Forall_nil.
  - unfold C150_calls. cbn [map fst]. repeat (apply Forall_cons; [exact Logic.I|]). apply Forall_nil.
  - apply C150_example.
  - assert (T : ('(d, evs) <- run (dm_new "ps") (map fst C150_calls);; Ok (map (file_name "t") (dm_tracks d), concat (map pk_data (delivered evs)))) = Ok ([Ok "t.audio.0.PCMA"%string], [1; 2; 3; 4; 5; 6; 7; 8; 9])) by (vm_compute; reflexivity).
    rewrite R in T. cbn [bind] in T. injection T as T1 T2. split; [exact T1|]. rewrite T2. pose proof (proj1 C150_example) as X. rewrite E in X. cbn [bind] in X. injection X as X _. rewrite X. discriminate.
Qed.
Print Assumptions C150_differs.

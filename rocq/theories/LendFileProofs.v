(** * LendFileProofs: the files hold what the handler is shown. *)
From Coq Require Import String List Permutation.
From Verif Require Import Base CollectionsSpec BlockModel BlockSpec PacketModel DemuxModel DemuxProofs DeliverySpec DeliveryProofs HandlerModel HandlerSpec HandlerProofs
  SystemSpec PipeModel PipeSpec PipeProofs BorrowSpec BorrowProofs RecordingModel RecordingProofs LendFileModel.
Import ListNotations.
Local Open Scope list_scope.

(** The events with the bytes that are shown in place of the data of the packets delivered. *)
Fixpoint seen_events (l : list event) (out : list (packet * list Z)) : list event :=
  match l with
  | [] => []
  | EvPacket q :: t => match out with x :: o => EvPacket (with_data q (snd x)) :: seen_events t o | [] => EvPacket q :: seen_events t [] end
  | e :: t => e :: seen_events t out
  end.
Lemma seen_events_app a : forall b o1 o2, length o1 = length (delivered a) -> seen_events (a ++ b) (o1 ++ o2) = seen_events a o1 ++ seen_events b o2.
Proof.
  induction a as [|e t IH]; intros b o1 o2 H.
  - destruct o1; [reflexivity|discriminate H].
  - destruct e; try (cbn [app seen_events]; f_equal; apply IH; exact H).
    change (delivered (EvPacket p :: t)) with (p :: delivered t) in H. destruct o1 as [|x o1]; [discriminate H|]. cbn [app seen_events]. f_equal. apply IH. cbn in H. congruence.
Qed.
Definition shown_packet (x : packet * list Z) : packet := with_data (fst x) (snd x).
Lemma seen_delivered l : forall out, map fst out = delivered l -> delivered (seen_events l out) = map shown_packet out.
Proof.
  induction l as [|e t IH]; intros out H.
  - destruct out; [reflexivity|discriminate H].
  - destruct e; try (exact (IH out H)). change (delivered (EvPacket p :: t)) with (p :: delivered t) in H. destruct out as [|x out]; [discriminate H|]. cbn [map] in H. injection H as Hx H.
    cbn [seen_events]. change (with_data p (snd x) :: delivered (seen_events t out) = map shown_packet (x :: out)). cbn [map]. unfold shown_packet at 1. rewrite Hx. f_equal. now apply IH.
Qed.
Lemma seen_handler l : forall out, handler_events (seen_events l out) = seen_events (handler_events l) out.
Proof.
  induction l as [|e t IH]; intros out; [reflexivity|]. unfold handler_events in *. destruct e; cbn [seen_events filter is_handler]; try (now rewrite IH).
  destruct out; cbn [filter is_handler]; now rewrite IH.
Qed.
Lemma seen_prefix a : forall b out, delivered a = [] -> seen_events (a ++ b) out = a ++ seen_events b out.
Proof. induction a as [|e t IH]; intros b out H; [reflexivity|]. destruct e; try (cbn [app seen_events]; f_equal; now apply IH). discriminate H. Qed.
Lemma seen_packets ps : forall out, exists ps', seen_events (map EvPacket ps) out = map EvPacket ps'.
Proof. induction ps as [|p t IH]; intros out; [now exists []|]. cbn [map seen_events]. destruct out as [|x o]; [destruct (IH []) as [ps' ->]; now exists (p :: ps')|]. destruct (IH o) as [ps' ->]. now exists (with_data p (snd x) :: ps'). Qed.
Lemma seen_order d evs out : call_order d evs -> call_order d (seen_events evs out).
Proof.
  unfold call_order. rewrite seen_handler. destruct (dm_completed d).
  - intros [[T ->]|[T [ps ->]]]; [left; auto|]. right. split; [exact T|]. rewrite app_assoc, seen_prefix by (now rewrite delivered_app, delivered_new_tracks). destruct (seen_packets ps out) as [ps' ->]. exists ps'. now rewrite <- app_assoc.
  - intros ->. reflexivity.
Qed.

(** One call. *)
Lemma lendfile_events_seen path cur h l : forall p k f p1 k1 out, lend_events cur h p k l = Ok (p1, k1, out) ->
  lendfile_events path cur h p k f l = (f1 <- fh_session path f (seen_events l out);; Ok (p1, k1, f1)).
Proof.
  induction l as [|e t IH]; intros p k f p1 k1 out E; cbn [lend_events lendfile_events seen_events] in *.
  - injection E as <- <- <-. reflexivity.
  - destruct e; cbn [fh_session fh_event bind] in *; try (eapply IH; eassumption).
    all: try (destruct (fh_new_track path f _) as [f1| | |]; cbn [bind]; [eapply IH; eassumption|reflexivity..]).
    all: try (destruct cur; cbn [of_opt bind] in *; [eapply IH; eassumption|discriminate]).
    destruct (take_held _ _ k) as [[sl k2]|]; cbn [of_opt bind] in *; [|discriminate].
    destruct (read h sl) as [b| | |]; cbn [bind] in *; try discriminate.
    destruct (lend_events cur h p k2 t) as [[[s2 k3] o2]| | |] eqn:E2; cbn [bind] in *; try discriminate. injection E as <- <- <-.
    cbn [snd fh_session fh_event]. destruct (fh_on_packet f (with_data p0 b)) as [[f1 p2]| | |]; cbn [bind]; [|reflexivity..]. eapply IH; eassumption.
Qed.
Lemma lendfile_step_seen path y f d o a chunks d' e y' out pa : PipeProofs.live (ln_heap y) (ln_pipe y) pa -> hp_size (ln_pipe y) = 0 -> honest ((o, a), chunks) -> ln_dm y = d -> step o d a = Ok (d', e) ->
  lend_step y ((o, a), chunks) = Ok (y', out) ->
  lendfile_step path y f ((o, a), chunks) = (f1 <- fh_session path f (seen_events e out);; Ok (y', f1)).
Proof.
  intros L Z0 Hn D S E. destruct (lend_ok _ _ _ o a chunks L Z0 Hn) as (h' & p' & a' & cur & Es & _). unfold lend_step, lendfile_step in *. rewrite Es in *. cbn [bind] in *.
  rewrite D, S in *. cbn [bind] in *. destruct (lend_events cur h' p' (ln_held y) e) as [[[p2 k2] o2]| | |] eqn:E2; cbn [bind] in *; try discriminate.
  injection E as <- <-. rewrite (lendfile_events_seen path _ _ _ _ _ f _ _ _ E2). destruct (fh_session path f (seen_events e o2)); reflexivity.
Qed.
Lemma lendfile_run_snoc path l c : forall y f, lendfile_run path y f (l ++ [c]) = ('(y1, f1) <- lendfile_run path y f l;; lendfile_step path y1 f1 c).
Proof.
  induction l as [|x t IH]; intros y f; cbn [app lendfile_run bind].
  - destruct (lendfile_step path y f c) as [[y1 f1]| | |]; reflexivity.
  - destruct (lendfile_step path y f x) as [[y1 f1]| | |]; cbn [bind]; [apply IH|reflexivity..].
Qed.
(** A session. *)
Lemma lendfile_reach path f0 name l : forall d evs, Forall well_behaved (map fst l) -> Forall plain_hook (map fst l) -> Forall honest l -> run (dm_new name) (map fst l) = Ok (d, evs) ->
  exists y0 y out, lend_new name = Ok y0 /\ lend_run y0 l = Ok (y, out) /\ lent name l y d /\ map fst out = delivered evs /\
    lendfile_run path y0 f0 l = (f <- fh_session path f0 (seen_events evs out);; Ok (y, f)).
Proof.
  induction l as [|c t IH] using rev_ind; intros d evs F P Hn R.
  - destruct (lend_reach name [] d evs F P Hn R) as (y0 & y & out & N & E & L & _ & O). cbn in R. injection R as <- <-. exists y0, y, out. repeat (split; [assumption|]). cbn in E. injection E as <- <-. reflexivity.
  - destruct (lend_reach name (t ++ [c]) d evs F P Hn R) as (y0 & y & out & N & E & L & _ & O). exists y0, y, out. repeat (split; [assumption|]).
    rewrite map_app in F, P, R. cbn [map] in F, P, R. apply Forall_app in F as [F _]. apply Forall_app in P as [P _]. apply Forall_app in Hn as [Hn Hc]. apply Forall_inv in Hc.
    rewrite run_app in R. destruct (run (dm_new name) (map fst t)) as [[d1 e1]| | |] eqn:R1; cbn [bind] in R; try discriminate R.
    destruct c as [[o x] chunks]. cbn [run fst] in R. destruct (step o d1 x) as [[d2 e2]| | |] eqn:S; cbn [bind] in R; try discriminate R. injection R as <- <-. rewrite app_nil_r in *.
    destruct (IH _ _ F P Hn eq_refl) as (z0 & z & o1 & N1 & E1 & L1 & O1 & G1). assert (z0 = y0) by congruence. subst z0.
    rewrite lend_run_snoc, E1 in E. cbn [bind] in E. destruct (lend_step z (o, x, chunks)) as [[y2 o2]| | |] eqn:S2; cbn [bind] in E; try discriminate E. injection E as <- <-.
    assert (Le : length o1 = length (delivered e1)) by (rewrite <- O1; now rewrite map_length).
    rewrite lendfile_run_snoc, G1, seen_events_app, fh_session_app by exact Le. destruct (fh_session path f0 (seen_events e1 o1)) as [f1| | |]; cbn [bind]; [|reflexivity..].
    destruct L1 as [D1 Z1 (a & La & _) _ _]. eapply lendfile_step_seen; eauto.
Qed.

(** The files after a session, for any events in the order of C52. *)
Lemma session_files path k d evs f : wf d -> call_order d evs -> fh_session path (fh_start k) evs = Ok f ->
  exists ws, Forall2 (writes_of (dm_tracks d)) (delivered evs) ws /\
  (dm_completed d = true -> forall j s n, nth_error (dm_tracks d) j = Some s -> file_name path s = Ok n ->
     fh_disk f n = written (delivered evs) ws j ++ skipn (length (written (delivered evs) ws j)) (k n)) /\
  (forall n, dm_completed d = false \/ (forall s, In s (dm_tracks d) -> file_name path s <> Ok n) -> fh_disk f n = k n).
Proof.
  intros W O S. rewrite fh_session_handler in S. rewrite <- delivered_handler. unfold call_order in O.
  destruct (dm_completed d).
  - destruct O as [[T O]|[T [ps O]]]; rewrite O in *.
    + cbn in S. injection S as <-. exists []. split; [constructor|]. split; [|reflexivity]. intros _ j s n J. rewrite T in J. destruct j; discriminate.
    + assert (Ed : delivered (map EvNewTrack (dm_tracks d) ++ [EvTrackComplete] ++ map EvPacket ps) = ps) by (now rewrite !delivered_app, delivered_new_tracks, delivered_packets).
      rewrite Ed. rewrite fh_session_split in S. destruct (fh_open path (fh_start k) (dm_tracks d)) as [h0| | |] eqn:Op; cbn [bind] in S; try discriminate.
      pose proof (fh_open_ok _ _ _ _ (wf_indices _ W) Op) as K. apply fh_run_spec in S as (ws & F & A); [|exact K]. apply fh_open_spec in Op as (ns & Fn & T0 & Fs & D). cbn [fh_start fh_tracks fh_files fh_disk app] in *.
      rewrite T0 in F. exists ws. split; [exact F|]. destruct A as (_ & _ & A & A'). rewrite D in *. split.
      * intros _ j s n J E. destruct (Forall2_nth_l _ _ _ Fn _ _ J) as (n' & J' & E'). rewrite E in E'. injection E' as <-.
        destruct (A j n 0) as [_ A1]; [rewrite Fs; now rewrite (map_nth_error _ _ _ J')|]. rewrite A1. unfold overwrite. cbn [Z.to_nat firstn app]. rewrite Z.add_0_l. unfold zlen. now rewrite Nat2Z.id.
      * intros n [X|X]; [discriminate|]. apply A'. rewrite Fs, map_map. cbn [fst]. rewrite map_id. intros I. destruct (Forall2_in_r _ _ _ _ Fn I) as (s & J & E). now apply (X s).
  - rewrite O in *. cbn in S. injection S as <-. exists []. split; [constructor|]. split; [discriminate|reflexivity].
Qed.
Lemma session_runs path k name h d evs out : Forall well_behaved h -> run (dm_new name) h = Ok (d, evs) -> map fst out = delivered evs ->
  Forall (fun p => pk_media p = AVMediaTypeAudio) (delivered evs) -> exists f, fh_session path (fh_start k) (seen_events evs out) = Ok f.
Proof.
  intros F R O M. pose proof (seen_order _ _ out (reach_order _ _ _ _ R)) as Or. pose proof (run_wf _ _ _ _ (wf_new name) R) as W. pose proof (delivered_in _ _ _ _ F R) as D. pose proof (reach_av _ _ _ _ R) as A.
  pose proof (seen_delivered _ _ O) as Sd. rewrite <- O in D, M. rewrite fh_session_handler. rewrite <- delivered_handler in Sd. unfold call_order in Or. destruct (dm_completed d).
  - destruct Or as [[T Or]|[T [ps Or]]]; rewrite Or in *; [cbn; eauto|].
    assert (Ed : delivered (map EvNewTrack (dm_tracks d) ++ [EvTrackComplete] ++ map EvPacket ps) = ps) by (now rewrite !delivered_app, delivered_new_tracks, delivered_packets).
    rewrite Ed in *. rewrite fh_session_split. destruct (fh_open_total path (dm_tracks d) (fh_start k)) as [h0 E0]; [eapply Forall_impl; [|exact A]; intros s; apply av_media|].
    rewrite E0. cbn [bind]. pose proof (fh_open_ok _ _ _ _ (wf_indices _ W) E0) as K. apply fh_open_spec in E0 as (ns & Fn & T0 & _ & _). cbn [fh_start fh_tracks app] in T0. 
    apply fh_run_total; auto; rewrite Sd; apply Forall_map; rewrite T0.
    + eapply Forall_impl; [|exact (proj1 (Forall_map fst _ out) D)]. intros x Hx. exact Hx.
    + eapply Forall_impl; [|exact (proj1 (Forall_map fst _ out) M)]. intros x Hx. cbv beta in Hx. split; [apply av_media; left; exact Hx|]. exists [snd x]. exists (snd x). unfold access_unit. change (pk_media (shown_packet x)) with (pk_media (fst x)). rewrite Hx. split; reflexivity.
  - rewrite Or. cbn. eauto.
Qed.

(** Tracks that are not video get the bytes shown. *)
Definition of_track (j : Z) (out : list (packet * list Z)) : list (packet * list Z) := filter (fun x => pk_index (fst x) =? j) out.
Lemma of_track_shown j out : map pk_data (of_index j (map shown_packet out)) = map snd (of_track j out).
Proof. unfold of_index, of_track. induction out as [|x t IH]; [reflexivity|]. cbn [map filter]. change (pk_index (shown_packet x)) with (pk_index (fst x)). destruct (_ =? _); cbn [map]; [f_equal|]; exact IH. Qed.
Lemma of_track_fst j out : map fst (of_track j out) = of_index j (map fst out).
Proof. unfold of_index, of_track. induction out as [|x t IH]; [reflexivity|]. cbn [map filter]. destruct (_ =? _); cbn [map]; [f_equal|]; exact IH. Qed.
Lemma of_track_app j a b : of_track j (a ++ b) = of_track j a ++ of_track j b.
Proof. apply filter_app. Qed.
Lemma lendfile_content path k name l d evs y f : Forall well_behaved (map fst l) -> Forall plain_hook (map fst l) -> Forall honest l -> run (dm_new name) (map fst l) = Ok (d, evs) ->
  record_lent path k name l = Ok (y, f) ->
  exists y0 out, lend_new name = Ok y0 /\ lend_run y0 l = Ok (y, out) /\ map fst out = delivered evs /\
    (dm_completed d = true -> forall j s n, nth_error (dm_tracks d) j = Some s -> file_name path s = Ok n -> Forall (fun p => pk_media p <> AVMediaTypeVideo) (of_index (Z.of_nat j) (delivered evs)) ->
      let c := concat (map snd (of_track (Z.of_nat j) out)) in fh_disk f n = c ++ skipn (length c) (k n)) /\
    (forall n, dm_completed d = false \/ (forall s, In s (dm_tracks d) -> file_name path s <> Ok n) -> fh_disk f n = k n).
Proof.
  intros F P Hn R E. destruct (lendfile_reach path (fh_start k) name l d evs F P Hn R) as (y0 & y1 & out & N & E1 & _ & O & G). unfold record_lent in E. rewrite N in E. cbn [bind] in E. rewrite G in E.
  destruct (fh_session path (fh_start k) (seen_events evs out)) as [f1| | |] eqn:S; cbn [bind] in E; try discriminate E. injection E as <- <-.
  exists y0, out. repeat (split; [assumption|]). destruct (session_files path k d _ f1 (run_wf _ _ _ _ (wf_new name) R) (seen_order _ _ out (reach_order _ _ _ _ R)) S) as (ws & W & A & B).
  rewrite (seen_delivered _ _ O) in *. split; [|exact B]. intros C j s n J Fn M. assert (Ec : written (map shown_packet out) ws j = concat (map snd (of_track (Z.of_nat j) out))).
  { rewrite (written_plain _ _ _ _ W), of_track_shown; [reflexivity|]. apply Forall_forall. intros p Ip. unfold of_index in Ip. apply filter_In in Ip as [Ip Ix]. apply in_map_iff in Ip as (x & <- & Ix'). 
    rewrite Forall_forall in M. apply (M (fst x)). apply filter_In. split; [|exact Ix]. rewrite <- O. now apply in_map. }
  rewrite <- Ec. exact (A C j s n J Fn).
Qed.

(** One more call, with blocks of one size. *)
Lemma new_tracks_same a : forall b x y, map EvNewTrack a ++ EvTrackComplete :: x = map EvNewTrack b ++ EvTrackComplete :: y -> a = b.
Proof.
  induction a as [|s a IH]; intros [|t b] x y E; cbn [map app] in E; try discriminate E; [reflexivity|]. inversion E as [[Es Et]]. f_equal. exact (IH _ _ _ Et).
Qed.
Lemma order_tracks d d' e1 e2 : call_order d e1 -> call_order d' (e1 ++ e2) -> dm_completed d = true -> dm_completed d' = true -> dm_tracks d' = dm_tracks d.
Proof.
  unfold call_order. intros O1 O2 C C'. rewrite C, C' in *. rewrite handler_events_app in O2. destruct O1 as [[T1 H1]|[T1 [ps H1]]]; rewrite H1 in O2.
  - destruct O2 as [[T2 _]|[T2 [ps2 H2]]]; [congruence|]. destruct (dm_tracks d'); [congruence|discriminate H2].
  - destruct O2 as [[_ H2]|[T2 [ps2 H2]]].
    + destruct (dm_tracks d); [congruence|discriminate H2].
    + rewrite <- !app_assoc in H2. symmetry. exact (new_tracks_same _ _ _ _ H2).
Qed.
Lemma all_same b : forall l : list (list Z), Forall (fun x => x = b) l -> concat l = concat (repeat b (length l)).
Proof. induction 1 as [|x l -> _ IH]; [reflexivity|]. cbn [concat length repeat]. now rewrite IH. Qed.
Lemma lendfile_grows path k name l c d evs d' e n y f y' f' : Forall well_behaved (map fst (l ++ [c])) -> Forall plain_hook (map fst (l ++ [c])) -> Forall honest (l ++ [c]) ->
  run (dm_new name) (map fst l) = Ok (d, evs) -> step (fst (fst c)) d (snd (fst c)) = Ok (d', e) -> Forall (sized n) (blocks (l ++ [c])) ->
  record_lent path k name l = Ok (y, f) -> record_lent path k name (l ++ [c]) = Ok (y', f') ->
  dm_completed d' = true -> forall j s nm, nth_error (dm_tracks d') j = Some s -> file_name path s = Ok nm -> k nm = [] ->
  Forall (fun p => pk_media p <> AVMediaTypeVideo) (of_index (Z.of_nat j) (delivered (evs ++ e))) ->
  fh_disk f' nm = fh_disk f nm ++ concat (repeat (last (map (@concat Z) (blocks (l ++ [c]))) []) (length (of_index (Z.of_nat j) (delivered e)))).
Proof.
  intros F P Hn R S B E E' C j s nm J Fn Kn M. destruct (lend_last name l c d evs d' e F P Hn R S) as (y0 & z & o1 & z' & o2 & N & L1 & L2 & _ & O2 & Q).
  assert (R' : run (dm_new name) (map fst (l ++ [c])) = Ok (d', evs ++ e)) by (rewrite map_app; cbn [map]; destruct c as [[o a] chunks]; cbn [fst snd] in *; rewrite run_app, R; cbn [bind run]; rewrite S; cbn [bind]; now rewrite app_nil_r).
  destruct (lendfile_content path k name (l ++ [c]) d' _ y' f' F P Hn R' E') as (x0 & out & N' & L' & O' & A' & _). assert (x0 = y0) by congruence. subst x0.
  rewrite lend_run_snoc, L1 in L'. cbn [bind] in L'. rewrite L2 in L'. cbn [bind] in L'. injection L' as <- <-. specialize (A' C j s nm J Fn M). cbv zeta in A'. rewrite Kn, skipn_nil, app_nil_r in A'. rewrite A', of_track_app, map_app, concat_app.
  assert (E2 : concat (map snd (of_track (Z.of_nat j) o2)) = concat (repeat (last (map (@concat Z) (blocks (l ++ [c]))) []) (length (of_index (Z.of_nat j) (delivered e))))).
  { rewrite (all_same (last (map (@concat Z) (blocks (l ++ [c]))) [])).
    - rewrite map_length, <- O2, <- of_track_fst, map_length. reflexivity.
    - apply Forall_map, Forall_forall. intros x Ix. apply filter_In in Ix as [Ix _]. rewrite Forall_forall in Q. exact (seen_sized name _ n _ _ Hn B (Q x Ix)). }
  rewrite E2. f_equal. rewrite map_app in F, P. apply Forall_app in F as [F _]. apply Forall_app in P as [P _]. apply Forall_app in Hn as [Hn _].
  destruct (lendfile_content path k name l d _ y f F P Hn R E) as (x0 & out & N'' & L'' & O'' & A'' & B''). assert (x0 = y0) by congruence. subst x0. rewrite L1 in L''. injection L'' as <- <-.
  pose proof (reach_order _ _ _ _ R) as Or. pose proof (reach_order _ _ _ _ R') as Or'. destruct (dm_completed d) eqn:Cd.
  - rewrite (order_tracks _ _ _ _ Or Or' Cd C) in J. rewrite delivered_app in M. unfold of_index in M. rewrite filter_app in M. apply Forall_app in M as [M _]. specialize (A'' eq_refl j s nm J Fn M). cbv zeta in A''. now rewrite Kn, skipn_nil, app_nil_r in A''.
  - rewrite B'' by (now left). rewrite Kn. unfold call_order in Or. rewrite Cd in Or. rewrite <- delivered_handler, Or in O''. destruct o1; [reflexivity|discriminate O''].
Qed.

(** What is shown is as long as the data. *)
Lemma lend_sizes name l : forall d evs y0 y out, Forall well_behaved (map fst l) -> Forall plain_hook (map fst l) -> Forall honest l -> run (dm_new name) (map fst l) = Ok (d, evs) ->
  lend_new name = Ok y0 -> lend_run y0 l = Ok (y, out) -> Forall (fun x => length (snd x) = length (pk_data (fst x))) out.
Proof.
  induction l as [|c t IH] using rev_ind; intros d evs y0 y out F P Hn R N E.
  - cbn in E. injection E as <- <-. constructor.
  - pose proof F as F0. pose proof P as P0. pose proof Hn as Hn0. rewrite map_app in F, P, R. cbn [map] in F, P, R. apply Forall_app in F as [F _]. apply Forall_app in P as [P _]. apply Forall_app in Hn as [Hn _].
    rewrite run_app in R. destruct (run (dm_new name) (map fst t)) as [[d1 e1]| | |] eqn:R1; cbn [bind] in R; try discriminate R.
    cbn [run] in R. destruct (fst c) as [o x] eqn:Ec. destruct (step o d1 x) as [[d2 e2]| | |] eqn:S; cbn [bind] in R; try discriminate R. assert (S' : step (fst (fst c)) d1 (snd (fst c)) = Ok (d2, e2)) by (rewrite Ec; exact S).
    destruct (lend_last name t c d1 e1 d2 e2 F0 P0 Hn0 R1 S') as (z0 & z & o1 & z' & o2 & N1 & L1 & L2 & _ & _ & Q). assert (z0 = y0) by congruence. subst z0.
    rewrite lend_run_snoc, L1 in E. cbn [bind] in E. rewrite L2 in E. cbn [bind] in E. injection E as <- <-. apply Forall_app. split; [eapply IH; eauto|].
    eapply Forall_impl; [|exact Q]. intros q (l1 & c1 & l2 & q0 & _ & _ & _ & _ & ->). apply shown_length.
Qed.
Lemma same_sizes (out : list (packet * list Z)) : Forall (fun x => length (snd x) = length (pk_data (fst x))) out -> zlen (concat (map snd out)) = zlen (concat (map pk_data (map fst out))).
Proof. induction 1 as [|x l Hx _ IH]; [reflexivity|]. cbn [map concat]. rewrite !zlen_app. unfold zlen in *. lia. Qed.

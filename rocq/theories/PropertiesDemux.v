(** * PropertiesDemux: C62-C72, the demuxer base class.

    A history is a list of calls, each with the choices the runtime makes during it ([oracle]). [run (dm_new name) h = Ok (d, evs)] says that
    the calls of [h] return and leave the demuxer in state [d], [evs] being what the handler and the data pipeline saw. *)
From Verif Require UtilModel.
From Verif Require Import Base RingProofs BufioModel NaluModel NaluSpec NaluProofs SplitProofs SplitExact AvccProofs RecordModel SpsModel SpsSpec SpsProofs AacModel FloatModel PacketModel PacketProofs
  PropertiesNalu PropertiesConvert PropertiesSps PropertiesPacket DemuxModel DemuxProofs.
From Coq Require Import String Permutation Sorted List.
Import ListNotations.
Local Open Scope list_scope.

(** ** Data for the examples and witnesses *)
Fixpoint insert (p : packet) (l : list packet) : list packet :=
  match l with [] => [p] | q :: t => if pk_dts p <=? pk_dts q then p :: l else q :: insert p t end.
Definition isort (l : list packet) : list packet := fold_right insert [] l.
Definition o0 : oracle := {| or_pick := 0; or_sort := isort; or_ms := fun _ _ => 0; or_grow := fun n => n; or_recycled := false |}.
Lemma insert_perm p l : Permutation (p :: l) (insert p l).
Proof. induction l as [|q t IH]; cbn [insert]; [auto|]. destruct (_ <=? _); [auto|]. rewrite perm_swap. now constructor. Qed.
Lemma insert_sorted p l : Sorted dts_le l -> Sorted dts_le (insert p l).
Proof.
  induction l as [|q t IH]; cbn [insert]; intros H; [repeat constructor|]. destruct (Z.leb_spec (pk_dts p) (pk_dts q)); [constructor; auto|].
  apply Sorted_inv in H as [H1 H2]. constructor; [auto|]. destruct t as [|r t]; cbn [insert]; [constructor; unfold dts_le; lia|].
  destruct (_ <=? _); constructor; unfold dts_le; [lia|]. now apply HdRel_inv in H2.
Qed.
Lemma o0_ok : oracle_ok o0.
Proof.
  intros l. cbn [o0 or_sort]. induction l as [|p t [IH1 IH2]]; cbn [isort fold_right]; [split; constructor|]. fold (isort t).
  split; [now rewrite IH1 at 1; apply insert_perm|now apply insert_sorted].
Qed.
(** Calls with that oracle. *)
Definition calls (l : list op) : list (oracle * op) := map (fun a => (o0, a)) l.
Lemma calls_sorting l : Forall sorting (calls l).
Proof. apply Forall_map, Forall_forall. intros a _. exact o0_ok. Qed.
(** What a history shows. *)
Definition seen (r : res (demuxer * list event)) : option (bool * list (Z * Z * Z) * list (Z * Z) * list (Z * Z)) :=
  match r with
  | Ok (d, e) => Some (dm_completed d, map (fun p => (pk_index p, pk_dts p, pk_duration p)) (delivered e), map (fun p => (pk_index p, pk_dts p)) (accepted e), dm_map d)
  | _ => None
  end.
Definition G711A := AVCodecIdPCMALAW.

(* ---------------------------------------------------------------------------------------- *)
(** ** C62 Buffer indices *)
(** [EvIndex m i] in [evs] says that FindBufferIndex(m) returned i. *)
Theorem C62_buffer_index : forall name h d evs, run (dm_new name) h = Ok (d, evs) ->
  (forall m i j, In (EvIndex m i) evs -> In (EvIndex m j) evs -> i = j) /\
  (forall m n i, In (EvIndex m i) evs -> In (EvIndex n i) evs -> m = n) /\
  (forall m i, In (EvIndex m i) evs -> 0 <= i /\ forall j, 0 <= j < i -> exists n, In (EvIndex n j) evs) /\
  (forall o m, exists d' i, step o d (OpFindIndex m) = Ok (d', [EvIndex m i]) /\
     forall j, In (EvIndex m j) evs \/ (forall k, ~ In (EvIndex m k) evs) /\ (forall k n, In (EvIndex n k) evs -> k < j) /\ (forall k, 0 <= k < j -> exists n, In (EvIndex n k) evs) /\ 0 <= j -> i = j).
Proof.
  intros name h d evs R. apply reach_markers in R as [N M].
  assert (I1 : forall m i j, In (EvIndex m i) evs -> In (EvIndex m j) evs -> i = j).
  { intros m i j A B. apply M in A, B. pose proof (idx_inv _ _ _ A). pose proof (idx_inv _ _ _ B). rewrite idx_nth in A, B by lia. rewrite NoDup_nth_error in N.
    assert (Z.to_nat i = Z.to_nat j); [|lia]. apply N; [|congruence]. apply nth_error_Some. congruence. }
  assert (I2 : forall m n i, In (EvIndex m i) evs -> In (EvIndex n i) evs -> m = n) by (intros m n i A B; apply M in A, B; congruence).
  assert (I3 : forall m i, In (EvIndex m i) evs -> 0 <= i /\ forall j, 0 <= j < i -> exists n, In (EvIndex n j) evs).
  { intros m i A. apply M in A. pose proof (idx_inv _ _ _ A) as B. split; [lia|]. intros j J. destruct (idx_some (dm_ordered d) j ltac:(lia)) as [n E]. exists n. now apply M. }
  split; [exact I1|]. split; [exact I2|]. split; [exact I3|]. intros o m. cbn [step].
  assert (M' : markers_ok d evs) by (split; assumption).
  destruct (find_buffer_index d m) as [d' i] eqn:F. exists d', i. split; [reflexivity|]. intros j. unfold find_buffer_index in F. destruct (marker_index (dm_ordered d) 0 m) as [x|] eqn:Mi; injection F as <- <-.
  - apply marker_some in Mi as [Mi _]. rewrite Z.sub_0_r in Mi. apply M in Mi. intros [A|(A & _)]; [eapply I1; eauto|]. now apply A in Mi.
  - apply marker_none in Mi. rewrite zlen_app. change (zlen [m]) with 1. pose proof (zlen_nonneg (dm_ordered d)) as L0. intros [A|(_ & A & B & C)].
    + apply M in A. exfalso. apply Mi. unfold idx in A. destruct (j <? 0); [discriminate|]. eapply nth_error_In; eauto.
    + destruct (Z.lt_trichotomy j (zlen (dm_ordered d))) as [L|[->|L]]; [|lia|].
      * destruct (idx_some (dm_ordered d) j ltac:(lia)) as [n E]. apply M in E. apply A in E. lia.
      * destruct (B (zlen (dm_ordered d)) ltac:(lia)) as [n E]. apply M in E. apply idx_inv in E. lia.
Qed.
Print Assumptions C62_buffer_index.
Example C62_example : exists d, run (dm_new "ts") (calls [OpFindIndex 257; OpFindIndex 256; OpFindIndex 257; OpFindIndex 8191; OpFindIndex 256]) =
  Ok (d, [EvIndex 257 0; EvIndex 256 1; EvIndex 257 0; EvIndex 8191 2; EvIndex 256 1]).
Proof. eexists. vm_compute. reflexivity. Qed.

(* ---------------------------------------------------------------------------------------- *)
(** ** C63 Callback order *)
(** No assumption on the runtime's choices: [h] contains any oracle. *)
Theorem C63_callback_order : forall name h d evs, run (dm_new name) h = Ok (d, evs) ->
  (dm_completed d = false -> handler_events evs = []) /\
  (dm_completed d = true -> dm_tracks d = [] -> handler_events evs = [EvTrackNotFind]) /\
  (dm_completed d = true -> dm_tracks d <> [] -> exists ps, handler_events evs = map EvNewTrack (dm_tracks d) ++ [EvTrackComplete] ++ map EvPacket ps) /\
  (forall i s, idx (dm_tracks d) i = Some s -> st_index s = i) /\
  (forall h' d' evs', dm_completed d = true -> run d h' = Ok (d', evs') -> dm_tracks d' = dm_tracks d /\ dm_completed d' = true /\ exists ps, handler_events evs' = map EvPacket ps).
Proof.
  intros name h d evs R. pose proof (reach_order _ _ _ _ R) as O. pose proof (run_wf _ _ _ _ (wf_new name) R) as W. unfold call_order in O.
  split; [intros C; now rewrite C in O|]. split; [intros C; rewrite C in O; destruct O as [[]|[]]; tauto|]. split; [intros C; rewrite C in O; destruct O as [[]|[]]; tauto|].
  split; [apply W|]. intros h' d' evs' C R'. destruct (run_ext _ _ _ _ W R') as [_ E]. destruct (E C) as [E1 E2]. split; [exact E1|]. split; [exact E2|].
  assert (RR : run (dm_new name) (h ++ h') = Ok (d', evs ++ evs')) by (rewrite run_app, R; cbn [bind]; rewrite R'; reflexivity).
  apply reach_order in RR. unfold call_order in RR. rewrite E2, E1, handler_events_app in RR. rewrite C in O. destruct RR as [[T RR]|[T [ps RR]]]; destruct O as [[T' O]|[T' [qs O]]]; try tauto; rewrite O in RR.
  - exists []. now apply (app_inv_head [EvTrackNotFind] _ []).
  - rewrite <- !app_assoc in RR. apply app_inv_head in RR. apply app_inv_head in RR.
    exists (skipn (List.length qs) ps). rewrite <- skipn_map, <- RR. rewrite <- (map_length EvPacket qs). rewrite skipn_app, skipn_all, Nat.sub_diag. reflexivity.
Qed.
Print Assumptions C63_callback_order.
Example C63_example : (exists d evs t, run (dm_new "ps") (calls [OpSetHandler; OpAudio 0 G711A [1] 0; OpAudio 0 G711A [2] 18000; OpAudio 0 G711A [3] 27000]) = Ok (d, evs) /\ dm_tracks d = [t] /\
    handler_events evs = [EvNewTrack t; EvTrackComplete; EvPacket (set_duration (set_buffer (init_audio pkt_zero [1] 0 G711A 0 90000) 0) 18000);
      EvPacket (set_duration (set_buffer (init_audio pkt_zero [2] 18000 G711A 0 90000) 0) 9000)]) /\
  (exists d, run (dm_new "ps") (calls [OpSetHandler; OpProbeComplete; OpProbeComplete]) = Ok (d, [EvTrackNotFind])).
Proof. split; [do 3 eexists; split; [vm_compute; reflexivity|split; reflexivity]|eexists; vm_compute; reflexivity]. Qed.

(* ---------------------------------------------------------------------------------------- *)
(** ** C64 No packet is lost or duplicated *)
(** Packets are compared without their duration, which the demuxer sets. *)
Theorem C64_conservation : forall name h d evs, Forall sorting h -> run (dm_new name) h = Ok (d, evs) ->
  Permutation (map nodur (accepted evs)) (map nodur (delivered evs) ++ map nodur (List.concat (dm_packets d))) /\
  (dm_completed d = true -> Forall (fun l => (length l <= 1)%nat) (dm_packets d)).
Proof. intros name h d evs F R. now destruct (reach_balanced _ _ _ _ F R) as (_ & _ & B & _). Qed.
Print Assumptions C64_conservation.
Definition hist1 : list op :=
  [OpSetHandler; OpAudio 0 G711A [1] 0; OpAudio 1 G711A [2] 4500; OpAudio 0 G711A [3] 9000; OpAudio 1 G711A [4] 13500; OpAudio 0 G711A [5] 18000; OpAudio 1 G711A [6] 22500].
Example C64_example : seen (run (dm_new "ts") (calls hist1)) =
  Some (true, [(0, 0, 9000); (1, 4500, 9000); (0, 9000, 9000); (1, 13500, 9000)], [(0, 0); (1, 4500); (0, 9000); (1, 13500); (0, 18000); (1, 22500)], [(0, 0); (1, 1)]).
Proof. vm_compute. reflexivity. Qed.

(* ---------------------------------------------------------------------------------------- *)
(** ** C65 Delivery *)
(** As stated it is false: the last packet of every stream is kept, ProbeComplete does not flush it. *)
Theorem C65_all_delivered_refuted : ~ (forall name h d evs, Forall sorting h -> run (dm_new name) (h ++ calls [OpProbeComplete]) = Ok (d, evs) ->
  forall p, In p (map nodur (accepted evs)) -> In p (map nodur (delivered evs))).
Proof.
  intros H. specialize (H "ps"%string (calls [OpSetHandler; OpAudio 0 G711A [1] 0])). destruct (run _ _) as [[d evs]| | |] eqn:E; [|vm_compute in E; discriminate..].
  vm_compute in E. injection E as <- <-. specialize (H _ _ (calls_sorting _) eq_refl). cbn in H. eapply H. left. reflexivity.
Qed.
Print Assumptions C65_all_delivered_refuted.
(** After completion the packets not delivered are the buffered ones, at most one for each track or list; with lists and streams
    aligned (always the case when tracks are found from packets, see [C66_driven]) it is the last packet of each stream. *)
Theorem C65_all_delivered_partial : forall name h d evs, Forall sorting h -> run (dm_new name) h = Ok (d, evs) -> dm_completed d = true ->
  (forall p, In p (map nodur (accepted evs)) -> In p (map nodur (delivered evs)) \/ exists l, In l (map (map nodur) (dm_packets d)) /\ l = [p]) /\
  (zlen (delivered evs) + zlen (dm_packets d) >= zlen (accepted evs)) /\
  (aligned evs -> forall i A p, of_index (Z.of_nat i) (accepted evs) = A ++ [p] ->
     map nodur (nth i (dm_packets d) []) = [nodur p] /\ Permutation (map nodur (of_index (Z.of_nat i) (delivered evs))) (map nodur A)).
Proof.
  intros name h d evs F R C. destruct (reach_balanced _ _ _ _ F R) as (_ & _ & [B1 B2] & St). specialize (B2 C). split; [|split].
  - intros p I. apply (Permutation_in _ B1), in_app_or in I as [I|I]; auto. right. rewrite concat_map in I. apply in_concat in I as (l & Il & Ip). exists l. split; [exact Il|].
    apply in_map_iff in Il as (l0 & <- & I0). rewrite Forall_forall in B2. apply B2 in I0. destruct l0 as [|a [|b t]]; cbn in *; [easy| |lia]. destruct Ip as [->|[]]. reflexivity.
  - apply Permutation_length in B1. rewrite app_length, !map_length in B1. unfold zlen.
    assert (length (List.concat (dm_packets d)) <= length (dm_packets d))%nat; [|lia]. clear -B2. induction B2 as [|l t H F IH]; cbn [List.concat length]; [lia|]. rewrite app_length. lia.
  - intros Al i A p E. destruct (St Al i) as [_ S]. destruct (S C) as (S1 & S2 & _). rewrite E in *. destruct (durs_last A p) as [x Ex]. rewrite Ex in *. rewrite only_last_snoc in S1. rewrite removelast_snoc in S2. rewrite S1. split; [reflexivity|].
    rewrite S2. assert (M : map nodur (durs (A ++ [p])) = map nodur (A ++ [p])) by (apply durs_map; intros; apply nodur_set). rewrite Ex, !map_app in M. apply app_inj_tail in M as [M _]. now rewrite M.
Qed.
Print Assumptions C65_all_delivered_partial.
Example C65_example : exists d evs, run (dm_new "ts") (calls (hist1 ++ [OpProbeComplete])) = Ok (d, evs) /\ dm_completed d = true /\ aligned evs /\
  map (fun p => pk_dts p) (of_index 1 (accepted evs)) = [4500; 13500; 22500] /\ map (fun p => pk_dts p) (nth 1 (dm_packets d) []) = [22500].
Proof. do 2 eexists. split; [vm_compute; reflexivity|]. split; [reflexivity|]. split; [repeat constructor; cbn; lia|]. split; reflexivity. Qed.

(* ---------------------------------------------------------------------------------------- *)
(** ** C66 Durations *)
(** The next packet of the same stream. *)
Definition next_in_stream (evs : list event) (p q : packet) : Prop :=
  exists l p0 t, of_index (pk_index p) (accepted evs) = l ++ p0 :: q :: t /\ nodur p0 = nodur p.

(** Tracks announced by OnNewAudioTrack/OnNewVideoTrack: if the packets of track 1 arrive first they go to list 0 (demuxer.go:258-262), which
    is also used by track 0. *)
Definition hist_mixed : list op :=
  [OpSetHandler; OpNewAudio 0 G711A 1000 None audio_config_zero; OpNewVideo 1 UtilModel.AVCodecIdVP9 1000 [1];
   OpVideo 1 UtilModel.AVCodecIdVP9 [1] true 100 100; OpProbeComplete; OpVideo 1 UtilModel.AVCodecIdVP9 [2] false 140 140; OpVideo 1 UtilModel.AVCodecIdVP9 [3] false 180 180; OpAudio 0 G711A [4] 190].
Theorem C66_duration_refuted : exists name h d evs p, Forall well_behaved h /\ run (dm_new name) h = Ok (d, evs) /\ In p (delivered evs) /\
  (forall q, next_in_stream evs p q -> pk_duration p <> pk_dts q - pk_dts p) /\ exists q, next_in_stream evs p q.
Proof.
  exists "flv"%string, (calls hist_mixed). destruct (run (dm_new "flv") (calls hist_mixed)) as [[d evs]| | |] eqn:E; [|vm_compute in E; discriminate..]. vm_compute in E. injection E as <- <-.
  do 2 eexists. exists (set_duration (set_buffer (init_video pkt_zero [1] 100 100 true PacketTypeAVCC UtilModel.AVCodecIdVP9 1 1000) 1) 90).
  split; [apply Forall_map, Forall_forall; intros a I; split; [exact o0_ok|]; repeat (destruct I as [<-|I]; [exact Logic.I|]); destruct I|]. split; [reflexivity|]. split; [vm_compute; tauto|]. split.
  - intros q (l & p0 & t & E & N). cbn in E. destruct l as [|a [|b [|c l]]]; cbn in E; [| | |exfalso; revert E; clear; intros E; injection E; intros E' _ _ _; now destruct l].
    + injection E as _ <- _. vm_compute. congruence.
    + injection E as _ <- _ _. vm_compute in N. discriminate.
    + injection E as _ _ _ E. discriminate.
  - eexists. exists []. do 2 eexists. split; [vm_compute; reflexivity|reflexivity].
Qed.
Print Assumptions C66_duration_refuted.

(** [aligned evs]: every packet was added to the list of its own track. Then the packets of track i that were delivered are the packets
    accepted for it except the last, each with the distance to its successor, as an int64. *)
Theorem C66_duration_partial : forall name h d evs, Forall sorting h -> run (dm_new name) h = Ok (d, evs) -> aligned evs ->
  (forall p, In p (delivered evs) -> exists q, next_in_stream evs p q /\ pk_duration p = i64 (pk_dts q - pk_dts p)) /\
  (dm_completed d = true -> forall i, Permutation (of_index (Z.of_nat i) (delivered evs)) (removelast (durs (of_index (Z.of_nat i) (accepted evs))))).
Proof.
  intros name h d evs F R Al. destruct (reach_balanced _ _ _ _ F R) as (_ & _ & [B1 _] & St). specialize (St Al).
  split; [|intros C i; destruct (St i) as [_ S]; now destruct (S C) as (_ & S2 & _)].
  intros p I. destruct (dm_completed d) eqn:C; [|destruct (St 0%nat) as [S _]; destruct (S eq_refl) as [S1 _]; rewrite S1 in I; destruct I].
  assert (Nn : 0 <= pk_index p).
  { assert (In (nodur p) (map nodur (accepted evs))) as J by (apply Permutation_sym in B1; apply (Permutation_in _ B1), in_or_app; left; now apply in_map).
    apply in_map_iff in J as (p0 & E & J). assert (pk_index p0 = pk_index p) as <- by (apply (f_equal pk_index) in E; exact E).
    unfold accepted in J. apply in_flat_map in J as (e & Je & J). unfold aligned in Al. rewrite Forall_forall in Al. apply Al in Je. destruct e; cbn in J; try tauto. destruct J as [<-|[]]. lia. }
  destruct (St (Z.to_nat (pk_index p))) as [_ S]. destruct (S eq_refl) as (_ & S2 & _). rewrite Z2Nat.id in S2 by exact Nn.
  assert (J : In p (of_index (pk_index p) (delivered evs))) by (apply filter_In; rewrite Z.eqb_refl; auto).
  apply (Permutation_in _ S2) in J. unfold next_in_stream. clear -J. revert J. generalize (of_index (pk_index p) (accepted evs)) as A.
  induction A as [|a [|b t] IH]; [intros []|intros []|]. change (durs (a :: b :: t)) with (set_duration a (i64 (pk_dts b - pk_dts a)) :: durs (b :: t)).
  assert (Rl : removelast (set_duration a (i64 (pk_dts b - pk_dts a)) :: durs (b :: t)) = set_duration a (i64 (pk_dts b - pk_dts a)) :: removelast (durs (b :: t))).
  { destruct (durs (b :: t)) eqn:E; [destruct t; discriminate|reflexivity]. }
  rewrite Rl. intros [<-|J].
  - exists b. split; [|reflexivity]. exists [], a, t. split; reflexivity.
  - destruct (IH J) as (q & (l & p0 & t' & E & N) & D). exists q. split; [|exact D]. exists (a :: l), p0, t'. rewrite E. split; [reflexivity|exact N].
Qed.
(** When tracks are only created from packets (PS, TS and JT/T 1078 streams), the condition holds. *)
Theorem C66_driven : forall name h d evs, Forall (fun x => op_hook_ok x /\ packet_driven x) h -> run (dm_new name) h = Ok (d, evs) -> aligned evs.
Proof. intros name h d evs F R. now destruct (reach_driven _ _ _ _ F R) as ((A & _) & _). Qed.
Print Assumptions C66_duration_partial.
Print Assumptions C66_driven.
Example C66_example : exists d evs, run (dm_new "ts") (calls hist1) = Ok (d, evs) /\ aligned evs /\ map (fun p => (pk_index p, pk_dts p, pk_duration p)) (delivered evs) = [(0, 0, 9000); (1, 4500, 9000); (0, 9000, 9000); (1, 13500, 9000)].
Proof. do 2 eexists. split; [vm_compute; reflexivity|]. split; [repeat constructor; cbn; lia|]. reflexivity. Qed.

(* ---------------------------------------------------------------------------------------- *)
(** ** C67 Order *)
Theorem C67_order_refuted : exists name h d evs, Forall well_behaved h /\ run (dm_new name) h = Ok (d, evs) /\
  (forall i, ascending (of_index i (accepted evs))) /\ ~ ascending (of_index 1 (delivered evs)).
Proof.
  exists "flv"%string, (calls hist_mixed). destruct (run (dm_new "flv") (calls hist_mixed)) as [[d evs]| | |] eqn:E; [|vm_compute in E; discriminate..]. vm_compute in E. injection E as <- <-.
  do 2 eexists. split; [apply Forall_map, Forall_forall; intros a I; split; [exact o0_ok|]; repeat (destruct I as [<-|I]; [exact Logic.I|]); destruct I|]. split; [reflexivity|]. split.
  - intros i. unfold of_index. cbn [accepted flat_map app filter pk_index]. destruct (1 =? i) eqn:E1, (0 =? i) eqn:E0; unfold ascending; repeat constructor; unfold dts_lt; cbn; try lia.
  - intros H. cbn in H. apply StronglySorted_inv in H as [_ H]. apply Forall_inv in H. unfold dts_lt in H. cbn in H. lia.
Qed.
Print Assumptions C67_order_refuted.

(** With lists and tracks aligned, a stream with increasing timestamps is delivered in order, without its last packet. *)
Theorem C67_order_partial : forall name h d evs, Forall sorting h -> run (dm_new name) h = Ok (d, evs) -> aligned evs ->
  forall i, ascending (of_index (Z.of_nat i) (accepted evs)) ->
  if dm_completed d then of_index (Z.of_nat i) (delivered evs) = removelast (durs (of_index (Z.of_nat i) (accepted evs))) else delivered evs = [].
Proof.
  intros name h d evs F R Al i A. destruct (reach_balanced _ _ _ _ F R) as (_ & _ & _ & St). destruct (St Al i) as [S1 S2]. destruct (dm_completed d); [|now apply S1].
  destruct (S2 eq_refl) as (_ & _ & S). auto.
Qed.
(** The packets released at completion are in ascending order whatever the tracks. *)
Theorem C67_batch_sorted : forall name h d evs o a d' e, run (dm_new name) h = Ok (d, evs) -> oracle_ok o -> dm_completed d = false -> step o d a = Ok (d', e) -> Sorted dts_le (delivered e).
Proof.
  intros name h d evs o a d' e R O C S. pose proof (run_wf _ _ _ _ (wf_new name) R) as W.
  assert (K : forall d1 e1, dm_completed d1 = false -> on_probe_complete o d1 = Ok (d', e1) -> Sorted dts_le (delivered e1)).
  { intros d1 e1 C1 P. apply complete_cases in P as [(X & _)|[(_ & _ & _ & ->)|(_ & _ & _ & e' & F & ->)]]; [congruence|constructor|].
    apply forward_all_events in F as (_ & F & _). rewrite !delivered_app, delivered_new_tracks, F. cbn. apply O. }
  destruct (step_cases _ _ _ _ _ W S) as [(_ & Q & _)|[(buf & s & _ & _ & _ & _ & Q)|[(buf & id & data & dts & _ & P)|(_ & P)]]]; [| | |eapply K; eauto].
  1,2: apply quiet_facts in Q as (_ & _ & ->); constructor.
  destruct P as [(_ & ->)|(d1 & i & s & p & G & _ & _ & _ & _ & _ & _ & _ & _ & _ & P)]; [constructor|].
  assert (C1 : dm_completed d1 = false) by (destruct G as [->|(_ & _ & _ & _ & _ & ->)]; exact C).
  apply process_cases in P as (k & l & _ & _ & [(_ & _ & ->)|[(l' & q & e' & _ & X & _)|(e' & _ & _ & _ & P & ->)]]); [constructor|congruence|].
  change (delivered (EvAdd (apply_pre (op_pre d a) p) (zlen (dm_packets d1)) :: e')) with (delivered e'). eapply K; [|exact P]. exact C1.
Qed.
Print Assumptions C67_order_partial.
Print Assumptions C67_batch_sorted.
Example C67_example : exists d evs, run (dm_new "ts") (calls hist1) = Ok (d, evs) /\ aligned evs /\ ascending (of_index 0 (accepted evs)) /\
  map pk_dts (of_index 0 (accepted evs)) = [0; 9000; 18000] /\ map pk_dts (of_index 0 (delivered evs)) = [0; 9000].
Proof. do 2 eexists. split; [vm_compute; reflexivity|]. split; [repeat constructor; cbn; lia|]. split; [repeat constructor; unfold dts_lt; cbn; lia|]. split; reflexivity. Qed.

(* ---------------------------------------------------------------------------------------- *)
(** ** C68 Probe time *)
Lemma step_packet o d a d' e buf id data dts : wf d -> op_input a = Some (buf, id, data, dts) -> step o d a = Ok (d', e) -> packet_step o d buf id data dts (op_pre d a) d' e.
Proof.
  intros W I S. destruct (step_cases _ _ _ _ _ W S) as [(_ & _ & X)|[(b & s & X & _)|[(b & i & dt & ts & X & P)|([->| ->] & _)]]].
  - congruence.
  - destruct a; discriminate.
  - rewrite X in I. injection I as -> -> -> ->. exact P.
  - discriminate.
  - discriminate.
Qed.
Lemma complete_true o d d' e : on_probe_complete o d = Ok (d', e) -> dm_completed d' = true.
Proof. intros C. apply complete_cases in C as [(X & -> & _)|[(_ & _ & -> & _)|(_ & _ & -> & _)]]; auto. Qed.

(** The packet [p] finishes the probe exactly if it is not the first of its stream and the summed millisecond durations of the packets
    before it reach the threshold; no other call finishes it except ProbeComplete and TryCompleteProbe. [durs (A ++ [p])] are the packets of
    the stream with their durations. *)
Theorem C68_completion : forall name h d evs o a d' e, Forall sorting h -> run (dm_new name) h = Ok (d, evs) -> step o d a = Ok (d', e) -> dm_completed d = false ->
  (op_input a = None -> a <> OpProbeComplete -> a <> OpTryComplete -> dm_completed d' = false) /\
  (op_input a <> None -> accepted e = [] -> d' = d) /\
  (forall p, aligned (evs ++ e) -> accepted e = [p] ->
     let A := of_index (pk_index p) (accepted evs) in
     dm_completed d' = true <-> A <> [] /\ Z.max (dm_probe d) 200 <= total_ms o (removelast (durs (A ++ [p])))).
Proof.
  intros name h d evs o a d' e F R S C. destruct (reach_balanced _ _ _ _ F R) as (W & _ & _ & St). split; [|split].
  - intros N1 N2 N3. destruct (step_cases _ _ _ _ _ W S) as [((_ & _ & _ & E) & _)|[(b & s & _ & _ & _ & -> & _)|[(b & i & dt & ts & X & P)|([->| ->] & _)]]]; try congruence. exact C.
  - intros N E. destruct (op_input a) as [[[[buf id] data] dts]|] eqn:I; [|congruence]. destruct (step_packet _ _ _ _ _ _ _ _ _ W I S) as [(-> & _)|(d1 & i & s & p & _ & _ & _ & _ & _ & _ & _ & _ & _ & _ & P)]; [reflexivity|].
    apply process_events in P as [P _]. rewrite E in P. discriminate.
  - intros p Al E A. destruct (step_cases _ _ _ _ _ W S) as [(_ & Q & _)|[(b & s & _ & _ & _ & _ & Q)|[(b & i & dt & ts & _ & P)|(_ & P)]]].
    1,2: apply quiet_facts in Q as (_ & Q & _); rewrite Q in E; discriminate.
    2: apply complete_events in P as [P _]; rewrite P in E; discriminate.
    destruct P as [(-> & ->)|(d1 & i0 & s & p0 & G & _ & _ & _ & _ & _ & _ & _ & _ & _ & P)]; [discriminate|].
    assert (Ep : apply_pre (op_pre d a) p0 = p) by (pose proof (process_events _ _ _ _ _ P) as [X _]; rewrite X in E; now injection E). rewrite Ep in P.
    assert (G1 : dm_completed d1 = false /\ dm_packets d1 = dm_packets d /\ dm_probe d1 = dm_probe d) by (destruct G as [->|(_ & _ & _ & _ & _ & ->)]; auto). destruct G1 as (C1 & K1 & T1).
    pose proof (process_packets _ _ _ _ _ P) as (N0 & _ & _ & r & Er & _).
    assert (Al1 : aligned evs /\ pk_index p <= zlen (dm_packets d)).
    { unfold aligned in *. apply Forall_app in Al as [Al1 Al2]. split; [exact Al1|]. rewrite Er in Al2. apply Forall_inv in Al2. rewrite K1 in Al2. lia. }
    destruct Al1 as [Al1 L1]. destruct (St Al1 (Z.to_nat (pk_index p))) as [St1 _]. destruct (St1 C) as [_ St2]. rewrite Z2Nat.id in St2 by exact N0. fold A in St2.
    apply process_cases in P as (k & l & Hk & Hi & P). rewrite K1 in Hi. assert (k = Z.to_nat (pk_index p)) as -> by lia.
    assert (El : l = durs A).
    { rewrite <- St2, <- K1, <- (nth_base d1 p). now apply nth_error_nth with (d := []) in Hk. }
    subst l. rewrite durs_snoc. unfold threshold in P. rewrite T1 in P.
    assert (NE : A = [] <-> durs A = []) by (pose proof (durs_length A); destruct A, (durs _); cbn in *; split; congruence || lia).
    destruct P as [(H & -> & _)|[(l' & q & e' & _ & X & _)|(e' & H1 & _ & H2 & H3 & _)]]; [|congruence|].
    + cbn [dm_completed with_packets]. rewrite C1. split; [discriminate|]. intros [H1 H2]. destruct H as [H|[_ H]]; [tauto|lia].
    + apply complete_true in H3. split; [|auto]. intros _. split; [tauto|lia].
Qed.
Print Assumptions C68_completion.

(** In a millisecond time base the sum is the time between the first and the current packet of the stream: exact. *)
Theorem C68_milliseconds_partial : forall name h d evs o a d' e, Forall sorting h -> run (dm_new name) h = Ok (d, evs) -> step o d a = Ok (d', e) -> dm_completed d = false ->
  forall p first A, aligned (evs ++ e) -> accepted e = [p] -> of_index (pk_index p) (accepted evs) = first :: A -> Forall (fun q => pk_timebase q = 1000) (first :: A ++ [p]) ->
  (dm_completed d' = true <-> Z.max (dm_probe d) 200 <= i64 (pk_dts p - pk_dts first)).
Proof.
  intros name h d evs o a d' e F R S C p first A Al E Ea T. destruct (C68_completion _ _ _ _ _ _ _ _ F R S C) as (_ & _ & K). specialize (K p Al E). cbv zeta in K. rewrite Ea in K.
  cbn [app] in K. unfold total_ms in K. change 0 with (i64 0) in K. rewrite (total_1000 o (A ++ [p]) first 0 T), last_last, Z.add_0_l in K. change (i64 0) with 0 in K. rewrite K. split; [tauto|]. split; [discriminate|auto].
Qed.
Print Assumptions C68_milliseconds_partial.

(** In the 90 kHz time base each duration is rounded down to milliseconds before it is added: never early, late by less than one millisecond per packet. *)
Lemma total_90k o l : forall a x, Forall (fun p => pk_timebase p = 90000) (a :: l) -> ascending (a :: l) -> pk_dts (last l a) - pk_dts a < 2 ^ 52 / 1000 -> 0 <= x -> 90 * x + (pk_dts (last l a) - pk_dts a) < 2 ^ 60 ->
  let g := pk_dts (last l a) - pk_dts a in let t := fold_left (fun acc p => i64 (acc + pk_ms o p)) (removelast (durs (a :: l))) x - x in 90 * t <= g <= 90 * t + 89 * zlen l.
Proof.
  induction l as [|b t IH]; intros a x F As G X Y; cbv zeta; [cbn [durs removelast fold_left last]; change (zlen (@nil packet)) with 0; lia|].
  rewrite Forall_cons_iff in F. destruct F as [Fa F]. apply StronglySorted_inv in As as [As Ab].
  assert (La : last (b :: t) a = last t b). { destruct t as [|c t]; [reflexivity|]. clear. revert b c. induction t as [|c' t IH]; intros b c; [reflexivity|]. exact (IH b c'). }
  rewrite La in *.
  assert (Lb : pk_dts b <= pk_dts (last t b)).
  { destruct t as [|c t]; [cbn; lia|]. apply StronglySorted_inv in As as [_ As]. rewrite Forall_forall in As. assert (I : In (last (c :: t) b) (c :: t)) by (destruct (exists_last (l := c :: t)) as (u & v & ->); [discriminate|]; rewrite last_last; apply in_or_app; right; now left). apply As in I. unfold dts_lt in I. lia. }
  apply Forall_inv in Ab. unfold dts_lt in Ab.
  change (durs (a :: b :: t)) with (set_duration a (i64 (pk_dts b - pk_dts a)) :: durs (b :: t)).
  assert (Rl : removelast (set_duration a (i64 (pk_dts b - pk_dts a)) :: durs (b :: t)) = set_duration a (i64 (pk_dts b - pk_dts a)) :: removelast (durs (b :: t))).
  { destruct (durs (b :: t)) eqn:E; [destruct t; discriminate|reflexivity]. }
  rewrite Rl. cbn [fold_left].
  assert (Pm : pk_ms o (set_duration a (i64 (pk_dts b - pk_dts a))) = (pk_dts b - pk_dts a) / 90).
  { unfold pk_ms, convert_field. cbn [pk_timebase pk_duration set_duration]. rewrite Fa. change (90000 =? 1000) with false. cbn iota.
    destruct C55_convert_exact_partial as (_ & _ & C55 & _). rewrite i64_id by (unfold is_i64; lia). rewrite C55 by lia. apply Z.quot_div_nonneg; lia. }
  rewrite Pm.
  set (g := pk_dts b - pk_dts a) in *. assert (D : 90 * (g / 90) <= g <= 90 * (g / 90) + 89) by (pose proof (Z.div_mod g 90 ltac:(lia)); pose proof (Z.mod_pos_bound g 90 ltac:(lia)); lia).
  assert (Ex : i64 (x + g / 90) = x + g / 90). { apply i64_id. unfold is_i64. lia. }
  rewrite Ex, zlen_cons.
  specialize (IH b (x + g / 90) F As ltac:(lia) ltac:(lia) ltac:(lia)). cbv zeta in IH. lia.
Qed.
Theorem C68_90khz_partial : forall name h d evs o a d' e, Forall sorting h -> run (dm_new name) h = Ok (d, evs) -> step o d a = Ok (d', e) -> dm_completed d = false ->
  forall p first A, aligned (evs ++ e) -> accepted e = [p] -> of_index (pk_index p) (accepted evs) = first :: A -> Forall (fun q => pk_timebase q = 90000) (first :: A ++ [p]) ->
  ascending (first :: A ++ [p]) -> pk_dts p - pk_dts first < 2 ^ 52 / 1000 ->
  let t := Z.max (dm_probe d) 200 in
  (dm_completed d' = true -> 90 * t <= pk_dts p - pk_dts first) /\
  (90 * t + 89 * (zlen A + 1) <= pk_dts p - pk_dts first -> dm_completed d' = true).
Proof.
  intros name h d evs o a d' e F R S C p first A Al E Ea T As G t. destruct (C68_completion _ _ _ _ _ _ _ _ F R S C) as (_ & _ & K). specialize (K p Al E). cbv zeta in K. rewrite Ea in K. fold t in K. cbn [app] in K.
  pose proof (total_90k o (A ++ [p]) first 0 T As) as B. cbv zeta in B. rewrite last_last, zlen_app in B. change (zlen [p]) with 1 in B. fold (total_ms o (removelast (durs (first :: A ++ [p])))) in B. specialize (B G ltac:(lia) ltac:(lia)).
  rewrite K. split; [intros [_ H]; lia|]. intros H. split; [discriminate|lia].
Qed.
Print Assumptions C68_90khz_partial.
(** Late: seven packets 3003 ticks apart span 200.2 ms, and the probe goes on. *)
Definition hist_3003 : list op := OpSetHandler :: map (fun k => OpAudio 0 G711A [k] (3003 * k)) [0; 1; 2; 3; 4; 5].
Theorem C68_not_later_refuted : exists name h d evs a d' e p first A, Forall sorting h /\ run (dm_new name) h = Ok (d, evs) /\ aligned (evs ++ e) /\ step o0 d a = Ok (d', e) /\
  accepted e = [p] /\ of_index (pk_index p) (accepted evs) = first :: A /\ Z.max (dm_probe d) 200 * pk_timebase p <= (pk_dts p - pk_dts first) * 1000 /\ dm_completed d' = false.
Proof.
  exists "ps"%string, (calls hist_3003). do 2 eexists. exists (OpAudio 0 G711A [6] 18018). do 5 eexists. split; [apply calls_sorting|]. split; [vm_compute; reflexivity|].
  split; [|split; [vm_compute; reflexivity|]; split; [reflexivity|]; split; [reflexivity|]; split; [vm_compute; congruence|reflexivity]].
  repeat constructor; cbn; lia.
Qed.
Print Assumptions C68_not_later_refuted.
Example C68_example : exists d evs d' e, run (dm_new "jt1078") (calls [OpSetHandler; OpSetProbe 300; OpAudio 0 G711A [1] 40; OpAudio 0 G711A [2] 339]) = Ok (d, evs) /\
  dm_completed d = false /\ step o0 d (OpAudio 0 G711A [3] 340) = Ok (d', e) /\ dm_completed d' = true.
Proof. do 4 eexists. split; [vm_compute; reflexivity|]. split; [reflexivity|]. split; [vm_compute; reflexivity|reflexivity]. Qed.

(* ---------------------------------------------------------------------------------------- *)
(** ** C69 Input blocks *)
(** Every packet call that returns either drops its block and leaves the demuxer alone, or adds exactly one packet made from its arguments
    (after the hook, for video) and drops nothing. [paired true]: every OnPacket is followed by the DiscardHeadPacket of the buffer its packet came from, and
    there is no other DiscardHeadPacket; [paired false]: there is none at all. *)
Theorem C69_accounting : forall name h d evs o a d' e, Forall well_behaved h -> run (dm_new name) h = Ok (d, evs) -> well_behaved (o, a) -> step o d a = Ok (d', e) ->
  (forall buf id data dts, op_input a = Some (buf, id, data, dts) ->
     (d' = d /\ e = [EvDiscardBack buf]) \/
     (discards e = [] /\ exists p, accepted e = [apply_pre (op_pre d a) p] /\ pk_buffer p = buf /\ pk_codec p = id /\ pk_data p = data /\ pk_dts p = dts /\ pk_duration p = 0)) /\
  (not_direct a -> paired (dm_autofree d) e = true).
Proof.
  intros name h d evs o a d' e F R [O Hk] S. destruct (reach_live _ _ _ _ F R) as (W & H & Or). split.
  - intros buf id data dts I. destruct (step_packet _ _ _ _ _ _ _ _ _ W I S) as [(-> & ->)|(d1 & i & s & p & _ & _ & _ & E1 & E2 & E3 & E4 & E5 & _ & E6 & P)]; [now left|right].
    apply process_events in P as [P1 P2]. split; [exact P2|]. exists p. auto 10.
  - eapply step_origin; eauto.
Qed.
Print Assumptions C69_accounting.
Example C69_example : exists d evs, run (dm_new "ps") (calls [OpSetHandler; OpSetAutoFree true; OpAudio 7 G711A [1] 0; OpVideo 8 AVCodecIdH264 [1; 2; 3] false 5 5; OpAudio 7 G711A [2] 18000]) = Ok (d, evs) /\
  map (fun e => match e with EvDiscardBack b => (1, b) | EvDiscardHead b => (2, b) | EvPacket p => (3, pk_buffer p) | EvAdd p _ => (4, pk_buffer p) | _ => (0, 0) end) evs =
  [(4, 7); (1, 8); (4, 7); (0, 0); (0, 0); (3, 7); (2, 7)].
Proof. do 2 eexists. split; vm_compute; reflexivity. Qed.

(* ---------------------------------------------------------------------------------------- *)
(** ** C70 Track indices *)
Theorem C70_tracks : forall name h d evs, run (dm_new name) h = Ok (d, evs) ->
  (forall i s, idx (dm_tracks d) i = Some s -> st_index s = i) /\
  (forall h' d' evs', run d h' = Ok (d', evs') -> forall i s, idx (dm_tracks d) i = Some s -> exists s', idx (dm_tracks d') i = Some s' /\ same_track s s') /\
  (Forall (fun x => op_hook_ok x /\ packet_driven x) h -> forall i j b, map_find (dm_map d) i = Some b -> map_find (dm_map d) j = Some b -> i = j) /\
  (forall i, (exists b, map_find (dm_map d) i = Some b) <-> 0 <= i < zlen (dm_tracks d)).
Proof.
  intros name h d evs R. pose proof (run_wf _ _ _ _ (wf_new name) R) as W. split; [apply W|]. split; [|split].
  - intros h' d' evs' R' i s I. destruct (run_ext _ _ _ _ W R') as [(a & b & Ea & F) _]. pose proof (idx_inv _ _ _ I) as B.
    assert (L : zlen a = zlen (dm_tracks d)) by (unfold zlen; now rewrite (Forall2_len _ _ _ F)).
    destruct (idx_some a i ltac:(lia)) as [s' E]. exists s'. rewrite Ea, idx_app_l by lia. split; [exact E|].
    rewrite idx_nth in E by lia. destruct (Forall2_nth _ _ _ F _ _ E) as (x & Ex & Sx). rewrite idx_nth in I by lia. congruence.
  - intros F i j b. destruct (reach_driven _ _ _ _ F R) as ((_ & _ & N) & _). clear -N. induction (dm_map d) as [|[k v] m IH]; cbn [map_find]; [discriminate|].
    cbn [map snd] in N. apply NoDup_cons_iff in N as [N1 N2].
    assert (In_of : forall x, map_find m x = Some b -> In b (map snd m)).
    { clear. intros x. induction m as [|[k v] m IH]; cbn [map_find]; [discriminate|]. destruct (k =? x); [intros [= ->]; now left|right; auto]. }
    destruct (Z.eqb_spec k i), (Z.eqb_spec k j); intros A B; try congruence; [| |auto].
    + injection A as ->. now apply In_of in B.
    + injection B as ->. now apply In_of in A.
  - intros i. split.
    + intros [b Hb]. apply (wf_key d i W). clear -Hb. induction (dm_map d) as [|[k v] m IH]; cbn [map_find] in Hb; [discriminate|]. cbn. destruct (Z.eqb_spec k i); [now left|right; auto].
    + intros B. destruct W as [_ W]. assert (I : In i (map fst (dm_map d))). { rewrite W. apply in_map_iff. exists (Z.to_nat i). split; [lia|]. apply in_seq. unfold zlen in B. lia. }
      clear -I. induction (dm_map d) as [|[k v] m IH]; [destruct I|]. cbn [map_find]. destruct (Z.eqb_spec k i); [eauto|]. destruct I as [I|I]; [cbn in I; congruence|auto].
Qed.
Print Assumptions C70_tracks.
Example C70_example : exists d evs, run (dm_new "ts") (calls hist1) = Ok (d, evs) /\ dm_map d = [(0, 0); (1, 1)] /\ map st_index (dm_tracks d) = [0; 1] /\ Forall packet_driven (calls hist1).
Proof. do 2 eexists. split; [vm_compute; reflexivity|]. split; [reflexivity|]. split; [reflexivity|]. repeat constructor. Qed.

(* ---------------------------------------------------------------------------------------- *)
(** ** C71 Rate estimation *)
(** Sampling rate [r] covers [size] bytes of 16-bit samples in [ms] milliseconds; bit rate [r] covers [size] bytes. *)
Definition covers_pcm (size ms r : Z) : bool := size * 1000 <=? r * 2 * ms.
Definition covers_bits (size ms r : Z) : bool := size * 8 * 1000 <=? r * ms.
Definition pcm_rates : list Z := [8000; 16000; 32000; 48000].
Definition g726_rates : list Z := [16000; 24000; 32000; 40000].
Definition pcm_track (d : demuxer) : option stream := find (fun s => st_codec s =? AVCodecIdPCMS16LE) (dm_tracks d).
Definition g726_track (d : demuxer) : option stream := find (fun s => st_codec s =? AVCodecIdADPCMG726) (dm_tracks d).

(** The bytes per millisecond are rounded down first, so 33 bytes in two milliseconds (16.5 per ms) give 8 kHz; above 96 bytes per
    millisecond the rate is set to the sample size; above 40 kbit/s the G.726 bit rate is not set. *)
Theorem C71_rates_refuted :
  (exists d evs t size ms, run (dm_new "jt1078") (calls [OpSetHandler; OpAudio 0 AVCodecIdPCMS16LE (zeros 33) 0; OpAudio 0 AVCodecIdPCMS16LE (zeros 33) 2; OpProbeComplete]) = Ok (d, evs) /\
     delivered evs <> [] /\ Forall (fun p => zlen (pk_data p) = size /\ pk_duration p = ms) (delivered evs) /\ pcm_track d = Some t /\
     find (covers_pcm size ms) pcm_rates = Some 16000 /\ ac_sample_rate (st_audio t) = 8000) /\
  (exists d evs t, run (dm_new "jt1078") (calls [OpSetHandler; OpAudio 0 AVCodecIdPCMS16LE (zeros 97) 0; OpAudio 0 AVCodecIdPCMS16LE (zeros 97) 1; OpProbeComplete]) = Ok (d, evs) /\
     pcm_track d = Some t /\ ac_sample_rate (st_audio t) = 16) /\
  (exists d evs t size ms, run (dm_new "jt1078") (calls [OpSetHandler; OpAudio 0 AVCodecIdADPCMG726 (zeros 5) 0; OpAudio 0 AVCodecIdADPCMG726 (zeros 5) 2; OpProbeComplete]) = Ok (d, evs) /\
     delivered evs <> [] /\ Forall (fun p => zlen (pk_data p) = size /\ pk_duration p = ms) (delivered evs) /\ g726_track d = Some t /\
     find (covers_bits size ms) g726_rates = Some 24000 /\ ac_bit_rate (st_audio t) = 16000).
Proof.
  split; [|split].
  - do 3 eexists. exists 33, 2. split; [vm_compute; reflexivity|]. split; [discriminate|]. split; [repeat constructor|]. split; [reflexivity|]. split; reflexivity.
  - do 3 eexists. split; [vm_compute; reflexivity|]. split; reflexivity.
  - do 3 eexists. exists 5, 2. split; [vm_compute; reflexivity|]. split; [discriminate|]. split; [repeat constructor|]. split; [reflexivity|]. split; reflexivity.
Qed.
Print Assumptions C71_rates_refuted.

Lemma pcm_rate_find ss b : pcm_rate ss b = match find (covers_pcm b 1) pcm_rates with Some r => r | None => ss end.
Proof. unfold pcm_rate, covers_pcm, pcm_rates. cbn [find]. repeat match goal with |- context [if ?a <=? ?b then _ else _] => destruct (Z.leb_spec a b) end; try reflexivity; lia. Qed.
Lemma g726_find b : 0 <= b < 2 ^ 49 -> g726_bit_rate (i64 (i64 (b * 1000) * 8)) = find (covers_bits b 1) g726_rates.
Proof.
  intros B. rewrite (i64_id (b * 1000)) by (unfold is_i64; lia). rewrite i64_id by (unfold is_i64; lia). unfold g726_bit_rate, covers_bits, g726_rates. cbn [find].
  repeat match goal with |- context [if ?a <=? ?b then _ else _] => destruct (Z.leb_spec a b) end; try reflexivity; lia.
Qed.
(** Rounding down does not matter when the size is a multiple of the duration. *)
Lemma covers_scale b ms r : 0 < ms -> covers_pcm (b * ms) ms r = covers_pcm b 1 r /\ covers_bits (b * ms) ms r = covers_bits b 1 r.
Proof. intros H. unfold covers_pcm, covers_bits. split; apply Bool.eq_iff_eq_true; rewrite !Z.leb_le; nia. Qed.
Definition measured (o : oracle) (d : demuxer) (codec size ms : Z) : Prop :=
  exists p, first_packet_of codec (dm_packets d) = Some p /\ zlen (pk_data p) = size /\ pk_ms o p = ms.

Definition pcm_of (o : oracle) (ps : list (list packet)) (s : stream) : stream :=
  match first_packet_of AVCodecIdPCMS16LE ps with
  | Some p => if (1 <=? pk_ms o p) && (st_codec s =? AVCodecIdPCMS16LE) then set_rate s (pcm_rate (ac_sample_size (st_audio s)) (zlen (pk_data p) / pk_ms o p)) else s
  | None => s
  end.
Definition g726_of (o : oracle) (ps : list (list packet)) (s : stream) : stream :=
  match first_packet_of AVCodecIdADPCMG726 ps with
  | Some p => if (1 <=? pk_ms o p) && (st_codec s =? AVCodecIdADPCMG726) then
                match g726_bit_rate (i64 (i64 (zlen (pk_data p) / pk_ms o p * 1000) * 8)) with Some r => set_bit_rate s r | None => s end
              else s
  | None => s
  end.
Lemma pcm_map o ps ts : calculate_pcm_frequency o ps ts = map (pcm_of o ps) ts.
Proof.
  unfold calculate_pcm_frequency, pcm_of. destruct (first_packet_of _ ps) as [p|]; [|now rewrite map_id]. destruct (Z.ltb_spec (pk_ms o p) 1), (Z.leb_spec 1 (pk_ms o p)); try lia; cbn [andb]; [now rewrite map_id|].
  apply map_ext. intros s. pose proof (zlen_nonneg (pk_data p)). rewrite Z.quot_div_nonneg by lia. reflexivity.
Qed.
Lemma g726_map o ps ts : calculate_g726_bit_rate o ps ts = map (g726_of o ps) ts.
Proof.
  unfold calculate_g726_bit_rate, g726_of. destruct (first_packet_of _ ps) as [p|]; [|now rewrite map_id]. destruct (Z.ltb_spec (pk_ms o p) 1), (Z.leb_spec 1 (pk_ms o p)); try lia; cbn [andb]; [now rewrite map_id|].
  pose proof (zlen_nonneg (pk_data p)). rewrite Z.quot_div_nonneg by lia. destruct (g726_bit_rate _); [reflexivity|]. transitivity (map id ts); [now rewrite map_id|]. apply map_ext. intros s. now destruct (_ =? _).
Qed.
(** What OnProbeComplete does to track i. [size] and [ms] are those of the first packet of the codec. *)
Theorem C71_rates_partial : forall o d d' e, dm_completed d = false -> on_probe_complete o d = Ok (d', e) -> forall i s s', idx (dm_tracks d) i = Some s -> idx (dm_tracks d') i = Some s' ->
  (st_codec s <> AVCodecIdPCMS16LE -> ac_sample_rate (st_audio s') = ac_sample_rate (st_audio s)) /\
  (st_codec s <> AVCodecIdADPCMG726 -> ac_bit_rate (st_audio s') = ac_bit_rate (st_audio s)) /\
  (forall size ms, st_codec s = AVCodecIdPCMS16LE -> measured o d AVCodecIdPCMS16LE size ms -> 1 <= ms ->
     ac_sample_rate (st_audio s') = match find (covers_pcm (size / ms) 1) pcm_rates with Some r => r | None => ac_sample_size (st_audio s) end /\
     forall b, size = b * ms -> forall r, find (covers_pcm size ms) pcm_rates = Some r -> ac_sample_rate (st_audio s') = r) /\
  (forall size ms, st_codec s = AVCodecIdADPCMG726 -> measured o d AVCodecIdADPCMG726 size ms -> 1 <= ms -> size < 2 ^ 49 ->
     ac_bit_rate (st_audio s') = match find (covers_bits (size / ms) 1) g726_rates with Some r => r | None => ac_bit_rate (st_audio s) end /\
     forall b, size = b * ms -> forall r, find (covers_bits size ms) g726_rates = Some r -> ac_bit_rate (st_audio s') = r) /\
  (* nothing to measure: no packet of the codec, or a first one shorter than a millisecond *)
  ((forall size ms, measured o d AVCodecIdPCMS16LE size ms -> ms < 1) -> ac_sample_rate (st_audio s') = ac_sample_rate (st_audio s)) /\
  ((forall size ms, measured o d AVCodecIdADPCMG726 size ms -> ms < 1) -> ac_bit_rate (st_audio s') = ac_bit_rate (st_audio s)).
Proof.
  intros o d d' e C P i s s' I I'.
  assert (E : nth_error (prepare_tracks o (dm_packets d) (dm_tracks d)) (Z.to_nat i) = Some s').
  { apply complete_cases in P as [(X & _)|[(_ & T & _)|(_ & _ & -> & _)]]; [congruence| |].
    - rewrite T in I. unfold idx in I. destruct (i <? 0); [discriminate|]. destruct (Z.to_nat i); discriminate.
    - pose proof (idx_inv _ _ _ I'). rewrite <- idx_nth by lia. exact I'. }
  pose proof (idx_inv _ _ _ I) as B. rewrite idx_nth in I by lia. unfold prepare_tracks in E. rewrite pcm_map, g726_map, map_map, nth_error_map, I in E. cbn [option_map] in E. injection E as <-. clear.
  set (s1 := pcm_of o (dm_packets d) s).
  assert (S1 : st_codec s1 = st_codec s /\ ac_bit_rate (st_audio s1) = ac_bit_rate (st_audio s) /\ ac_sample_size (st_audio s1) = ac_sample_size (st_audio s)).
  { unfold s1, pcm_of. destruct (first_packet_of _ _); [|auto]. destruct (_ && _); auto. }
  destruct S1 as (C1 & B1 & Z1).
  assert (R2 : ac_sample_rate (st_audio (g726_of o (dm_packets d) s1)) = ac_sample_rate (st_audio s1)).
  { unfold g726_of. destruct (first_packet_of _ _); [|auto]. destruct (_ && _); [|auto]. destruct (g726_bit_rate _); auto. }
  rewrite R2. split; [|split; [|split; [|split; [|split]]]].
  - intros N. unfold s1, pcm_of. destruct (first_packet_of _ _); [|auto]. destruct (Z.eqb_spec (st_codec s) AVCodecIdPCMS16LE); [congruence|]. now rewrite andb_false_r.
  - intros N. rewrite <- B1. rewrite <- C1 in N. unfold g726_of. destruct (first_packet_of _ _); [|auto]. destruct (Z.eqb_spec (st_codec s1) AVCodecIdADPCMG726); [congruence|]. now rewrite andb_false_r.
  - intros size ms N (p & F & <- & <-) L.
    assert (R : ac_sample_rate (st_audio s1) = match find (covers_pcm (zlen (pk_data p) / pk_ms o p) 1) pcm_rates with Some r => r | None => ac_sample_size (st_audio s) end).
    { unfold s1, pcm_of. rewrite F, N. destruct (Z.leb_spec 1 (pk_ms o p)); [|lia]. cbn [andb Z.eqb]. rewrite Z.eqb_refl. cbn [set_rate st_audio ac_sample_rate]. apply pcm_rate_find. }
    split; [exact R|]. intros b Eb r Fr. rewrite R, Eb, Z.div_mul by lia. rewrite Eb in Fr.
    assert (X : find (covers_pcm b 1) pcm_rates = Some r); [|now rewrite X]. rewrite <- Fr. unfold pcm_rates. cbn [find]. now rewrite !(fun r => proj1 (covers_scale b (pk_ms o p) r ltac:(lia))).
  - intros size ms N (p & F & <- & <-) L L2. rewrite <- B1.
    assert (R : ac_bit_rate (st_audio (g726_of o (dm_packets d) s1)) = match find (covers_bits (zlen (pk_data p) / pk_ms o p) 1) g726_rates with Some r => r | None => ac_bit_rate (st_audio s1) end).
    { unfold g726_of. rewrite F, C1, N. destruct (Z.leb_spec 1 (pk_ms o p)); [|lia]. rewrite Z.eqb_refl. cbn [andb]. rewrite g726_find.
      - destruct (find _ _); reflexivity.
      - pose proof (zlen_nonneg (pk_data p)). split; [apply Z.div_pos; lia|]. apply Z.div_lt_upper_bound; nia. }
    split; [exact R|]. intros b Eb r Fr. rewrite R, Eb, Z.div_mul by lia. rewrite Eb in Fr.
    assert (X : find (covers_bits b 1) g726_rates = Some r); [|now rewrite X]. rewrite <- Fr. unfold g726_rates. cbn [find]. now rewrite !(fun r => proj2 (covers_scale b (pk_ms o p) r ltac:(lia))).
  - intros M. unfold s1, pcm_of. destruct (first_packet_of _ _) as [p|] eqn:F; [|reflexivity]. assert (L : pk_ms o p < 1) by (eapply M; eexists; eauto). destruct (Z.leb_spec 1 (pk_ms o p)); [lia|reflexivity].
  - intros M. rewrite <- B1. unfold g726_of. destruct (first_packet_of _ _) as [p|] eqn:F; [|reflexivity]. assert (L : pk_ms o p < 1) by (eapply M; eexists; eauto). destruct (Z.leb_spec 1 (pk_ms o p)); [lia|reflexivity].
Qed.
Print Assumptions C71_rates_partial.
Example C71_example : exists d evs d' e t, run (dm_new "jt1078") (calls [OpSetHandler; OpAudio 0 AVCodecIdPCMS16LE (zeros 40) 0; OpAudio 0 AVCodecIdPCMS16LE (zeros 40) 2]) = Ok (d, evs) /\
  dm_completed d = false /\ measured o0 d AVCodecIdPCMS16LE 40 2 /\ on_probe_complete o0 d = Ok (d', e) /\ pcm_track d' = Some t /\ ac_sample_rate (st_audio t) = 16000.
Proof. do 5 eexists. split; [vm_compute; reflexivity|]. split; [reflexivity|]. split; [eexists; split; [vm_compute; reflexivity|split; reflexivity]|]. split; [vm_compute; reflexivity|]. split; reflexivity. Qed.

(* ---------------------------------------------------------------------------------------- *)
(** ** C72 No panic *)
(** As stated it is false: key frames shorter than three bytes, or with an empty unit after a parameter set, and formats without a time base. *)
Definition sps_end : list Z := sc true ++ pps_x ++ sc true ++ sps_y ++ [0; 0; 1].
Theorem C72_no_panic_refuted :
  (exists name h d evs, Forall well_behaved h /\ run (dm_new name) h = Ok (d, evs) /\ dm_handler d = true /\
     step o0 d (OpVideo 0 AVCodecIdH264 [] true 0 0) = Panic /\ step o0 d (OpVideo 0 AVCodecIdH265 [0; 0] true 0 0) = Panic /\
     step o0 d (OpVideo 0 AVCodecIdH264 [0; 0; 1; 0; 0; 1; 101] true 0 0) = Panic /\ step o0 d (OpVideo 0 AVCodecIdH264 sps_end true 0 0) = Panic) /\
  (exists h d evs, Forall well_behaved h /\ run (dm_new "mp4") h = Ok (d, evs) /\ dm_handler d = true /\ step o0 d (OpAudio 0 G711A [1; 2; 3] 0) = Panic).
Proof.
  assert (F : Forall well_behaved (calls [OpSetHandler])) by (constructor; [split; [exact o0_ok|exact Logic.I]|constructor]).
  split.
  - exists "ps"%string, (calls [OpSetHandler]). do 2 eexists. split; [exact F|]. split; [vm_compute; reflexivity|]. split; [reflexivity|]. repeat split; vm_compute; reflexivity.
  - exists (calls [OpSetHandler]). do 2 eexists. split; [exact F|]. split; [vm_compute; reflexivity|]. split; [reflexivity|]. vm_compute. reflexivity.
Qed.
Print Assumptions C72_no_panic_refuted.

(** Audio: every payload, in the four formats. *)
Theorem C72_audio_no_panic : forall name h d evs o buf id data ts, In name ["flv"; "jt1078"; "ps"; "ts"]%string -> Forall well_behaved h -> run (dm_new name) h = Ok (d, evs) -> dm_handler d = true -> oracle_ok o ->
  exists r, step o d (OpAudio buf id data ts) = Ok r.
Proof.
  intros name h d evs o buf id data ts N F R Hd O. pose proof (run_name _ _ _ _ R) as Nm. cbn [step]. apply audio_total; auto; [eapply reach_live; eauto|]. rewrite Nm. repeat (destruct N as [<-|N]; [vm_compute; discriminate|]). destruct N.
Qed.

(** A key frame made of NAL units is safe. *)
Lemma key_ok_units id l : l <> [] -> Forall unit_ok l -> key_ok id (annexb l).
Proof.
  intros Nl F. unfold key_ok. eexists. split; [reflexivity|]. unfold extract_video_extra_data, generate_video_codec_data. change (PacketTypeAnnexB =? PacketTypeAVCC) with false. cbn iota.
  assert (B : forall ty t n, last_of_type ty t (map snd l) = Some n -> nalu_ok n).
  { intros ty t n E. apply last_of_type_in in E as [E _]. apply in_map_iff in E as (u & <- & I). rewrite Forall_forall in F. now apply F in I. }
  destruct (Z.eqb_spec AVCodecIdH264 id) as [<-|N4].
  - rewrite C36_avc_extra by auto. destruct (last_of_type avc_nal_type 7 (map snd l)) as [s|] eqn:Es; [|repeat split; try discriminate; intros; discriminate].
    destruct (last_of_type avc_nal_type 8 (map snd l)) as [q|] eqn:Eq; [|repeat split; try discriminate; intros; discriminate]. cbn [with4 option_map bind]. change [0; 0; 0; 1] with (sc true). repeat split; try discriminate.
    intros e Ee. assert (e = (sc true ++ s) ++ sc true ++ q) as -> by congruence. clear Ee. eexists. split; [reflexivity|]. rewrite Z.eqb_refl. apply B in Es, Eq.
    assert (E : (sc true ++ s) ++ sc true ++ q = annexb [(true, s); (true, q)]) by (cbn [annexb]; now rewrite app_nil_r, <- app_assoc). rewrite E, C36_avc_extra; [|discriminate|repeat (apply Forall_cons; [assumption|]); apply Forall_nil].
    destruct (last_of_type avc_nal_type 7 _) as [x|]; [|split; discriminate]. destruct (last_of_type avc_nal_type 8 _) as [y|]; [|split; discriminate]. cbn [with4 option_map bind]. unfold new_avc_codec_data.
    destruct (C47_avc_sps_total ([0; 0; 0; 1] ++ x)) as [->|[i ->]]; [rewrite zlen_app; pose proof (zlen_nonneg x); change (zlen [0; 0; 0; 1]) with 4; lia|cbn; split; discriminate..].
  - destruct (Z.eqb_spec AVCodecIdH265 id) as [<-|N5]; [|repeat split; try discriminate; intros; discriminate].
    rewrite C37_hevc_extra by auto. destruct (last_of_type hevc_nal_type 32 (map snd l)) as [v|] eqn:Ev; [|repeat split; try discriminate; intros; discriminate].
    destruct (last_of_type hevc_nal_type 33 (map snd l)) as [s|] eqn:Es; [|repeat split; try discriminate; intros; discriminate].
    destruct (last_of_type hevc_nal_type 34 (map snd l)) as [q|] eqn:Eq; [|repeat split; try discriminate; intros; discriminate]. cbn [with4 option_map bind]. change [0; 0; 0; 1] with (sc true). repeat split; try discriminate.
    intros e Ee. assert (e = ((sc true ++ v) ++ sc true ++ s) ++ sc true ++ q) as -> by congruence. clear Ee. eexists. split; [reflexivity|]. change (AVCodecIdH265 =? AVCodecIdH264) with false. rewrite Z.eqb_refl. cbn iota. apply B in Ev, Es, Eq.
    assert (E : ((sc true ++ v) ++ sc true ++ s) ++ sc true ++ q = annexb [(true, v); (true, s); (true, q)]) by (cbn [annexb]; now rewrite app_nil_r, <- !app_assoc). rewrite E, C37_hevc_extra; [|discriminate|repeat (apply Forall_cons; [assumption|]); apply Forall_nil].
    destruct (last_of_type hevc_nal_type 32 _) as [z|]; [|split; discriminate]. destruct (last_of_type hevc_nal_type 33 _) as [x|]; [|split; discriminate]. destruct (last_of_type hevc_nal_type 34 _) as [y|]; [|split; discriminate]. cbn [with4 option_map bind]. unfold new_hevc_codec_data.
    destruct (C83_hevc_sps_total ([0; 0; 0; 1] ++ x)) as [->|[i ->]]; [rewrite zlen_app; pose proof (zlen_nonneg x); change (zlen [0; 0; 0; 1]) with 4; lia|cbn; split; discriminate..].
Qed.

(** Video in the packet-driven formats: every payload that is not a key frame, every payload of another codec, every payload for a known buffer or
    after completion, and every key frame made of NAL units. *)
Theorem C72_video_no_panic_partial : forall name h d evs o buf id data key dts pts, Forall (fun x => well_behaved x /\ packet_driven x) h -> run (dm_new name) h = Ok (d, evs) -> dm_handler d = true -> oracle_ok o ->
  (key = false \/ (id <> AVCodecIdH264 /\ id <> AVCodecIdH265) \/ (exists i, In (i, buf) (dm_map d)) \/ dm_completed d = true \/ get_pack_type name <> PacketTypeAnnexB \/
   exists l, l <> [] /\ Forall unit_ok l /\ data = annexb l) ->
  exists r, step o d (OpVideo buf id data key dts pts) = Ok r.
Proof.
  intros name h d evs o buf id data key dts pts F R Hd O K.
  assert (F1 : Forall well_behaved h) by (eapply Forall_impl; [|exact F]; tauto).
  assert (F2 : Forall (fun x => op_hook_ok x /\ packet_driven x) h) by (eapply Forall_impl; [|exact F]; intros x [[_ X] Y]; auto).
  destruct (reach_driven _ _ _ _ F2 R) as (_ & Nm & Rp). rewrite <- Nm in Rp. cbn [step]. apply video_total; auto; [eapply reach_live; eauto|].
  intros Kk. destruct K as [K|[[K1 K2]|[K|[K|[K|(l & Nl & Fl & ->)]]]]]; [congruence| |auto|auto|rewrite Nm; auto|right; right; right; now apply key_ok_units].
  right. right. right. unfold key_ok, extract_video_extra_data. destruct (Z.eqb_spec AVCodecIdH264 id); [congruence|]. destruct (Z.eqb_spec AVCodecIdH265 id); [congruence|].
  eexists. split; [reflexivity|]. repeat split; try discriminate; intros; discriminate.
Qed.

(** Exactly which key frames cannot be handled: too short, with a blank unit, or with parameter sets one of which, not the last, ends in a start code. *)
Definition key_panics (id : Z) (data : list Z) : Prop :=
  (id = AVCodecIdH264 /\ (zlen data < 3 \/ blank_unit data \/ exists s p, avc_parse_extra_data data = Ok (s, p) /\ ends_sc s)) \/
  (id = AVCodecIdH265 /\ (zlen data < 3 \/ blank_unit data \/ exists v s p, hevc_parse_extra_data data = Ok (v, s, p) /\ (ends_sc v \/ ends_sc s))).

Lemma raw_bytes n : raw n -> bytes_ok (sc true ++ n).
Proof. intros [_ [B _]]. apply bytes_ok_app. split; [repeat (apply Forall_cons; [unfold byte_ok; lia|]); apply Forall_nil|exact B]. Qed.

Lemma key_cases id data : bytes_ok data -> key_panics id data \/ key_ok id data.
Proof.
  intros B. unfold key_panics, key_ok, extract_video_extra_data, generate_video_codec_data. change (PacketTypeAnnexB =? PacketTypeAVCC) with false. cbn iota.
  destruct (C38_extra_panics_iff data B) as (P4 & P5 & F4 & F5).
  destruct (Z.eqb_spec AVCodecIdH264 id) as [<-|N4]; [|destruct (Z.eqb_spec AVCodecIdH265 id) as [<-|N5]].
  - destruct (avc_parse_extra_data data) as [[s p]| | |] eqn:E; [| | |congruence].
    + cbn [bind]. pose proof (avc_extra_blank_unit _ _ _ B E) as Bl. destruct (avc_parse_raw _ _ _ B E) as (n & q & -> & -> & Rn & Rq).
      assert (Be : bytes_ok ((sc true ++ n) ++ sc true ++ q)) by (apply bytes_ok_app; split; now apply raw_bytes). destruct (C38_extra_panics_iff _ Be) as (Pe & _ & Fe & _).
      rewrite Z.eqb_refl. destruct (avc_parse_extra_data ((sc true ++ n) ++ sc true ++ q)) as [[s' p']| | |] eqn:E'; [| | |congruence].
      * right. eexists. split; [reflexivity|]. repeat split; try discriminate. intros e Ee. assert (e = (sc true ++ n) ++ sc true ++ q) as -> by congruence. clear Ee. eexists. split; [reflexivity|]. rewrite E'. cbn [bind]. destruct (avc_parse_raw _ _ _ Be E') as (n' & q' & -> & _). unfold new_avc_codec_data.
        destruct (C47_avc_sps_total (sc true ++ n')) as [->|[i ->]]; [rewrite zlen_app; pose proof (zlen_nonneg n'); change (zlen (sc true)) with 4; lia|cbn; split; discriminate..].
      * right. eexists. split; [reflexivity|]. repeat split; try discriminate. intros e Ee. assert (e = (sc true ++ n) ++ sc true ++ q) as -> by congruence. clear Ee. eexists. split; [reflexivity|]. rewrite E'. split; discriminate.
      * left. left. split; [reflexivity|]. right. right. do 2 eexists. split; [reflexivity|]. apply Bl. destruct (proj1 Pe eq_refl) as [L|X]; [|exact X]. exfalso. rewrite !zlen_app in L. change (zlen (sc true)) with 4 in L. pose proof (zlen_nonneg n). pose proof (zlen_nonneg q). lia.
    + right. eexists. split; [reflexivity|]. repeat split; discriminate.
    + left. left. split; [reflexivity|]. destruct (proj1 P4 eq_refl); auto.
  - destruct (hevc_parse_extra_data data) as [[[v s] p]| | |] eqn:E; [| | |congruence].
    + cbn [bind]. pose proof (hevc_extra_blank_unit _ _ _ _ B E) as Bl. destruct (hevc_parse_raw _ _ _ _ B E) as (m & n & q & -> & -> & -> & Rm & Rn & Rq).
      assert (Be : bytes_ok (((sc true ++ m) ++ sc true ++ n) ++ sc true ++ q)) by (apply bytes_ok_app; split; [apply bytes_ok_app; split|]; now apply raw_bytes). destruct (C38_extra_panics_iff _ Be) as (_ & Pe & _ & Fe).
      rewrite Z.eqb_refl. change (AVCodecIdH265 =? AVCodecIdH264) with false. cbn iota. destruct (hevc_parse_extra_data (((sc true ++ m) ++ sc true ++ n) ++ sc true ++ q)) as [[[v' s'] p']| | |] eqn:E'; [| | |congruence].
      * right. eexists. split; [reflexivity|]. repeat split; try discriminate. intros e Ee. assert (e = ((sc true ++ m) ++ sc true ++ n) ++ sc true ++ q) as -> by congruence. clear Ee. eexists. split; [reflexivity|]. rewrite E'. cbn [bind]. destruct (hevc_parse_raw _ _ _ _ Be E') as (m' & n' & q' & -> & -> & _). unfold new_hevc_codec_data.
        destruct (C83_hevc_sps_total (sc true ++ n')) as [->|[i ->]]; [rewrite zlen_app; pose proof (zlen_nonneg n'); change (zlen (sc true)) with 4; lia|cbn; split; discriminate..].
      * right. eexists. split; [reflexivity|]. repeat split; try discriminate. intros e Ee. assert (e = ((sc true ++ m) ++ sc true ++ n) ++ sc true ++ q) as -> by congruence. clear Ee. eexists. split; [reflexivity|]. rewrite E'. split; discriminate.
      * left. right. split; [reflexivity|]. right. right. do 3 eexists. split; [reflexivity|]. apply Bl. destruct (proj1 Pe eq_refl) as [L|X]; [|exact X]. exfalso. rewrite !zlen_app in L. change (zlen (sc true)) with 4 in L. pose proof (zlen_nonneg m). pose proof (zlen_nonneg n). pose proof (zlen_nonneg q). lia.
    + right. eexists. split; [reflexivity|]. repeat split; discriminate.
    + left. right. split; [reflexivity|]. destruct (proj1 P5 eq_refl); auto.
  - right. eexists. split; [reflexivity|]. repeat split; discriminate.
Qed.

Lemma key_panics_panic o d buf id data dts pts : bytes_ok data -> wf d -> (forall i, ~ In (i, buf) (dm_map d)) -> dm_completed d = false -> get_pack_type (dm_name d) = PacketTypeAnnexB ->
  key_panics id data -> on_video_packet o d buf id data true dts pts = Panic.
Proof.
  intros B W N C PT K. unfold on_video_packet. destruct (find_track_total o d buf W) as (r & R). rewrite R. cbn [bind].
  apply find_track_cases in R as [(-> & _)|(i & s & -> & I & _)]; [|now apply N in I]. rewrite C, PT. change (negb false && (PacketTypeAnnexB =? PacketTypeAnnexB)) with true. cbn iota.
  assert (exists tb, get_timebase (dm_name d) = Ok tb) as (tb & G).
  { revert PT. clear. unfold get_pack_type, get_timebase. destruct (_ =? "flv")%string; [discriminate|]. cbn [orb].
    destruct (_ =? "jt1078")%string; [intros _; eexists; reflexivity|]. destruct (_ =? "ps")%string; [intros _; eexists; reflexivity|]. destruct (_ =? "ts")%string; [intros _; eexists; reflexivity|intros X; discriminate X]. }
  destruct (C38_extra_panics_iff data B) as (P4 & P5 & _). unfold extract_video_extra_data.
  destruct K as [[-> K]|[-> K]].
  - rewrite Z.eqb_refl. destruct K as [K|[K|(s & p & E & K)]]; [rewrite (proj2 P4) by auto; reflexivity|rewrite (proj2 P4) by auto; reflexivity|].
    rewrite E. cbn [bind]. rewrite G. cbn [bind]. unfold create_video_track, generate_video_codec_data. rewrite PT. change (PacketTypeAnnexB =? PacketTypeAVCC) with false. rewrite Z.eqb_refl. cbn iota.
    destruct (avc_parse_raw _ _ _ B E) as (n & q & En & Eq & Rn & Rq). assert (Be : bytes_ok (s ++ p)) by (rewrite En, Eq; apply bytes_ok_app; split; now apply raw_bytes).
    destruct (C38_extra_panics_iff _ Be) as (Pe & _). rewrite (proj2 Pe) by (right; now apply (avc_extra_blank_unit _ _ _ B E)). reflexivity.
  - change (AVCodecIdH264 =? AVCodecIdH265) with false. rewrite Z.eqb_refl. destruct K as [K|[K|(v & s & p & E & K)]]; [rewrite (proj2 P5) by auto; reflexivity|rewrite (proj2 P5) by auto; reflexivity|].
    rewrite E. cbn [bind]. rewrite G. cbn [bind]. unfold create_video_track, generate_video_codec_data. rewrite PT. change (PacketTypeAnnexB =? PacketTypeAVCC) with false. change (AVCodecIdH265 =? AVCodecIdH264) with false. rewrite Z.eqb_refl. cbn iota.
    destruct (hevc_parse_raw _ _ _ _ B E) as (m & n & q & Em & En & Eq & Rm & Rn & Rq). assert (Be : bytes_ok ((v ++ s) ++ p)) by (rewrite Em, En, Eq; apply bytes_ok_app; split; [apply bytes_ok_app; split|]; now apply raw_bytes).
    destruct (C38_extra_panics_iff _ Be) as (_ & Pe & _). rewrite (proj2 Pe) by (right; now apply (hevc_extra_blank_unit _ _ _ _ B E)). reflexivity.
Qed.

Theorem C72_video_panics_iff : forall name h d evs o buf id data key dts pts, Forall (fun x => well_behaved x /\ packet_driven x) h -> run (dm_new name) h = Ok (d, evs) -> dm_handler d = true -> oracle_ok o -> bytes_ok data ->
  let bad := key = true /\ (forall i, ~ In (i, buf) (dm_map d)) /\ dm_completed d = false /\ get_pack_type name = PacketTypeAnnexB /\ key_panics id data in
  (step o d (OpVideo buf id data key dts pts) = Panic <-> bad) /\
  (~ bad -> exists r, step o d (OpVideo buf id data key dts pts) = Ok r).
Proof.
  intros name h d evs o buf id data key dts pts F R Hd O B.
  assert (F1 : Forall well_behaved h) by (eapply Forall_impl; [|exact F]; intros x [X _]; exact X).
  assert (F2 : Forall (fun x => op_hook_ok x /\ packet_driven x) h) by (eapply Forall_impl; [|exact F]; intros x [[_ X] Y]; auto).
  destruct (reach_driven _ _ _ _ F2 R) as (_ & Nm & Rp). rewrite <- Nm in Rp. assert (W : live d) by (eapply reach_live; eauto). intros bad. cbn [step].
  assert (D : (key = true -> (exists i, In (i, buf) (dm_map d)) \/ dm_completed d = true \/ get_pack_type (dm_name d) <> PacketTypeAnnexB \/ key_ok id data) \/ bad).
  { destruct key; [|left; discriminate]. destruct (key_cases id data B) as [K|K]; [|auto]. destruct (dm_completed d) eqn:C; [auto|]. destruct (Z.eq_dec (get_pack_type (dm_name d)) PacketTypeAnnexB) as [P|P]; [|left; auto].
    assert (Dm : (exists i, In (i, buf) (dm_map d)) \/ (forall i, ~ In (i, buf) (dm_map d))).
    { clear. induction (dm_map d) as [|[i b] m IH]; [right; intros i []|]. destruct (Z.eq_dec b buf) as [->|N]; [left; exists i; now left|]. destruct IH as [(j & J)|IH]; [left; exists j; now right|right].
      intros j [E|J]; [congruence|exact (IH j J)]. }
    destruct Dm as [I|N]; [auto|]. right. unfold bad. rewrite <- Nm. auto. }
  split; [split|].
  - intros E. destruct D as [D|D]; [|exact D]. destruct (video_total o d buf id data key dts pts O W Hd Rp D) as (r & X). congruence.
  - intros (-> & N & C & P & K). apply key_panics_panic; auto; [apply W|congruence].
  - intros Nb. destruct D as [D|D]; [|contradiction]. now apply video_total.
Qed.
Print Assumptions C72_video_panics_iff.
Example C72_example_iff : key_panics AVCodecIdH264 sps_end.
Proof. left. split; [reflexivity|]. right. right. do 2 eexists. split; [vm_compute; reflexivity|]. exists (sc true ++ sps_y). reflexivity. Qed.
Print Assumptions C72_audio_no_panic.
Print Assumptions C72_video_no_panic_partial.
Example C72_example : exists d evs d' e, run (dm_new "ps") (calls [OpSetHandler]) = Ok (d, evs) /\ step o0 d (OpVideo 0 AVCodecIdH264 (annexb [(true, sps_y); (true, pps_x); (false, [101; 1; 2])]) true 0 0) = Ok (d', e) /\
  zlen (dm_tracks d') = 1 /\ zlen (accepted e) = 1.
Proof. do 4 eexists. split; [vm_compute; reflexivity|]. split; [vm_compute; reflexivity|]. split; reflexivity. Qed.

(** * PropertiesRecordChoice: C134, a recording is fixed by the calls. *)
From Coq Require Import String List Permutation Sorted Lia.
From Verif Require Import Base CollectionsSpec NaluModel AacModel UtilModel PacketModel DemuxModel HandlerModel DeliverySpec DeliveryProofs SystemSpec HandlerSpec DemuxProofs HandlerProofs BlockQueueProofs SystemGrowSpec RecordingModel
  PropertiesDemux PropertiesHandler PropertiesSps PropertiesUnitsOut PropertiesSystemGrow PropertiesRecording DetermSpec DetermProofs PropertiesDeterm RecordChoiceProofs SmallProofs.
Import ListNotations.
Local Open Scope list_scope.

(* ---------------------------------------------------------------------------------------- *)
(** ** C134 The choices of the runtime and the cutting of the input do not show in the files *)
(** Two sessions with the same calls: one is recorded to its end exactly if the other is. The files of streams with increasing times are then the same; if this holds of all streams, all files are. *)
Theorem C134_record : forall path k name h h' d evs, Forall well_behaved h -> Forall well_behaved h' -> Forall2 same_call h h' -> apart name h -> run (dm_new name) h = Ok (d, evs) ->
  exists d' evs', run (dm_new name) h' = Ok (d', evs') /\ dm_tracks d' = dm_tracks d /\
    ((exists f, fh_session path (fh_start k) evs = Ok f) <-> (exists f, fh_session path (fh_start k) evs' = Ok f)) /\
    forall f f', fh_session path (fh_start k) evs = Ok f -> fh_session path (fh_start k) evs' = Ok f' -> aligned evs ->
      (forall j s n, nth_error (dm_tracks d) j = Some s -> file_name path s = Ok n -> ascending (of_index (Z.of_nat j) (accepted evs)) -> fh_disk f n = fh_disk f' n) /\
      ((forall j, ascending (of_index (Z.of_nat j) (accepted evs))) -> forall n, fh_disk f n = fh_disk f' n).
Proof.
  intros path k name h h' d evs W W' C A R.
  assert (S : Forall sorting h) by (eapply Forall_impl; [|exact W]; intros x X; exact (proj1 X)). assert (S' : Forall sorting h') by (eapply Forall_impl; [|exact W']; intros x X; exact (proj1 X)).
  destruct (C131_stream _ _ _ _ _ S S' C A R) as (d' & evs' & R' & D & E & _ & St). exists d', evs'. split; [exact R'|].
  assert (T : dm_tracks d' = dm_tracks d /\ dm_completed d' = dm_completed d) by (destruct D as [-> _]; split; reflexivity). destruct T as [T Cd]. split; [exact T|]. split.
  - rewrite (session_total path k _ _ _ _ W R), (session_total path k _ _ _ _ W' R'). rewrite T. pose proof (same_delivered _ _ E) as P.
    assert (H : forall p q, untyped p = untyped q -> (exists m, media_string (pk_media p) = Ok m) /\ (exists w, writes_of (dm_tracks d) p w) -> (exists m, media_string (pk_media q) = Ok m) /\ (exists w, writes_of (dm_tracks d) q w)).
    { intros p q U [[m M] [w Hw]]. split; [exists m; destruct (untyped_fields _ _ U) as (_ & <- & _); exact M|exists w; exact (writes_untyped _ _ _ _ U Hw)]. }
    split; [apply (perm_forall _ _ _ H P)|apply (perm_forall _ _ _ H (Permutation_sym P))].
  - intros f f' Ef Ef' Al. destruct (session_spec _ _ _ _ _ _ _ R Ef) as (ws & F & In1 & Out1). destruct (session_spec _ _ _ _ _ _ _ R' Ef') as (ws' & F' & In2 & Out2). rewrite T in *. rewrite Cd in *.
    assert (X : forall j s n, nth_error (dm_tracks d) j = Some s -> file_name path s = Ok n -> ascending (of_index (Z.of_nat j) (accepted evs)) -> fh_disk f n = fh_disk f' n).
    { intros j s n J Fn As. destruct (dm_completed d).
      - rewrite (In1 eq_refl j s n J Fn), (In2 eq_refl j s n J Fn). destruct (written_index _ j _ _ F) as (vs & G & ->). destruct (written_index _ j _ _ F') as (vs' & G' & ->).
        now rewrite (writes_same _ _ _ _ _ (St Al j As) G G').
      - rewrite Out1, Out2 by now left. reflexivity. }
    split; [exact X|]. intros As n. destruct (named path (dm_tracks d) n) as [(j & s & J & Fn)|N]; [now apply (X j s n)|]. rewrite Out1, Out2 by now right. reflexivity.
Qed.
(** With real stream buffers, in a session whose tracks are opened by packets: neither the choices of the runtime nor the pieces in which the data of a packet is written into its buffer
    make a difference, as long as nothing overflows. *)
Theorem C134_memory : forall path k name o o' c c' l l', let h := map fst l in let h' := map fst l' in
  Forall well_behaved ((o, OpSetAutoFree true) :: h) -> Forall well_behaved ((o', OpSetAutoFree true) :: h') -> Forall delivery_op h -> Forall packet_driven h ->
  Forall2 same_call ((o, OpSetAutoFree true) :: h) ((o', OpSetAutoFree true) :: h') ->
  sys_fits (sys_new name) (((o, OpSetAutoFree true), c) :: l) -> sys_fits (sys_new name) (((o', OpSetAutoFree true), c') :: l') ->
  forall d evs, run (dm_new name) ((o, OpSetAutoFree true) :: h) = Ok (d, evs) -> (forall j, ascending (of_index (Z.of_nat j) (accepted evs))) ->
  forall y f, rec_run path (sys_new name) (fh_start k) (((o, OpSetAutoFree true), c) :: l) = Ok (y, f) ->
  exists y' f', rec_run path (sys_new name) (fh_start k) (((o', OpSetAutoFree true), c') :: l') = Ok (y', f') /\ forall n, fh_disk f n = fh_disk f' n.
Proof.
  intros path k name o o' c c' l l' h h' W W' D P C Fi Fi' d evs R As y f E.
  assert (Pd : Forall (fun x => op_hook_ok x /\ packet_driven x) ((o, OpSetAutoFree true) :: h)).
  { constructor; [split; [exact I|reflexivity]|]. apply Forall_forall. intros x X. apply Forall_inv_tail in W. rewrite Forall_forall in W, P. split; [exact (proj2 (W x X))|exact (P x X)]. }
  assert (C' : Forall2 same_call h h') by now inversion C.
  assert (D' : Forall delivery_op h').
  { clear -C' D. induction C' as [|[x1 x2] [y1 y2] a b [Q _] _ IH]; [constructor|]. apply Forall_cons_iff in D as [D1 D2]. constructor; [|now apply IH]. cbn [snd] in Q. subst y2. exact D1. }
  assert (P' : Forall packet_driven h').
  { clear -C' P. induction C' as [|[x1 x2] [y1 y2] a b [Q _] _ IH]; [constructor|]. apply Forall_cons_iff in P as [D1 D2]. constructor; [|now apply IH]. cbn [snd] in Q. subst y2. exact D1. }
  destruct (C134_record path k name _ _ d evs W W' C (C131_driven name _ Pd) R) as (d' & evs' & R' & _ & Ok' & Same).
  destruct (reach_driven name _ d evs Pd R) as ((Al & _ & N) & _).
  assert (Pd' : Forall (fun x => op_hook_ok x /\ packet_driven x) ((o', OpSetAutoFree true) :: h')).
  { constructor; [split; [exact I|reflexivity]|]. apply Forall_forall. intros x X. apply Forall_inv_tail in W'. rewrite Forall_forall in W', P'. split; [exact (proj2 (W' x X))|exact (P' x X)]. }
  destruct (reach_driven name _ d' evs' Pd' R') as ((Al' & _ & N') & _).
  destruct (C122_recorded path k name o c l d evs W D R Al N Fi) as (y1 & _ & E1). destruct (C122_recorded path k name o' c' l' d' evs' W' D' R' Al' N' Fi') as (y2 & _ & E2).
  rewrite E1 in E. destruct (fh_session path (fh_start k) evs) as [f1| | |] eqn:Ef; cbn [bind] in E; try discriminate E. injection E as <- <-.
  destruct (proj1 Ok' (ex_intro _ f1 eq_refl)) as [f2 Ef2]. exists y2, f2. rewrite E2, Ef2. split; [reflexivity|]. destruct (Same f1 f2 eq_refl Ef2 Al) as [_ X]. exact (X As).
Qed.
(** Packets of one stream with equal times: which of them comes first in the file is left to sort.Slice. *)
Definition C134_ties_calls (o : oracle) : list (oracle * op) := map (pair o) [OpSetHandler; OpAudio 0 G711A [1] 10; OpAudio 0 G711A [2] 10; OpAudio 0 G711A [3] 20; OpProbeComplete].
Theorem C134_ties : exists h h' d evs d' evs' f f', Forall well_behaved h /\ Forall well_behaved h' /\ Forall2 same_call h h' /\ apart "ts" h /\
  run (dm_new "ts") h = Ok (d, evs) /\ run (dm_new "ts") h' = Ok (d', evs') /\ aligned evs /\ fh_session "t" (fh_start empty_disk) evs = Ok f /\ fh_session "t" (fh_start empty_disk) evs' = Ok f' /\
  fh_disk f "t.audio.0.PCMA"%string = [1; 2] /\ fh_disk f' "t.audio.0.PCMA"%string = [2; 1].
Proof.
  exists (C134_ties_calls o0), (C134_ties_calls o_other). do 6 eexists. split; [repeat (constructor; [split; [apply o0_ok|exact I]|]); constructor|]. split; [repeat (constructor; [split; [apply other_ok|exact I]|]); constructor|].
  split; [repeat constructor|]. split; [apply C131_driven; repeat (constructor; [split; [exact I|reflexivity]|]); constructor|]. split; [vm_compute; reflexivity|]. split; [vm_compute; reflexivity|].
  split; [repeat (constructor; [first [exact I|cbn; lia]|]); constructor|]. split; [vm_compute; reflexivity|]. split; [vm_compute; reflexivity|]. split; vm_compute; reflexivity.
Qed.
(** Two streams with packets at the same times: the orders of delivery differ, the files do not. *)
Definition C134_calls (o : oracle) : list (oracle * op) :=
  map (pair o) [OpSetHandler; OpAudio 0 G711A [1] 10; OpAudio 1 G711A [7] 10; OpAudio 0 G711A [2] 20; OpAudio 1 G711A [8] 20; OpAudio 0 G711A [3] 30; OpAudio 1 G711A [9] 30; OpProbeComplete].
Definition C134_files (o : oracle) :=
  ('(_, e) <- run (dm_new "ts") (C134_calls o);; f <- fh_session "t" (fh_start empty_disk) e;; Ok (map pk_data (delivered e), fh_disk f "t.audio.0.PCMA"%string, fh_disk f "t.audio.1.PCMA"%string)).
Definition C134_cut (o : oracle) (cut : list Z -> list (list Z)) : list call :=
  ((o, OpSetAutoFree true), []) :: map (fun a => ((o, a), match call_block a with Some (_, data) => cut data | None => [] end))
    [OpSetHandler; OpAudio 0 G711A [1; 2; 3] 10; OpAudio 1 G711A [7; 7] 10; OpAudio 0 G711A [4; 5] 20; OpAudio 1 G711A [8; 8; 8] 20; OpAudio 0 G711A [6] 30; OpAudio 1 G711A [9] 30; OpProbeComplete].
Definition C134_recorded (o : oracle) (cut : list Z -> list (list Z)) :=
  ('(_, f) <- rec_run "t" (sys_new "ts") (fh_start empty_disk) (C134_cut o cut);; Ok (fh_disk f "t.audio.0.PCMA"%string, fh_disk f "t.audio.1.PCMA"%string)).
Example C134_memory_example : sys_fits (sys_new "ts") (C134_cut o0 (fun d => [d])) /\ sys_fits (sys_new "ts") (C134_cut o_other (map (fun b => [b]))) /\
  C134_recorded o0 (fun d => [d]) = Ok ([1; 2; 3; 4; 5], [7; 7; 8; 8; 8]) /\ C134_recorded o_other (map (fun b => [b])) = Ok ([1; 2; 3; 4; 5], [7; 7; 8; 8; 8]).
Proof.
  small_run E F "t"%string (fh_start empty_disk) "ts"%string (C134_cut o0 (fun d => [d])) o0_ok. small_run E' F' "t"%string (fh_start empty_disk) "ts"%string (C134_cut o_other (map (fun b => [b]))) other_ok.
  split; [exact F|]. split; [exact F'|]. unfold C134_recorded. split; [rewrite E|rewrite E']; vm_compute; reflexivity.
Qed.
Example C134_example : C134_files o0 = Ok ([[1]; [7]; [2]; [8]], [1; 2], [7; 8]) /\ C134_files o_other = Ok ([[7]; [1]; [8]; [2]], [1; 2], [7; 8]).
Proof. split; vm_compute; reflexivity. Qed.
Print Assumptions C134_record.
Print Assumptions C134_memory.
Print Assumptions C134_ties.

(** * PropertiesRecording: C122, what the recorded files hold. *)
From Verif Require Import Base CollectionsSpec BlockModel BlockSpec PacketModel DemuxModel DemuxProofs DeliverySpec DeliveryProofs HandlerModel HandlerSpec HandlerProofs PropertiesDemux PropertiesDelivery
  PropertiesHandler SystemSpec SystemProofs PropertiesSystem SystemGrowSpec SystemGrowProofs PropertiesSystemGrow RecordingModel RecordingProofs SmallProofs.
From Coq Require Import String Sorted List.
Import ListNotations.
Local Open Scope list_scope.

(* ---------------------------------------------------------------------------------------- *)
(** ** C122 A recording holds the bytes that were written *)
(** False for an arbitrary load: C97_over fills the audio buffer exactly while a packet waits, and the file gets a byte of the block
    written last (4) at the place of the first byte of the second packet (2). *)
Lemma C122_over_file : ('(_, f) <- rec_run "t" (sys_new "ps") (fh_start empty_disk) C97_over;;
  Ok (let c := fh_disk f "t.audio.0.PCMA"%string in (zlen c, idx c 230399, idx c 230400, idx c 230401))) = Ok (460800, Some 1, Some 4, Some 2).
Proof. vm_compute. reflexivity. Qed.
Lemma C122_over_value : ('(d, evs) <- run (dm_new "ps") (map fst C97_over);; Ok (dm_completed d, map (file_name "t") (dm_tracks d),
  let c := concat (map pk_data (removelast (of_index 0 (accepted evs)))) in idx c 230400)) = Ok (true, [Ok "t.audio.0.PCMA"%string], Some 2).
Proof. vm_compute. reflexivity. Qed.
Theorem C122_recorded_refuted : exists name l d evs y f s n, Forall well_behaved (map fst l) /\ Forall delivery_op (map fst l) /\ Forall packet_driven (map fst l) /\
  Forall (fun c => match call_block (snd (fst c)) with Some (_, data) => concat (snd c) = data /\ snd c <> [] | None => True end) l /\
  run (dm_new name) (map fst l) = Ok (d, evs) /\ rec_run "t" (sys_new name) (fh_start empty_disk) l = Ok (y, f) /\
  dm_completed d = true /\ dm_tracks d = [s] /\ file_name "t" s = Ok n /\ fh_disk f n <> concat (map pk_data (removelast (of_index 0 (accepted evs)))).
Proof.
  pose proof C122_over_file as H1. pose proof C122_over_value as H2.
  destruct (rec_run "t" (sys_new "ps") (fh_start empty_disk) C97_over) as [[y f]| | |] eqn:E1; cbn [bind] in H1; try discriminate H1.
  destruct (run (dm_new "ps") (map fst C97_over)) as [[d evs]| | |] eqn:E2; cbn [bind] in H2; try discriminate H2.
  injection H2 as C T V. destruct (dm_tracks d) as [|s [|]] eqn:Et; try discriminate T. cbn [map] in T. injection T as T.
  exists "ps"%string, C97_over, d, evs, y, f, s, "t.audio.0.PCMA"%string.
  split; [|split; [|split; [|split]]].
  1-3: unfold C97_over; cbn [map fst]; repeat (apply Forall_cons; [try (split; [exact o0_ok|]); try exact Logic.I; reflexivity|]); apply Forall_nil.
  - unfold C97_over. repeat (apply Forall_cons; [cbn [call_block fst snd]; first [exact Logic.I|split; [cbn [concat]; rewrite ?app_nil_r; reflexivity|discriminate]]|]); apply Forall_nil.
  - split; [exact E2|]. split; [exact E1|]. split; [exact C|]. split; [exact Et|]. split; [exact T|]. intros X. cbv zeta in H1. rewrite X in H1. injection H1 as _ _ H1 _. congruence.
Qed.
Print Assumptions C122_recorded_refuted.

(** Under the conditions of C115 the file handler on real stream buffers does what it does on packets that hold their data by value
    ([fh_session], C88), for every path and whatever is on the disk: the same files, or the same failure. *)
Theorem C122_recorded : forall path k name o0 c0 l d evs, let h := map fst l in
  Forall well_behaved ((o0, OpSetAutoFree true) :: h) -> Forall delivery_op h -> run (dm_new name) ((o0, OpSetAutoFree true) :: h) = Ok (d, evs) ->
  aligned evs -> NoDup (map snd (dm_map d)) ->
  sys_fits (sys_new name) (((o0, OpSetAutoFree true), c0) :: l) ->
  exists y, sy_dm y = d /\ rec_run path (sys_new name) (fh_start k) (((o0, OpSetAutoFree true), c0) :: l) = (f <- fh_session path (fh_start k) evs;; Ok (y, f)).
Proof.
  intros path k name o c0 l d evs h F D R Al N Su. destruct (reach_rec path (fh_start k) name o c0 l d evs F D R Al N Su) as (y & out & _ & Sy & _ & E). exists y. split; [apply Sy|exact E].
Qed.
(** The file of a track that is not video, when tracks are created from packets only and its timestamps ascend: the data of all
    packets accepted for the track but the last, one after the other, and behind them what the file held before. *)
Theorem C122_file_partial : forall path k name o0 c0 l d evs y f, let h := map fst l in
  Forall well_behaved ((o0, OpSetAutoFree true) :: h) -> Forall delivery_op h -> Forall packet_driven h -> run (dm_new name) ((o0, OpSetAutoFree true) :: h) = Ok (d, evs) ->
  sys_fits (sys_new name) (((o0, OpSetAutoFree true), c0) :: l) ->
  rec_run path (sys_new name) (fh_start k) (((o0, OpSetAutoFree true), c0) :: l) = Ok (y, f) -> dm_completed d = true ->
  forall j s n, nth_error (dm_tracks d) j = Some s -> file_name path s = Ok n ->
  let own := of_index (Z.of_nat j) (accepted evs) in
  Forall (fun p => pk_media p <> AVMediaTypeVideo) own -> ascending own ->
  let c := concat (map pk_data (removelast own)) in fh_disk f n = c ++ skipn (length c) (k n).
Proof.
  intros path k name o c0 l d evs y f h W D P R Su E Cd j s n J Fn own M As c. destruct (reach_driven name ((o, OpSetAutoFree true) :: h) d evs) as ((Al & _ & N) & _); auto.
  - apply Forall_cons; [split; [exact Logic.I|reflexivity]|]. inversion W as [|x l' _ W2]; subst. clear -W2 P. subst h. induction W2 as [|x l' [_ H] _ IH]; constructor.
    + now apply Forall_inv in P.
    + apply IH. now apply Forall_inv_tail in P.
  - destruct (C122_recorded path k name o c0 l d evs W D R Al N Su) as (y' & _ & E'). rewrite E in E'. destruct (fh_session path (fh_start k) evs) as [f'| | |] eqn:S; cbn [bind] in E'; try discriminate.
    injection E' as -> ->. destruct (C88_session_partial _ _ _ _ _ _ _ R S) as (ws & Fw & A & _). rewrite (A Cd j s n J Fn).
    pose proof (C67_order_partial name _ d evs (Forall_impl sorting (fun x => @proj1 _ _) W) R Al j As) as O. rewrite Cd in O. fold own in O.
    assert (Ew : written (delivered evs) ws j = c).
    { rewrite (written_plain _ _ _ _ Fw).
      - rewrite O. unfold c. now rewrite !map_removelast, (proj1 (durs_data _)).
      - rewrite O. assert (Md : Forall (fun p => pk_media p <> AVMediaTypeVideo) (durs own)).
        { apply (proj1 (Forall_map pk_media (fun m => m <> AVMediaTypeVideo) _)). rewrite (proj2 (durs_data _)). now apply Forall_map. }
        revert Md. destruct (durs own) as [|x t] using rev_ind; [auto|]. rewrite removelast_last. intros Md. now apply Forall_app in Md as [Md _]. }
    now rewrite Ew.
Qed.
Print Assumptions C122_recorded.
Print Assumptions C122_file_partial.

(** Two audio buffers, blocks in several pieces: both files, over an old one for the first track. *)
Definition C122_disk : disk := fun n => if (n =? "t.audio.0.PCMA")%string then [91; 92; 93; 94; 95; 96; 97] else [].
Example C122_example : sys_fits (sys_new "ts") C97_calls /\
  ('(_, f) <- rec_run "t" (sys_new "ts") (fh_start C122_disk) C97_calls;; Ok (map fst (fh_files f), map (fh_disk f) ["t.audio.0.PCMA"; "t.audio.1.PCMA"; "t.audio.2.PCMA"]%string)) =
  Ok (["t.audio.0.PCMA"; "t.audio.1.PCMA"]%string, [[1; 2; 3; 5; 5; 96; 97]; [4]; []]).
Proof. small_run E F "t"%string (fh_start C122_disk) "ts"%string C97_calls o0_ok. split; [exact F|]. rewrite E. vm_compute. reflexivity. Qed.

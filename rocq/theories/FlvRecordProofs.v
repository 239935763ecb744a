(** * FlvRecordProofs: the file of a track in terms of the calls of its buffer, for any container. *)
From Coq Require Import String List Sorted.
From Verif Require Import Base NaluModel NaluSpec PacketModel PacketProofs DemuxModel DemuxProofs DeliverySpec DeliveryProofs TrackSpec TrackProofs PropertiesDemux PropertiesTracks PropertiesPacket HandlerModel HandlerSpec HandlerProofs
  PropertiesHandler SystemSpec SystemGrowSpec RecordingModel RecordingProofs PropertiesRecording IntakeSpec IntakeProofs RecordedSpec RecordedProofs FlvRecordSpec.
Import ListNotations.
Local Open Scope list_scope.

Lemma written_by tracks j (g : payload -> list Z) : forall ps ws, Forall2 (writes_of tracks) ps ws ->
  Forall (fun p => forall w, writes_of tracks p w -> List.concat w = g (payload_of p)) (of_index (Z.of_nat j) ps) ->
  written ps ws j = List.concat (map g (map payload_of (of_index (Z.of_nat j) ps))).
Proof.
  unfold written, of_index. induction 1 as [|p w ps ws Hw _ IH]; intros F; [reflexivity|]. cbn [combine filter fst] in *. rewrite (Z.eqb_sym (Z.of_nat j)).
  destruct (Z.eqb_spec (pk_index p) (Z.of_nat j)) as [Ei|]; [|now apply IH]. apply Forall_cons_iff in F as [Fp F]. cbn [map snd List.concat]. rewrite concat_app, IH by exact F. f_equal. now apply Fp.
Qed.

Lemma file_by path k name o c0 l d evs y f (g : payload -> list Z) : let h := map fst l in
  oracle_ok o -> Forall sorting h -> Forall no_hook h -> Forall delivery_op h -> run (dm_new name) ((o, OpSetAutoFree true) :: h) = Ok (d, evs) ->
  aligned evs -> NoDup (map snd (dm_map d)) ->
  sys_fits (sys_new name) (((o, OpSetAutoFree true), c0) :: l) ->
  rec_run path (sys_new name) (fh_start k) (((o, OpSetAutoFree true), c0) :: l) = Ok (y, f) -> dm_completed d = true ->
  forall j s n b, nth_error (dm_tracks d) j = Some s -> In (Z.of_nat j, b) (dm_map d) -> file_name path s = Ok n ->
  StronglySorted Z.lt (map payload_dts (for_buffer b (payloads h))) ->
  (forall p w, fresh p -> pk_type p = get_pack_type name \/ pk_media p <> AVMediaTypeVideo -> pk_index p = Z.of_nat j -> In (payload_of p) (for_buffer b (payloads h)) -> writes_of (dm_tracks d) p w -> List.concat w = g (payload_of p)) ->
  exists refused kept, for_buffer b (payloads h) = refused ++ kept /\
    ((forall x t, for_buffer b (payloads h) = x :: t -> opens name x -> refused = []) /\ kept = for_buffer b (map payload_of (accepted evs))) /\
    let c := List.concat (map g (removelast kept)) in fh_disk f n = c ++ skipn (length c) (k n).
Proof.
  intros h Oo So Nh D R Al N Su E Cd j s n b J Jb Fn As G.
  assert (Nh' : Forall no_hook ((o, OpSetAutoFree true) :: h)) by (constructor; [exact Logic.I|exact Nh]).
  assert (So' : Forall sorting ((o, OpSetAutoFree true) :: h)) by (constructor; [exact Oo|exact So]).
  assert (W : Forall well_behaved ((o, OpSetAutoFree true) :: h)).
  { apply Forall_forall. intros [o1 a1] I1. rewrite Forall_forall in So', Nh'. split; [now apply So'|]. specialize (Nh' _ I1). unfold op_hook_ok, no_hook in *. cbn [snd] in *. destruct a1; auto. destruct f0; [contradiction|exact Logic.I]. }
  pose proof (run_wf _ _ _ _ (wf_new name) R) as Wf. destruct (reach_packets _ _ _ _ Nh' R) as [_ Pok]. pose proof (reach_fresh _ _ _ _ Nh' R) as Fr.
  destruct (reach_intake _ _ _ _ Nh' R b) as [(refused & Ei) Fst]. change (payloads ((o, OpSetAutoFree true) :: h)) with (payloads h) in *.
  exists refused, (for_buffer b (map payload_of (accepted evs))). split; [exact Ei|]. split; [split; [|reflexivity]|].
  { intros x t Ex O. rewrite Ex in Fst. destruct (Fst O) as [K|[_ K]]; [|exfalso; now apply (K (Z.of_nat j))]. rewrite K, <- Ex in Ei. pose proof (f_equal (@length _) Ei) as L. rewrite app_length in L. destruct refused; [reflexivity|cbn in L; lia]. }
  destruct (C122_recorded path k name o c0 l d evs W D R Al N Su) as (y' & _ & E'). rewrite E in E'. destruct (fh_session path (fh_start k) evs) as [f'| | |] eqn:S; cbn [bind] in E'; try discriminate.
  injection E' as -> ->. destruct (C88_session_partial _ _ _ _ _ _ _ R S) as (ws & Fw & A & _). cbv zeta. rewrite (A Cd j s n J Fn).
  assert (Ob : map payload_of (of_index (Z.of_nat j) (accepted evs)) = for_buffer b (map payload_of (accepted evs))).
  { apply (of_index_buffer d); auto. eapply Forall_impl; [|exact Pok]. intros p (_ & s' & _ & _ & H). exact H. }
  assert (As' : ascending (of_index (Z.of_nat j) (accepted evs))).
  { unfold ascending, dts_lt. apply (sorted_map pk_dts). rewrite Ei, map_app in As. apply sorted_app_r in As. rewrite <- Ob, map_map in As. exact As. }
  pose proof (C67_order_partial name _ d evs (Forall_impl sorting (fun x => @proj1 _ _) W) R Al j As') as O. rewrite Cd in O.
  assert (Ew : written (delivered evs) ws j = List.concat (map g (removelast (for_buffer b (map payload_of (accepted evs)))))).
  { rewrite (written_by _ _ g _ _ Fw).
    - rewrite O, map_removelast, durs_payload, Ob. reflexivity.
    - apply Forall_forall. intros p Ip w Hw. apply filter_In in Ip as [Ip Ij]. destruct (delivered_accepted _ _ _ _ _ So' R Ip) as (q & Iq & Eq).
      assert (Ep : payload_of p = payload_of q) by (injection Eq; intros; unfold payload_of; congruence).
      assert (Ix : pk_index q = Z.of_nat j) by (apply Z.eqb_eq in Ij; injection Eq; congruence).
      apply G; auto.
      + rewrite Forall_forall in Fr. specialize (Fr _ Iq). unfold fresh in *. injection Eq. intros. destruct Fr. split; congruence.
      + rewrite Forall_forall in Pok. destruct (Pok _ Iq) as [T _]. destruct (Z.eq_dec (pk_media q) AVMediaTypeVideo) as [M|M]; [left|right; injection Eq; congruence].
        transitivity (pk_type q); [injection Eq; congruence|]. first [exact T|now apply T].
      + apply Z.eqb_eq in Ij. exact Ij.
      + rewrite Ep, Ei. apply in_or_app. right. rewrite <- Ob. apply in_map. apply filter_In. split; [exact Iq|]. now apply Z.eqb_eq. }
  now rewrite Ew.
Qed.

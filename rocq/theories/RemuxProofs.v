(** * RemuxProofs: what a demuxer delivers, in terms of what was handed over. *)
From Coq Require Import List Sorted Lia.
From Verif Require Import Base NaluModel NaluSpec PacketModel PacketProofs DemuxModel DemuxProofs PropertiesDemux TrackSpec TrackProofs PropertiesTracks IntakeSpec IntakeProofs RecordedSpec RecordedProofs RecordSafeProofs PropertiesIntake
  RecordingProofs PropertiesPacket PropertiesRound RemuxSpec.
Import ListNotations.
Local Open Scope list_scope.

Lemma reach_no_avcc name h d evs : Forall no_hook h -> run (dm_new name) h = Ok (d, evs) -> Forall (fun p => pk_avcc p = None) (accepted evs).
Proof.
  intros F R. refine (proj2 (run_hist no_hook (fun h d evs => (wf d /\ dm_pre d = None) /\ Forall (fun p => pk_avcc p = None) (accepted evs)) (dm_new name) _ _ h d evs F R)).
  - split; [split; [apply wf_new|reflexivity]|constructor].
  - clear. intros h o a d evs d' e N _ ((W & P) & Fr) S. split; [split; [eapply step_wf; eauto|eapply step_pre; eauto]|]. rewrite accepted_app. apply Forall_app. split; [exact Fr|].
    destruct (step_made _ _ _ _ _ W S) as (d1 & _ & _ & _ & [->|(s & p & buf & -> & Md & _)]); [constructor|]. constructor; [|constructor]. assert (Fo : pk_avcc (pool_packet o) = None) by (unfold pool_packet; destruct (or_recycled o); reflexivity).
    destruct a; cbn [made] in Md; try contradiction; [|rewrite P in Md; cbn [apply_pre] in Md]; subst p; exact Fo.
Qed.
Lemma hooks_ok h : Forall sorting h -> Forall no_hook h -> Forall well_behaved h.
Proof.
  intros So Nh. apply Forall_forall. intros [o1 a1] I1. rewrite Forall_forall in So, Nh. split; [now apply So|]. specialize (Nh _ I1). unfold op_hook_ok, no_hook in *. cbn [snd] in *. destruct a1; auto. destruct f; [contradiction|exact Logic.I].
Qed.
(** What is delivered for a stream with increasing times: what was accepted for its buffer, except for the last packet. *)
Lemma delivered_sent name h d evs : Forall sorting h -> Forall no_hook h -> run (dm_new name) h = Ok (d, evs) -> aligned evs -> NoDup (map snd (dm_map d)) -> dm_completed d = true ->
  forall j b, In (Z.of_nat j, b) (dm_map d) -> StronglySorted Z.lt (map payload_dts (for_buffer b (map payload_of (accepted evs)))) ->
  map payload_of (of_index (Z.of_nat j) (delivered evs)) = removelast (for_buffer b (map payload_of (accepted evs))).
Proof.
  intros So Nh R Al N Cd j b Jb As. pose proof (run_wf _ _ _ _ (wf_new name) R) as Wf. destruct (reach_packets _ _ _ _ Nh R) as [_ Pok].
  assert (Ob : map payload_of (of_index (Z.of_nat j) (accepted evs)) = for_buffer b (map payload_of (accepted evs))).
  { apply (of_index_buffer d); auto. eapply Forall_impl; [|exact Pok]. intros p (_ & s' & _ & _ & H). exact H. }
  assert (As' : ascending (of_index (Z.of_nat j) (accepted evs))).
  { unfold ascending, dts_lt. apply (sorted_map pk_dts). rewrite <- Ob, map_map in As. exact As. }
  pose proof (C67_order_partial name _ d evs So R Al j As') as O. rewrite Cd in O. rewrite O, RecordingProofs.map_removelast, durs_payload, Ob. reflexivity.
Qed.
Lemma delivered_form name h d evs : Forall sorting h -> Forall no_hook h -> run (dm_new name) h = Ok (d, evs) -> forall p, In p (delivered evs) -> pk_media p = AVMediaTypeVideo ->
  pk_avcc p = None /\ pk_annexb p = None /\ pk_alloc p = None /\ pk_type p = get_pack_type name.
Proof.
  intros So Nh R p Ip Mp. destruct (delivered_facts _ _ _ _ So Nh R p Ip) as ((Fa & Fl) & _ & Ty & _). split; [|auto]. destruct (delivered_accepted _ _ _ _ _ So R Ip) as (q & Iq & Eq).
  pose proof (reach_no_avcc _ _ _ _ Nh R) as F. rewrite Forall_forall in F. rewrite <- (F q Iq). symmetry. exact (f_equal pk_avcc Eq).
Qed.
Lemma converts name p id l : In (name, 1) packing -> pk_media p = AVMediaTypeVideo -> pk_codec p = id -> is_h26x id = true -> pk_avcc p = None -> pk_alloc p = None -> pk_type p = get_pack_type name -> pk_data p = annexb l -> sendable l ->
  annexb_packet_to_avcc p = Ok (set_avcc p (avcc (map snd l)), avcc (map snd l)).
Proof.
  intros Pk M C H Na Nl T E (Ne & F & L). rewrite (packing_ok _ _ Pk) in T. apply (C57_annexb_packet_units p l); auto; [now rewrite C|unfold alloc_ok; now rewrite Nl].
Qed.
(** A function on the elements of a list without repetitions. *)
Lemma choose {A B K} (key : A -> K) (dec : forall x y : K, {x = y} + {x <> y}) (dflt : B) : forall (l : list A) (m : list B), length l = length m -> NoDup (map key l) -> exists f, map f l = m.
Proof.
  induction l as [|a l IH]; intros [|b m] L N; try discriminate L; [exists (fun _ => dflt); reflexivity|]. inversion N as [|? ? N1 N2]; subst. destruct (IH m) as [f E]; [now injection L|exact N2|].
  exists (fun x => if dec (key x) (key a) then b else f x). cbn [map]. destruct (dec (key a) (key a)) as [_|X]; [|congruence]. f_equal. rewrite <- E. apply map_ext_in. intros x I. destruct (dec (key x) (key a)) as [Q|_]; [|reflexivity].
  exfalso. apply N1. rewrite <- Q. now apply in_map.
Qed.
Lemma sorted_nodup l : StronglySorted Z.lt l -> NoDup l.
Proof. induction 1 as [|a l S IH F]; constructor; [|exact IH]. intros I. rewrite Forall_forall in F. specialize (F a I). lia. Qed.

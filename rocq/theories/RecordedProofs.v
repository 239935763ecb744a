(** * RecordedProofs: from the calls of a buffer to the file of its track. *)
From Coq Require Import String List Sorted.
From Verif Require Import Base NaluSpec PacketModel PacketProofs DemuxModel DemuxProofs TrackSpec TrackProofs PropertiesDemux PropertiesTracks HandlerModel HandlerSpec HandlerProofs IntakeSpec IntakeProofs
  RecordingProofs RecordedSpec.
Import ListNotations.
Local Open Scope list_scope.

(** Packets are accepted without cached forms. *)
Definition fresh (p : packet) : Prop := pk_annexb p = None /\ pk_alloc p = None.
Lemma pool_fresh o : fresh (pool_packet o).
Proof. unfold pool_packet. destruct (or_recycled o); split; reflexivity. Qed.
Lemma reach_fresh name h d evs : Forall no_hook h -> run (dm_new name) h = Ok (d, evs) -> Forall fresh (accepted evs).
Proof.
  intros F R. refine (proj2 (run_hist no_hook (fun h d evs => (wf d /\ dm_pre d = None) /\ Forall fresh (accepted evs)) (dm_new name) _ _ h d evs F R)).
  - split; [split; [apply wf_new|reflexivity]|constructor].
  - clear. intros h o a d evs d' e N _ ((W & P) & Fr) S. split; [split; [eapply step_wf; eauto|eapply step_pre; eauto]|]. rewrite accepted_app. apply Forall_app. split; [exact Fr|].
    destruct (step_made _ _ _ _ _ W S) as (d1 & _ & _ & _ & [->|(s & p & buf & -> & Md & _)]); [constructor|]. constructor; [|constructor]. pose proof (pool_fresh o) as Fo.
    destruct a; cbn [made] in Md; try contradiction; [|rewrite P in Md; cbn [apply_pre] in Md]; subst p; exact Fo.
Qed.

Lemma recorded_unit s p p1 d : pk_media p = AVMediaTypeVideo -> pk_type p <> PacketTypeAVCC -> fresh p -> avcc_packet_to_annexb s p = Ok (p1, d) -> d = recorded s (payload_of p).
Proof.
  intros M T [N A] E. pose proof E as E0. unfold recorded, payload_of. rewrite M, Z.eqb_refl. cbn [andb]. unfold avcc_packet_to_annexb in E. rewrite M, N in E. change (AVMediaTypeVideo =? AVMediaTypeVideo) with true in E. cbn [assert bind] in E.
  replace (PacketTypeAVCC =? pk_type p) with false in E by lia. cbn [negb orb] in E. destruct (pk_key p && is_h26x (st_codec s)) eqn:K; [|cbn [bind] in E; rewrite N in E; now injection E].
  destruct (st_params s) as [c|] eqn:Ps; [|cbn [bind] in E; rewrite N in E; now injection E]. cbv zeta in E. rewrite !first_header_spec in E. apply andb_true_iff in K as [K1 K2].
  destruct (nal_header (cd_annexb c)) as [a|] eqn:Ha; cbn [of_opt bind] in E; [|discriminate]. destruct (nal_header (pk_data p)) as [b|] eqn:Hb; cbn [of_opt bind] in E; [|discriminate].
  assert (Ao : alloc_ok p) by (unfold alloc_ok; now rewrite A). pose proof (annexb_key s p c a b M T K1 K2 Ps N Ao Ha Hb) as X.
  clear E. rewrite X in E0. destruct (a =? b); now injection E0.
Qed.

Lemma written_recorded tracks j s : nth_error tracks j = Some s -> forall ps ws, Forall2 (writes_of tracks) ps ws ->
  Forall (fun p => fresh p /\ (pk_media p = AVMediaTypeVideo -> pk_type p <> PacketTypeAVCC)) (of_index (Z.of_nat j) ps) ->
  written ps ws j = List.concat (map (recorded s) (map payload_of (of_index (Z.of_nat j) ps))).
Proof.
  intros J. unfold written, of_index. induction 1 as [|p w ps ws Hw _ IH]; intros F; [reflexivity|]. cbn [combine filter fst] in *. rewrite (Z.eqb_sym (Z.of_nat j)).
  destruct (Z.eqb_spec (pk_index p) (Z.of_nat j)) as [Ei|]; [|now apply IH]. apply Forall_cons_iff in F as [[Fp Tp] F]. cbn [map snd List.concat]. rewrite concat_app, IH by exact F. f_equal.
  destruct Hw as (d & A & ->). unfold access_unit in A. rewrite Z.eqb_sym in A. destruct (Z.eqb_spec (pk_media p) AVMediaTypeVideo) as [M|M].
  - destruct A as (s' & p1 & Es & E). rewrite Ei, idx_nth, Nat2Z.id in Es by lia. assert (s' = s) as -> by congruence. specialize (Tp M).
    replace (PacketTypeAVCC =? pk_type p) with false by lia. rewrite andb_false_r. cbn [List.concat]. rewrite app_nil_r. eapply recorded_unit; eauto.
  - replace (AVMediaTypeVideo =? pk_media p) with false by lia. cbn [andb List.concat]. rewrite app_nil_r, A. unfold recorded, payload_of. now replace (pk_media p =? AVMediaTypeVideo) with false by lia.
Qed.

Lemma durs_payload l : map payload_of (durs l) = map payload_of l.
Proof. induction l as [|p [|q t] IH]; [reflexivity..|]. change (durs (p :: q :: t)) with (set_duration p (i64 (pk_dts q - pk_dts p)) :: durs (q :: t)). cbn [map]. now rewrite IH. Qed.

(** The packets of a track are those of its buffer. *)
Lemma of_index_buffer d j b : wf d -> NoDup (map snd (dm_map d)) -> In (j, b) (dm_map d) -> forall l, Forall (fun p => In (pk_index p, pk_buffer p) (dm_map d)) l ->
  map payload_of (of_index j l) = for_buffer b (map payload_of l).
Proof.
  intros W N J l F. unfold of_index, for_buffer. induction F as [|p l Hp F IH]; [reflexivity|]. cbn [filter map]. rewrite payload_of_buffer.
  assert (E : (pk_index p =? j) = (pk_buffer p =? b)).
  { destruct (Z.eqb_spec (pk_index p) j) as [<-|Ni], (Z.eqb_spec (pk_buffer p) b) as [<-|Nb]; try reflexivity; exfalso.
    - apply (map_find_in _ _ _ (wf_nodup _ W)) in J, Hp. congruence.
    - apply Ni. clear -N J Hp. induction (dm_map d) as [|[i c] t IHt]; [destruct J|]. cbn [map snd] in N. inversion N as [|x y N1 N2]; subst.
      destruct J as [J|J], Hp as [Hp|Hp]; [congruence| | |now apply IHt]; exfalso; apply N1.
      + assert (c = pk_buffer p) as -> by congruence. change (pk_buffer p) with (snd (pk_index p, pk_buffer p)). now apply in_map.
      + assert (c = pk_buffer p) as -> by congruence. change (pk_buffer p) with (snd (j, pk_buffer p)). now apply in_map. }
  rewrite E. destruct (pk_buffer p =? b); cbn [map]; now rewrite IH.
Qed.
Lemma sorted_app_r {A} (R : A -> A -> Prop) a b : StronglySorted R (a ++ b) -> StronglySorted R b.
Proof. induction a as [|x t IH]; cbn [app]; [auto|]. intros H. inversion H; auto. Qed.
Lemma sorted_map {A B} (f : A -> B) (R : B -> B -> Prop) l : StronglySorted R (map f l) -> StronglySorted (fun x y => R (f x) (f y)) l.
Proof. induction l as [|a t IH]; cbn [map]; intros H; [constructor|]. inversion H as [|x y H1 H2]; subst. constructor; [now apply IH|]. now rewrite Forall_map in H2. Qed.

(** On units. *)
Lemma annexb_app a b : annexb (a ++ b) = annexb a ++ annexb b.
Proof. induction a as [|[f n] t IH]; cbn [annexb app]; [reflexivity|]. now rewrite IH, <- !app_assoc. Qed.

Definition payload_media (x : payload) : Z := let '(m, _, _, _, _, _, _) := x in m.
Definition payload_codec (x : payload) : Z := let '(_, _, c, _, _, _, _) := x in c.
Lemma payload_video h x : In x (payloads h) -> payload_key x = true -> payload_media x = AVMediaTypeVideo.
Proof.
  unfold payloads. rewrite in_flat_map. intros ((o & a) & _ & I) K. cbn [snd] in I. destruct a; cbn [call_payload] in I; try contradiction; destruct I as [<-|[]]; cbn in *; congruence.
Qed.
Lemma annexb_header l : l <> [] -> Forall unit_ok l -> nal_header (annexb l) = Some (unit_head l).
Proof.
  intros N F. destruct l as [|[four nal] t]; [congruence|]. apply Forall_cons_iff in F as [(_ & Ne & _) _]. cbn [snd] in Ne. destruct nal as [|b nal]; [congruence|]. cbn [annexb unit_head]. cbn [app]. now destruct four.
Qed.
Lemma recorded_annexb s c sets x l : is_h26x (st_codec s) = true -> st_params s = Some c -> cd_annexb c = annexb sets -> nal_header (annexb sets) = Some (unit_head sets) -> (payload_key x = true -> payload_media x = AVMediaTypeVideo) ->
  payload_data x = annexb l -> l <> [] -> Forall unit_ok l -> recorded s x = annexb (recorded_units sets (payload_key x) l).
Proof.
  intros H Sp An Hs V E N F. destruct x as [[[[[[m b] c'] data] key] dts] pts]. cbn [payload_key payload_media payload_data] in *. subst data. unfold recorded, recorded_units. rewrite H, Sp, andb_true_r.
  destruct key; [|now rewrite andb_false_r]. rewrite (V eq_refl). cbn [Z.eqb AVMediaTypeVideo Pos.eqb andb]. rewrite An, Hs, (annexb_header l N F).
  destruct (unit_head sets =? unit_head l); cbn [negb]; [reflexivity|]. now rewrite annexb_app.
Qed.
Lemma recorded_stream h b s c sets units kept refused : is_h26x (st_codec s) = true -> st_params s = Some c -> cd_annexb c = annexb sets -> nal_header (annexb sets) = Some (unit_head sets) ->
  (forall x, In x (for_buffer b (payloads h)) -> payload_data x = annexb (units x) /\ units x <> [] /\ Forall unit_ok (units x)) -> for_buffer b (payloads h) = refused ++ kept ->
  List.concat (map (recorded s) (removelast kept)) = annexb (List.concat (map (fun x => recorded_units sets (payload_key x) (units x)) (removelast kept))).
Proof.
  intros H Sp An Hs U Ek. assert (Fk : Forall (fun x => In x (for_buffer b (payloads h))) (removelast kept)).
  { apply Forall_forall. intros x Ix. rewrite Ek. apply in_or_app. right. clear -Ix. destruct kept as [|z t] using rev_ind; [exact Ix|]. rewrite removelast_last in Ix. apply in_or_app. now left. }
  clear Ek. induction Fk as [|x t Ix Fk IH]; [reflexivity|]. cbn [map List.concat]. rewrite annexb_app, <- IH. f_equal. destruct (U x Ix) as (Ud & Un & Uo). apply filter_In in Ix as [Ix _].
  apply (recorded_annexb s c); auto. exact (payload_video h x Ix).
Qed.

(** * Proofs about delivery: with AutoFree every packet releases its own block. *)
From Verif Require Import Base RingProofs BufioModel NaluModel NaluSpec NaluProofs AvccProofs RecordModel AacModel FloatModel PacketModel DemuxModel DemuxProofs DeliverySpec.
From Coq Require Import String Permutation Sorted List.
Import ListNotations.
Local Open Scope list_scope.

(** ** The spec *)
Lemma pipe_run_snoc b h : forall q d o a, pipe_run b q d (h ++ [(o, a)]) =
  match run d h, pipe_run b q d h with
  | Ok (d1, _), Some q1 => match step o d1 a with Ok (_, e) => pipe_events b (push_block b a q1) None e | _ => None end
  | _, _ => None
  end.
Proof.
  induction h as [|[o1 a1] t IH]; intros q d o a; cbn [pipe_run run app].
  - destruct (step o d a) as [[d1 e]| | |]; auto. destruct (pipe_events _ _ _ _); reflexivity.
  - destruct (step o1 d a1) as [[d1 e1]| | |]; cbn [bind]; auto. destruct (pipe_events b (push_block b a1 q) None e1) as [q1|].
    + rewrite IH. destruct (run d1 t) as [[d2 e2]| | |]; reflexivity.
    + destruct (run d1 t) as [[d2 e2]| | |]; reflexivity.
Qed.

(** A batch of deliveries. *)
Lemma pipe_forward_all b d l : dm_autofree d = true -> Forall (origin (dm_map d)) l -> forall e q cur, forward_all d l = Ok e ->
  pipe_events b (map pk_data (filter (fun p => pk_buffer p =? b) l) ++ q) cur e = Some q.
Proof.
  intros A. induction 1 as [|p t O _ IH]; intros e q cur R; cbn [forward_all] in R.
  - injection R as <-. reflexivity.
  - destruct (forward_packet d p) as [e1| | |] eqn:F; cbn [bind] in R; try discriminate.
    destruct (forward_all d t) as [e2| | |] eqn:F2; cbn [bind] in R; try discriminate. injection R as <-.
    apply forward_packet_ok in F as (_ & [(X & _)|(_ & b' & M & ->)]); [congruence|]. unfold origin in O. rewrite O in M. injection M as <-.
    cbn [app pipe_events filter]. destruct (pk_buffer p =? b); cbn [map app]; [|now apply IH]. destruct (list_eq_dec Z.eq_dec (pk_data p) (pk_data p)); [now apply IH|congruence].
Qed.
Lemma pipe_new_tracks b q ts e : forall cur, pipe_events b q cur (map EvNewTrack ts ++ e) = pipe_events b q cur e.
Proof. induction ts; cbn [map app pipe_events]; auto. Qed.

(** ** Buffers and indices *)
Definition indexed (d : demuxer) : Prop := forall j, Forall (fun p => pk_index p = Z.of_nat j) (nth j (dm_packets d) []).
Lemma map_find_some m k v : map_find m k = Some v -> In (k, v) m.
Proof. induction m as [|[x y] t IH]; cbn; [discriminate|]. destruct (Z.eqb_spec x k); [intros [= ->]; subst; now left|right; auto]. Qed.
Lemma snd_inj (m : list (Z * Z)) i j b : NoDup (map snd m) -> In (i, b) m -> In (j, b) m -> i = j.
Proof.
  induction m as [|[x y] t IH]; cbn; intros N I J; [easy|]. apply NoDup_cons_iff in N as [N1 N2].
  assert (K : forall z, In (z, b) t -> In b (map snd t)) by (intros z Z; change b with (snd (z, b)); now apply in_map).
  destruct I as [I|I], J as [J|J]; try (injection I as -> ->); try (injection J as -> ->); try congruence; [exfalso; eauto|exfalso; eauto|eauto].
Qed.
Lemma waiting_index (m : list (Z * Z)) i b l : NoDup (map fst m) -> NoDup (map snd m) -> In (i, b) m -> Forall (origin m) l ->
  filter (fun p => pk_buffer p =? b) l = of_index i l.
Proof.
  intros N1 N I F. unfold of_index. apply filter_ext_in. intros p J. rewrite Forall_forall in F. apply F in J. unfold origin in J.
  destruct (Z.eqb_spec (pk_buffer p) b) as [E|E], (Z.eqb_spec (pk_index p) i) as [E'|E']; auto.
  - exfalso. apply E'. apply map_find_some in J. rewrite E in J. eapply snd_inj; eauto.
  - exfalso. apply E. rewrite E' in J. rewrite (map_find_in _ _ _ N1 I) in J. congruence.
Qed.
Lemma waiting_none m b l : (forall i, ~ In (i, b) m) -> Forall (origin m) l -> filter (fun p => pk_buffer p =? b) l = [].
Proof.
  intros N F. induction F as [|p t O _ IH]; [reflexivity|]. cbn [filter]. destruct (Z.eqb_spec (pk_buffer p) b) as [E|]; [|exact IH].
  exfalso. unfold origin in O. apply map_find_some in O. rewrite E in O. eapply N; eauto.
Qed.
Lemma buffer_dec (m : list (Z * Z)) b : (exists i, In (i, b) m) \/ (forall i, ~ In (i, b) m).
Proof.
  induction m as [|[x y] t [(i & IH)|IH]]; [now right|left; exists i; now right|]. destruct (Z.eq_dec y b) as [->|N]; [left; exists x; now left|].
  right. intros i [E|E]; [congruence|eapply IH; eauto].
Qed.
(** The waiting packets of a buffer are one list. *)
Lemma waiting_nth d i b : wf d -> NoDup (map snd (dm_map d)) -> indexed d -> Forall (origin (dm_map d)) (List.concat (dm_packets d)) -> In (i, b) (dm_map d) ->
  waiting b d = nth (Z.to_nat i) (dm_packets d) [].
Proof.
  intros W N X F I. unfold waiting. rewrite (waiting_index _ i b _ (wf_nodup d W) N I F).
  assert (B : 0 <= i < zlen (dm_tracks d)) by (apply wf_key; auto; change i with (fst (i, b)); now apply in_map).
  pose proof (of_index_concat (dm_packets d) 0 (Z.to_nat i)) as E. rewrite Z.add_0_l, Z2Nat.id in E by lia. apply E. intros j. rewrite Z.add_0_l. apply X.
Qed.

(** ** Probe completion *)
Definition rising (d : demuxer) : Prop := forall j, ascending (nth j (dm_packets d) []).
Lemma complete_pipe b o d d' e : oracle_ok o -> wf d -> dm_autofree d = true -> NoDup (map snd (dm_map d)) -> indexed d ->
  Forall (origin (dm_map d)) (List.concat (dm_packets d)) -> (dm_completed d = false -> rising d) -> on_probe_complete o d = Ok (d', e) ->
  forall cur, pipe_events b (map pk_data (waiting b d)) cur e = Some (map pk_data (waiting b d')).
Proof.
  intros O W A N X F Rs P cur. apply complete_cases in P as [(_ & -> & ->)|[(_ & _ & -> & ->)|(C & _ & -> & e' & R & ->)]]; [reflexivity|reflexivity|].
  specialize (Rs C). rewrite pipe_new_tracks. cbn [app pipe_events].
  assert (G : Forall (origin (dm_map d)) (List.concat (map all_but_last (dm_packets d)) ++ List.concat (map only_last (dm_packets d)))).
  { eapply Permutation_Forall; [apply split_last_perm|exact F]. }
  apply Forall_app in G as [G1 G2]. destruct (O (List.concat (map all_but_last (dm_packets d)))) as [O1 O2].
  assert (G3 : Forall (origin (dm_map d)) (or_sort o (List.concat (map all_but_last (dm_packets d))))) by (eapply Permutation_Forall; eauto).
  set (d2 := with_packets _ _) in *. unfold waiting. change (dm_packets d2) with (map only_last (dm_packets d)).
  assert (E : filter (fun p => pk_buffer p =? b) (List.concat (dm_packets d)) =
     filter (fun p => pk_buffer p =? b) (or_sort o (List.concat (map all_but_last (dm_packets d)))) ++ filter (fun p => pk_buffer p =? b) (List.concat (map only_last (dm_packets d)))).
  { destruct (buffer_dec (dm_map d) b) as [(i & I)|I]; [|now rewrite !(waiting_none (dm_map d) b) by assumption].
    pose proof (waiting_nth d i b W N X F I) as E1. unfold waiting in E1. rewrite E1.
    rewrite (waiting_index _ i b _ (wf_nodup d W) N I G3), (waiting_index _ i b _ (wf_nodup d W) N I G2).
    assert (B : 0 <= i < zlen (dm_tracks d)) by (apply wf_key; auto; change i with (fst (i, b)); now apply in_map).
    assert (Ea : forall f : list packet -> list packet, f [] = [] -> (forall l x, In x (f l) -> In x l) -> of_index i (List.concat (map f (dm_packets d))) = f (nth (Z.to_nat i) (dm_packets d) [])).
    { intros f f0 fi. pose proof (of_index_concat (map f (dm_packets d)) 0 (Z.to_nat i)) as E. rewrite Z.add_0_l, Z2Nat.id in E by lia. rewrite E; [now apply nth_map_nil|].
      intros j. rewrite nth_map_nil, Z.add_0_l by exact f0. apply Forall_forall. intros x Ix. apply fi in Ix. specialize (X j). rewrite Forall_forall in X. now apply X. }
    set (L := nth (Z.to_nat i) (dm_packets d) []) in *.
    assert (E2 : of_index i (or_sort o (List.concat (map all_but_last (dm_packets d)))) = removelast L).
    { apply sorted_unique.
      - change (removelast L) with (all_but_last L). rewrite <- (Ea all_but_last); [|reflexivity|intros l x; apply removelast_In]. apply Permutation_filter. symmetry. exact O1.
      - apply StronglySorted_filter. apply Sorted_StronglySorted; auto. intros x y z. unfold dts_le. lia.
      - apply ascending_removelast. apply Rs. }
    rewrite E2, (Ea only_last).
    - destruct L as [|q l _] using rev_ind; [reflexivity|]. now rewrite removelast_snoc, only_last_snoc.
    - reflexivity.
    - intros l x. destruct l as [|q l _] using rev_ind; [auto|]. rewrite only_last_snoc. intros [->|[]]. apply in_or_app. right. now left. }
  rewrite E, map_app. apply (pipe_forward_all b d2); auto.
Qed.

(** ** processBufferedPacket *)
Lemma ascending_dts l : ascending l <-> StronglySorted Z.lt (map pk_dts l).
Proof.
  unfold ascending. induction l as [|a t [IH1 IH2]]; cbn [map]; [split; constructor|]. split; intros H; apply StronglySorted_inv in H as [H1 H2]; constructor; auto.
  - apply Forall_map. exact H2.
  - now apply (proj1 (Forall_map _ _ _)) in H2.
Qed.
Lemma sorted_snoc (l : list Z) x : StronglySorted Z.lt l -> Forall (fun y => y < x) l -> StronglySorted Z.lt (l ++ [x]).
Proof.
  induction 1 as [|a t S IH F]; intros G; cbn [app]; [repeat constructor|]. rewrite Forall_cons_iff in G. destruct G as [G1 G2]. constructor; auto. apply Forall_app. auto.
Qed.
Lemma stamp_dts l p : map pk_dts (stamp l p) = map pk_dts l ++ [pk_dts p].
Proof. destruct l as [|q l _] using rev_ind; [reflexivity|]. rewrite stamp_app, !map_app, <- app_assoc. reflexivity. Qed.
Lemma ascending_stamp l p : ascending l -> Forall (fun q => dts_lt q p) l -> ascending (stamp l p).
Proof. rewrite !ascending_dts, stamp_dts. intros S F. apply sorted_snoc; auto. apply Forall_map. exact F. Qed.
Lemma indexed_add d k l p l' : indexed d -> nth k (dm_packets d) [] = l -> pk_index p = Z.of_nat k -> (k < length (base_lists d p))%nat ->
  (forall x, In x l' -> pk_index x = Z.of_nat k) -> indexed (with_packets d (set_nth k l' (base_lists d p))).
Proof.
  intros X N E L Hl j. cbn [dm_packets with_packets]. rewrite nth_set_nth, nth_base by exact L. destruct (Nat.eqb_spec j k) as [->|]; [|apply X].
  apply Forall_forall. exact Hl.
Qed.
Lemma process_pipe b o d p d' e buf : oracle_ok o -> wf d -> dm_autofree d = true -> NoDup (map snd (dm_map d)) -> indexed d ->
  Forall (origin (dm_map d)) (List.concat (dm_packets d)) -> (dm_completed d = true -> Forall (fun l => (length l <= 1)%nat) (dm_packets d)) ->
  In (pk_index p, buf) (dm_map d) -> pk_buffer p = buf -> pk_index p <= zlen (dm_packets d) ->
  (dm_completed d = false -> rising d /\ Forall (fun q => dts_lt q p) (nth (Z.to_nat (pk_index p)) (dm_packets d) [])) ->
  process_buffered_packet o d p = Ok (d', e) ->
  forall q cur, q = map pk_data (waiting b d) ++ (if buf =? b then [pk_data p] else []) ->
  pipe_events b q cur e = Some (map pk_data (waiting b d')).
Proof.
  intros O W A N X F Sh I Eb Lp Rs P q cur ->. pose proof P as P'.
  assert (Or : origin (dm_map d) p) by (unfold origin; rewrite Eb; apply map_find_in; auto using wf_nodup).
  destruct (process_packets _ _ _ _ _ P) as (N0 & _ & _ & r & Er & _).
  apply process_cases in P as (k & l & Nk & Ek & P). assert (k = Z.to_nat (pk_index p)) as -> by lia. set (k := Z.to_nat (pk_index p)) in *.
  assert (Hk : (k < length (base_lists d p))%nat) by (apply nth_error_Some; congruence).
  assert (Nl : nth k (dm_packets d) [] = l) by (rewrite <- (nth_base d p); now apply nth_error_nth).
  assert (Ei : pk_index p = Z.of_nat k) by lia.
  assert (Fl : Forall (origin (dm_map d)) l) by (eapply Forall_concat_nth; [|exact Nk]; now rewrite base_concat).
  assert (Xl : Forall (fun x => pk_index x = Z.of_nat k) l) by (rewrite <- Nl; apply X).
  (* a state whose list k is l' *)
  assert (Q : forall l', Forall (origin (dm_map d)) l' -> (forall x, In x l' -> pk_index x = Z.of_nat k) ->
    let d1 := with_packets d (set_nth k l' (base_lists d p)) in
    indexed d1 /\ Forall (origin (dm_map d1)) (List.concat (dm_packets d1)) /\ (buf <> b -> waiting b d1 = waiting b d) /\ waiting buf d1 = l').
  { intros l' Fl' Xl' d1. assert (X1 : indexed d1) by (eapply indexed_add; eauto).
    assert (F1 : Forall (origin (dm_map d1)) (List.concat (dm_packets d1))) by (apply Forall_concat_set; [now rewrite base_concat|exact Fl']).
    split; [exact X1|]. split; [exact F1|].
    assert (W1 : wf d1) by exact W.
    split.
    - intros NE. destruct (buffer_dec (dm_map d) b) as [(i & J)|J].
      + assert (0 <= i < zlen (dm_tracks d)) by (apply wf_key; auto; change i with (fst (i, b)); now apply in_map).
        rewrite (waiting_nth d1 i b), (waiting_nth d i b) by auto. unfold d1. cbn [dm_packets with_packets]. rewrite nth_set_nth, nth_base by exact Hk.
        destruct (Nat.eqb_spec (Z.to_nat i) k) as [E|]; [|reflexivity]. exfalso. apply NE. assert (i = pk_index p) as -> by lia.
        apply (map_find_in _ _ _ (wf_nodup d W)) in I, J. congruence.
      + unfold waiting. now rewrite !(waiting_none (dm_map d) b) by assumption.
    - rewrite (waiting_nth d1 (pk_index p) buf) by auto. unfold d1. cbn [dm_packets with_packets]. rewrite nth_set_nth by exact Hk. fold k. now rewrite Nat.eqb_refl. }
  assert (Qo : waiting buf d = l) by (rewrite (waiting_nth d (pk_index p) buf) by auto; exact Nl).
  assert (Sd : forall x, In x (stamp l p) -> pk_index x = Z.of_nat k).
  { destruct l as [|q l _] using rev_ind; [intros x [<-|[]]; exact Ei|]. rewrite stamp_app. intros x Ix. rewrite Forall_forall in Xl. apply in_app_or in Ix as [Ix|[<-|[<-|[]]]]; [|apply (Xl q)|exact Ei]; [apply Xl|]; apply in_or_app; [now left|right; now left]. }
  assert (So : Forall (origin (dm_map d)) (stamp l p)) by now apply origin_stamp.
  destruct (Q (stamp l p) So Sd) as (X1 & F1 & B1 & B2).
  assert (St : map pk_data (waiting b d) ++ (if buf =? b then [pk_data p] else []) = map pk_data (waiting b (with_packets d (set_nth k (stamp l p) (base_lists d p))))).
  { destruct (Z.eqb_spec buf b) as [<-|NE]; [|rewrite app_nil_r, B1; auto]. rewrite Qo, B2. destruct l as [|q l _] using rev_ind; [reflexivity|]. rewrite stamp_app, !map_app, <- app_assoc. reflexivity. }
  destruct P as [(_ & -> & ->)|[(l' & q & e' & -> & C & -> & R & ->)|(e' & Ln & C & _ & R & ->)]].
  - cbn [pipe_events]. now rewrite St.
  - assert (l' = []) as ->.
    { specialize (Sh C). assert (L : (length (l' ++ [q]) <= 1)%nat). { rewrite <- Nl. destruct (nth_in_or_default k (dm_packets d) []) as [J|J]; [rewrite Forall_forall in Sh; now apply Sh|rewrite J; cbn; lia]. }
      rewrite app_length in L. cbn in L. destruct l'; [reflexivity|cbn in L; lia]. }
    cbn [app] in *. destruct (Q [p]) as (_ & _ & C1 & C2); [now constructor|intros x [<-|[]]; exact Ei|].
    apply forward_packet_ok in R as (_ & [(R & _)|(_ & b' & R & ->)]); [exfalso; cbn in R; congruence|].
    apply Forall_inv in Xl. apply Forall_inv in Fl. cbn [dm_map with_packets pk_index set_duration] in R.
    assert (b' = buf) as ->. { rewrite Xl, <- Ei in R. apply (map_find_in _ _ _ (wf_nodup d W)) in I. congruence. }
    cbn [pipe_events]. destruct (Z.eqb_spec buf b) as [<-|NE].
    + rewrite Qo, C2. cbn [map app pk_data set_duration]. destruct (list_eq_dec Z.eq_dec (pk_data q) (pk_data q)); [reflexivity|congruence].
    + rewrite app_nil_r, C1 by exact NE. reflexivity.
  - cbn [pipe_events]. rewrite St. eapply complete_pipe; [exact O| | | |exact X1|exact F1| |exact R]; auto.
    intros _ j. destruct (Rs C) as [Rs1 Rs2]. fold k in Rs2. cbn [dm_packets with_packets]. rewrite nth_set_nth, nth_base by exact Hk. destruct (Nat.eqb_spec j k) as [->|]; [|apply Rs1].
    rewrite Nl in Rs2. specialize (Rs1 k). rewrite Nl in Rs1. now apply ascending_stamp.
Qed.

(** ** Histories *)
(** The calls of the property: AutoFree stays on, the caller does not discard blocks itself, and a hook keeps index, buffer and data. *)
Definition hook_data (f : option (packet -> packet)) : Prop := match f with Some g => forall p, pk_data (g p) = pk_data p | None => True end.
Definition delivery_op (x : oracle * op) : Prop :=
  match snd x with OpSetPre f => hook_data f | OpSetAutoFree b => b = true | OpDiscardBack _ | OpDiscardHead _ => False | _ => True end.

Lemma process_keeps o d p d' e : process_buffered_packet o d p = Ok (d', e) -> dm_autofree d' = dm_autofree d /\ dm_map d' = dm_map d.
Proof.
  intros P. apply process_cases in P as (k & l & _ & _ & [(_ & -> & _)|[(l' & q & e' & _ & _ & -> & _)|(e' & _ & _ & _ & C & _)]]); auto.
  apply complete_cases in C as [(_ & -> & _)|[(_ & _ & -> & _)|(_ & _ & -> & _)]]; auto.
Qed.
Lemma new_audio_inv d buf id tb extra c d' e : wf d -> on_new_audio_track d buf id tb extra c = Ok (d', e) ->
  e = discard_if (0 <? zlen (of_nil extra)) buf /\ (d' = d \/ exists s, st_index s = zlen (dm_tracks d) /\ d' = grow d s buf).
Proof.
  intros W S. unfold on_new_audio_track in S.
  destruct (match tm_find_type (dm_tracks d) AVMediaTypeAudio with None => _ | Some _ => _ end) as [[d1 t]| | |] eqn:M; cbn [bind] in S; try discriminate.
  injection S as <- <-. split; [reflexivity|].
  assert (C : d1 = d \/ create_audio_track d buf id tb extra c = Ok (d1, t)).
  { destruct (tm_find_type _ _); [destruct (_ =? _)%string; [now right|injection M as <- <-; now left]|now right]. }
  destruct C as [->|C]; auto. apply create_audio_cases in C; auto. destruct C as [(-> & _)|(_ & s & E & _ & _ & _ & -> & _)]; eauto.
Qed.
Lemma new_video_inv o d buf id tb extra d' e : wf d -> on_new_video_track o d buf id tb extra = Ok (d', e) ->
  e = discard_if (0 <? zlen extra) buf /\ (d' = d \/ exists s, st_index s = zlen (dm_tracks d) /\ d' = grow d s buf).
Proof.
  intros W S. unfold on_new_video_track in S.
  destruct (match tm_find_type (dm_tracks d) AVMediaTypeVideo with None => _ | Some _ => _ end) as [[d1 t]| | |] eqn:M; cbn [bind] in S; try discriminate.
  injection S as <- <-. split; [reflexivity|].
  assert (C : d1 = d \/ create_video_track o d buf id tb extra = Ok (d1, t)).
  { destruct (tm_find_type _ _); [destruct (_ =? _)%string; [now right|injection M as <- <-; now left]|now right]. }
  destruct C as [->|C]; auto. apply create_video_cases in C; auto. destruct C as [(-> & _)|(_ & s & E & _ & _ & _ & -> & _)]; eauto.
Qed.

Lemma sorted_before (l r : list Z) x : StronglySorted Z.lt (l ++ x :: r) -> Forall (fun y => y < x) l.
Proof.
  induction l as [|a t IH]; cbn [app]; intros H; [constructor|]. apply StronglySorted_inv in H as [H1 H2]. constructor; auto.
  apply Forall_app in H2 as [_ H2]. now apply Forall_inv in H2.
Qed.

(** State carried along: AutoFree and the hook. *)
Definition calm (d : demuxer) : Prop := dm_autofree d = true /\ hook_data (dm_pre d).
Lemma step_calm o d a d' e : wf d -> calm d -> delivery_op (o, a) -> step o d a = Ok (d', e) -> calm d' /\ exists m, dm_map d' = dm_map d ++ m.
Proof.
  intros W [A H] D S.
  assert (K0 : forall x, dm_map x = dm_map d -> exists m, dm_map x = dm_map d ++ m) by (intros x ->; exists []; now rewrite app_nil_r).
  assert (Kc : forall x ev, on_probe_complete o d = Ok (x, ev) -> calm x /\ exists m, dm_map x = dm_map d ++ m).
  { intros x ev C. apply complete_cases in C as [(_ & -> & _)|[(_ & _ & -> & _)|(_ & _ & -> & _)]]; (split; [split; assumption|apply K0; reflexivity]). }
  assert (Kp : forall buf id data dts pre, packet_step o d buf id data dts pre d' e -> calm d' /\ exists m, dm_map d' = dm_map d ++ m).
  { intros buf id data dts pre [(-> & _)|(d1 & i & s & p & G & _ & _ & _ & _ & _ & _ & _ & _ & _ & P)]; [split; [now split|now apply K0]|].
    pose proof (process_pre _ _ _ _ _ P) as P1. apply process_keeps in P as [P2 P3]. unfold calm. rewrite P1, P2, P3. destruct G as [->|(_ & _ & _ & _ & _ & ->)]; [split; [now split|now apply K0]|].
    split; [split; assumption|]. eexists. reflexivity. }
  destruct a; cbn [step] in S; cbn [delivery_op snd] in D; try contradiction; try (injection S as <- <-; split; [split; cbn; auto|apply K0; reflexivity]; fail).
  - apply new_audio_inv in S as (_ & [->|(s & _ & ->)]); auto; (split; [split; assumption|]); [now apply K0|eexists; reflexivity].
  - apply new_video_inv in S as (_ & [->|(s & _ & ->)]); auto; (split; [split; assumption|]); [now apply K0|eexists; reflexivity].
  - apply audio_step in S; eauto.
  - apply video_step in S; eauto.
  - eauto.
  - unfold try_complete_probe in S. destruct (need_more d); [injection S as <- <-; split; [now split|now apply K0]|eauto].
  - unfold find_buffer_index in S. destruct (marker_index _ _ _); injection S as <- <-; (split; [split; assumption|apply K0; reflexivity]).
Qed.

Lemma waiting_grow b d s buf : waiting b (grow d s buf) = waiting b d.
Proof. reflexivity. Qed.
Lemma discard_own b q buf data : pipe_events b (if buf =? b then q ++ [data] else q) None [EvDiscardBack buf] = Some q.
Proof.
  cbn [pipe_events]. destruct (buf =? b) eqn:E; [|reflexivity]. destruct (q ++ [data]) eqn:Q; [destruct q; discriminate|]. rewrite <- Q, removelast_snoc. reflexivity.
Qed.

Lemma NoDup_app_l {A} (l m : list A) : NoDup (l ++ m) -> NoDup l.
Proof. induction l as [|a t IH]; cbn; intros N; [constructor|]. apply NoDup_cons_iff in N as [N1 N2]. constructor; auto. intros I. apply N1. apply in_or_app. now left. Qed.

Lemma step_pipe b o d a d' e evs : oracle_ok o -> live d -> calm d -> delivery_op (o, a) -> NoDup (map snd (dm_map d')) ->
  balanced d evs -> streams_ok d evs -> aligned (evs ++ e) -> (forall i : nat, ascending (of_index (Z.of_nat i) (accepted (evs ++ e)))) ->
  step o d a = Ok (d', e) -> pipe_events b (push_block b a (map pk_data (waiting b d))) None e = Some (map pk_data (waiting b d')).
Proof.
  intros O (W & H & Or) [A Hd] D N [_ Sh] St Al As S.
  assert (N1 : NoDup (map snd (dm_map d))).
  { destruct (step_calm _ _ _ _ _ W (conj A Hd) D S) as [_ (m & E)]. rewrite E, map_app in N. eapply NoDup_app_l; eauto. }
  pose proof Al as Al'. unfold aligned in Al. apply Forall_app in Al as [Al1 Al2]. specialize (St Al1).
  assert (X : indexed d).
  { intros j. destruct (St j) as [S1 S2]. destruct (dm_completed d).
    - destruct (S2 eq_refl) as (-> & _). apply Forall_forall. intros x Ix.
      assert (G : Forall (fun p => pk_index p = Z.of_nat j) (durs (of_index (Z.of_nat j) (accepted evs)))) by (apply (Forall_durs (fun z => z = Z.of_nat j)), of_index_idx).
      rewrite Forall_forall in G. apply G. destruct (durs _) as [|q l _] using rev_ind; [destruct Ix|]. rewrite only_last_snoc in Ix. destruct Ix as [->|[]]. apply in_or_app. right. now left.
    - destruct (S1 eq_refl) as (_ & ->). apply (Forall_durs (fun z => z = Z.of_nat j)), of_index_idx. }
  assert (Rs : dm_completed d = false -> rising d).
  { intros C j. destruct (St j) as [S1 _]. destruct (S1 C) as (_ & ->). apply ascending_durs. specialize (As j). rewrite accepted_app, of_index_app in As. now apply StronglySorted_app_l in As. }
  assert (Kc : on_probe_complete o d = Ok (d', e) -> pipe_events b (map pk_data (waiting b d)) None e = Some (map pk_data (waiting b d'))).
  { intros C. eapply complete_pipe; eauto. }
  assert (Kp : forall buf id data dts pre, push_block b a (map pk_data (waiting b d)) = (if buf =? b then map pk_data (waiting b d) ++ [data] else map pk_data (waiting b d)) ->
     hook_ok pre -> hook_data pre -> packet_step o d buf id data dts pre d' e ->
     pipe_events b (push_block b a (map pk_data (waiting b d))) None e = Some (map pk_data (waiting b d'))).
  { intros buf id data dts pre -> Hp Hpd [(-> & ->)|(d1 & i & s & p & G & I & Xs & E1 & E2 & E3 & E4 & _ & _ & _ & P)]; [apply discard_own|].
    assert (W1 : wf d1) by (destruct G as [->|(_ & _ & G & _ & _ & ->)]; [assumption|now apply wf_grow]).
    assert (G1 : dm_packets d1 = dm_packets d /\ dm_completed d1 = dm_completed d /\ dm_autofree d1 = true /\ Forall (origin (dm_map d1)) (List.concat (dm_packets d1))).
    { destruct G as [->|(_ & _ & _ & _ & _ & ->)]; auto. repeat split; auto. eapply Forall_impl; [|exact Or]. intros x; apply map_find_app. }
    destruct G1 as (K1 & K2 & K3 & K4). destruct (apply_pre_ok _ p Hp) as [Ei Eb]. set (p1 := apply_pre pre p) in *.
    assert (Ed : pk_data p1 = data) by (unfold p1; destruct pre; cbn in *; [rewrite Hpd|]; exact E1).
    assert (N2 : NoDup (map snd (dm_map d1))) by (apply process_keeps in P as [_ P]; rewrite <- P; exact N).
    destruct (process_packets _ _ _ _ _ P) as (N0 & _ & _ & r & Er & _). rewrite K1 in Er.
    assert (La : pk_index p1 <= zlen (dm_packets d)) by (rewrite Er in Al2; apply Forall_inv in Al2; lia).
    assert (Wd : waiting b d1 = waiting b d) by (unfold waiting; now rewrite K1).
    eapply (process_pipe b o d1 p1 d' e buf); auto.
    - intros j. rewrite K1. apply X.
    - rewrite K1, K2. exact Sh.
    - rewrite Ei, E3. exact I.
    - now rewrite Eb.
    - now rewrite K1.
    - rewrite K2. intros C. unfold rising. rewrite K1. split; [exact (Rs C)|].
      destruct (St (Z.to_nat (pk_index p1))) as [S1 _]. destruct (S1 C) as (_ & ->). rewrite Z2Nat.id by exact N0.
      specialize (As (Z.to_nat (pk_index p1))). rewrite Z2Nat.id, accepted_app, of_index_app in As by exact N0. rewrite Er in As. change (accepted (EvAdd p1 (zlen (dm_packets d)) :: r)) with (p1 :: accepted r) in As.
      cbn [of_index filter] in As. rewrite Z.eqb_refl in As. apply ascending_dts in As. rewrite map_app in As. cbn [map] in As.
      apply sorted_before in As. rewrite <- (durs_map pk_dts) in As by reflexivity. apply (proj1 (Forall_map _ _ _)) in As. exact As.
    - rewrite Wd, Ed. destruct (buf =? b); [reflexivity|now rewrite app_nil_r]. }
  destruct a; cbn [step] in S; cbn [delivery_op snd] in D; try contradiction; try (injection S as <- <-; reflexivity).
  - apply new_audio_inv in S as (-> & G); auto.
    assert (Wd : waiting b d' = waiting b d) by (destruct G as [->|(s & _ & ->)]; reflexivity). rewrite Wd.
    destruct extra as [[|x t]|]; cbn [of_nil]; try reflexivity. 
    assert (Ez : (0 <? zlen (x :: t)) = true) by (apply Z.ltb_lt; rewrite zlen_cons; pose proof (zlen_nonneg t); lia). rewrite Ez.
    unfold push_block. cbn [call_block]. apply discard_own.
  - apply new_video_inv in S as (-> & G); auto.
    assert (Wd : waiting b d' = waiting b d) by (destruct G as [->|(s & _ & ->)]; reflexivity). rewrite Wd.
    destruct extra as [|x t]; try reflexivity. 
    assert (Ez : (0 <? zlen (x :: t)) = true) by (apply Z.ltb_lt; rewrite zlen_cons; pose proof (zlen_nonneg t); lia). rewrite Ez.
    unfold push_block. cbn [call_block]. apply discard_own.
  - apply audio_step in S; auto. eapply (Kp buf id data ts None); auto; try exact Logic.I.
  - apply video_step in S; auto. eapply (Kp buf id data dts (dm_pre d)); auto.
  - auto.
  - unfold try_complete_probe in S. destruct (need_more d); [injection S as <- <-; reflexivity|auto].
  - unfold find_buffer_index in S. destruct (marker_index _ _ _); injection S as <- <-; reflexivity.
Qed.

Lemma reach_calm name o0 h d evs : Forall delivery_op h -> run (dm_new name) ((o0, OpSetAutoFree true) :: h) = Ok (d, evs) -> calm d.
Proof.
  intros D R. cbn [run step bind] in R. destruct (run _ h) as [[d1 e1]| | |] eqn:R1; cbn [bind] in R; try discriminate. injection R as <- <-.
  refine (proj2 (run_inv delivery_op (fun d _ => wf d /\ calm d) _ _ _ h d1 e1 D R1)).
  - split; [eapply (step_wf o0 (dm_new name) (OpSetAutoFree true)); [apply wf_new|reflexivity]|]. split; [reflexivity|exact Logic.I].
  - intros o a d2 evs2 d' e Da [W C] S. split; [eapply step_wf; eauto|]. now destruct (step_calm _ _ _ _ _ W C Da S).
Qed.
Lemma reach_pipe b name o0 h : forall d evs, Forall well_behaved ((o0, OpSetAutoFree true) :: h) -> Forall delivery_op h ->
  run (dm_new name) ((o0, OpSetAutoFree true) :: h) = Ok (d, evs) -> aligned evs -> NoDup (map snd (dm_map d)) ->
  (forall i : nat, ascending (of_index (Z.of_nat i) (accepted evs))) ->
  pipe_run b [] (dm_new name) ((o0, OpSetAutoFree true) :: h) = Some (map pk_data (waiting b d)).
Proof.
  induction h as [|[o a] t IH] using rev_ind; intros d evs F D R Al N As.
  - cbn in R. injection R as <- <-. reflexivity.
  - rewrite app_comm_cons in *. apply Forall_app in F as [F Fa]. apply Forall_inv in Fa. apply Forall_app in D as [D Da]. apply Forall_inv in Da.
    rewrite run_app in R. destruct (run (dm_new name) ((o0, OpSetAutoFree true) :: t)) as [[d1 e1]| | |] eqn:R1; cbn [bind] in R; try discriminate.
    cbn [run bind] in R. destruct (step o d1 a) as [[d2 e2]| | |] eqn:S; cbn [bind] in R; try discriminate. injection R as <- <-. rewrite app_nil_r in *.
    pose proof (reach_live _ _ _ _ F R1) as Lv. destruct (reach_balanced name _ d1 e1 (Forall_impl sorting (fun x => @proj1 _ _) F) R1) as (W & _ & B & St).
    pose proof Al as Al'. unfold aligned in Al'. apply Forall_app in Al' as [Al1 _].
    assert (As1 : forall i : nat, ascending (of_index (Z.of_nat i) (accepted e1))).
    { intros i. specialize (As i). rewrite accepted_app, of_index_app in As. now apply StronglySorted_app_l in As. }
    pose proof (reach_calm _ _ _ _ _ D R1) as C. destruct (step_calm _ _ _ _ _ W C Da S) as [_ (m & Em)].
    assert (N1 : NoDup (map snd (dm_map d1))) by (rewrite Em, map_app in N; now apply NoDup_app_l in N).
    specialize (IH d1 e1 F D eq_refl Al1 N1 As1). rewrite pipe_run_snoc, R1, IH, S. destruct Fa as [O _]. eapply step_pipe; eauto.
Qed.

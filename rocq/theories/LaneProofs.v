(** Packet lists of the demuxer without the assumption that list i belongs to track i: every history, also those in which tracks are announced
    before their packets arrive (demuxer.go:254-300). *)
From Verif Require Import Base RingProofs BufioModel NaluModel NaluSpec NaluProofs AvccProofs RecordModel AacModel FloatModel PacketModel PacketProofs DemuxModel DemuxProofs TrackSpec TrackProofs.
From Coq Require Import String Permutation Sorted List.
Import ListNotations.
Local Open Scope list_scope.

(** A packet with index i goes to list i, or to a new list at the end if there is none. [lane j evs]: the packets put into list j, in the order
    in which they came. *)
Definition in_lane (j : nat) (e : event) : list packet :=
  match e with EvAdd p n => if Z.min (pk_index p) n =? Z.of_nat j then [p] else [] | _ => [] end.
Definition lane (j : nat) (evs : list event) : list packet := flat_map (in_lane j) evs.
(** What the first n lists have given away once each of them has kept only its last packet. *)
Definition given (n : nat) (evs : list event) : list packet := List.concat (map (fun j => removelast (durs (lane j evs))) (seq 0 n)).

Definition lanes_ok (d : demuxer) (evs : list event) : Prop :=
  (forall j, nth j (dm_packets d) [] = (if dm_completed d then only_last (durs (lane j evs)) else durs (lane j evs))) /\
  (dm_completed d = false -> delivered evs = []) /\
  (dm_completed d = true -> Permutation (delivered evs) (given (length (dm_packets d)) evs) /\
     forall j, ascending (lane j evs) -> subseq (removelast (durs (lane j evs))) (delivered evs)).

Lemma lane_app j a b : lane j (a ++ b) = lane j a ++ lane j b.
Proof. apply flat_map_app. Qed.
Lemma lane_none j e : accepted e = [] -> lane j e = [].
Proof.
  induction e as [|x t IH]; [reflexivity|]. intros A. unfold accepted in A. cbn [flat_map] in A. apply app_eq_nil in A as [A1 A2].
  unfold lane. cbn [flat_map]. change (flat_map (in_lane j) t) with (lane j t). rewrite IH by exact A2. destruct x; try reflexivity. discriminate.
Qed.
Lemma lane_keep j evs e : accepted e = [] -> lane j (evs ++ e) = lane j evs.
Proof. intros A. rewrite lane_app, (lane_none j e A). apply app_nil_r. Qed.
Lemma lane_add j k p n : Z.of_nat k = Z.min (pk_index p) n -> lane j [EvAdd p n] = if (j =? k)%nat then [p] else [].
Proof.
  intros K. cbn. rewrite <- K, app_nil_r. destruct (Nat.eqb_spec j k), (Z.eqb_spec (Z.of_nat k) (Z.of_nat j)); auto; lia.
Qed.
Lemma given_ext n e1 e2 : (forall j, lane j e1 = lane j e2) -> given n e1 = given n e2.
Proof. intros E. unfold given. f_equal. apply map_ext. intros j. now rewrite E. Qed.
Lemma concat_seq_ext {A} (f g : nat -> list A) s n : (forall j, (s <= j < s + n)%nat -> f j = g j) -> List.concat (map f (seq s n)) = List.concat (map g (seq s n)).
Proof. intros E. f_equal. apply map_ext_in. intros j I. apply in_seq in I. apply E. lia. Qed.
(** One list of the concatenation grows by one packet. *)
Lemma concat_seq_one {A} (f g : nat -> list A) k x n : (forall j, j <> k -> g j = f j) -> g k = f k ++ [x] -> (k < n)%nat ->
  Permutation (List.concat (map g (seq 0 n))) (List.concat (map f (seq 0 n)) ++ [x]).
Proof.
  intros E Ek Hk. replace n with (k + S (n - S k))%nat by lia. rewrite !seq_app, !map_app, !concat_app. cbn [seq map List.concat]. rewrite Nat.add_0_l, Ek.
  rewrite (concat_seq_ext g f 0 k) by (intros; apply E; lia). rewrite (concat_seq_ext g f (S k)) by (intros; apply E; lia).
  rewrite <- !app_assoc. do 2 apply Permutation_app_head. apply Permutation_app_comm.
Qed.

Lemma subseq_skip_end {A} (a b : list A) x : subseq a b -> subseq a (b ++ [x]).
Proof. intros H. rewrite <- (app_nil_r a). apply subseq_app; [exact H|apply subseq_nil]. Qed.
(** Sorting keeps the order of an ascending part. *)
Lemma subseq_sorted L : forall l r, Permutation L (l ++ r) -> StronglySorted dts_le L -> ascending l -> subseq l L.
Proof.
  induction L as [|a L IH]; intros l r P Sl As.
  - apply Permutation_nil in P. apply app_eq_nil in P as [-> _]. constructor.
  - destruct l as [|b l]; [apply subseq_nil|]. apply StronglySorted_inv in Sl as [Sl Fl]. pose proof As as As0. apply StronglySorted_inv in As as [As Fb].
    assert (Ia : In a ((b :: l) ++ r)) by (eapply Permutation_in; [exact P|now left]).
    destruct Ia as [->|Ia]; [constructor; apply (IH l r); auto; eapply Permutation_cons_inv; exact P|].
    apply in_app_or in Ia as [Ia|Ia].
    + exfalso. assert (Ib : In b (a :: L)) by (eapply Permutation_in; [symmetry; exact P|now left]).
      eapply Forall_forall in Fb; [|exact Ia]. unfold dts_lt in Fb.
      destruct Ib as [->|Ib]; [lia|]. eapply Forall_forall in Fl; [|exact Ib]. unfold dts_le in Fl. lia.
    + apply in_split in Ia as (r1 & r2 & ->). constructor. apply (IH (b :: l) (r1 ++ r2)); auto.
      eapply Permutation_cons_inv. etransitivity; [exact P|]. rewrite !app_assoc. symmetry. apply Permutation_middle.
Qed.

Lemma nth_concat_perm {A} (ls : list (list A)) j : exists r, Permutation (List.concat ls) (nth j ls [] ++ r).
Proof.
  revert j. induction ls as [|l t IH]; intros [|j]; [exists []; reflexivity..|exists (List.concat t); reflexivity|].
  destruct (IH j) as (r & P). exists (l ++ r). cbn [List.concat nth]. rewrite P. rewrite !app_assoc. apply Permutation_app_tail, Permutation_app_comm.
Qed.
Lemma map_seq_nth {A} (l : list (list A)) : map (fun j => nth j l []) (seq 0 (length l)) = l.
Proof.
  induction l as [|x t IH]; [reflexivity|]. cbn [length seq map nth]. f_equal. rewrite <- seq_shift, map_map. exact IH.
Qed.

Lemma complete_lanes o d d' e evs : oracle_ok o -> dm_completed d = false -> no_orphans d -> lanes_ok d evs -> on_probe_complete o d = Ok (d', e) -> lanes_ok d' (evs ++ e).
Proof.
  intros O C NO (L & D & _) P. rewrite C in L. specialize (D C).
  apply complete_cases in P as [(X & _)|[(_ & T & -> & ->)|(_ & T & -> & e' & F & ->)]]; [congruence| |].
  - assert (E : forall j, lane j evs = []).
    { intros j. specialize (L j). rewrite NO in L by assumption. apply length_zero_iff_nil. rewrite <- durs_length, <- L. destruct j; reflexivity. }
    assert (E2 : forall j, lane j (evs ++ [EvTrackNotFind]) = []) by (intros j; rewrite lane_app, E; reflexivity).
    split; [|split; [discriminate|intros _; split]]; cbn [dm_packets with_completed dm_completed]; rewrite ?NO by assumption.
    + intros j. rewrite E2. destruct j; reflexivity.
    + rewrite delivered_app, D. constructor.
    + intros j _. rewrite E2. apply subseq_nil.
  - apply forward_all_events in F as (_ & F1 & F2 & _).
    assert (E : forall j, lane j (evs ++ map EvNewTrack (prepare_tracks o (dm_packets d) (dm_tracks d)) ++ [EvTrackComplete] ++ e') = lane j evs).
    { intros j. apply lane_keep. rewrite !accepted_app, accepted_new_tracks, F2. reflexivity. }
    assert (Ed : delivered (evs ++ map EvNewTrack (prepare_tracks o (dm_packets d) (dm_tracks d)) ++ [EvTrackComplete] ++ e') = or_sort o (List.concat (map all_but_last (dm_packets d)))).
    { rewrite !delivered_app, delivered_new_tracks, F1, D. reflexivity. }
    destruct (O (List.concat (map all_but_last (dm_packets d)))) as [O1 O2].
    split; [|split; [discriminate|intros _; split]]; cbn [dm_packets with_packets dm_completed with_tracks with_completed].
    + intros j. rewrite E, nth_map_nil, L by reflexivity. reflexivity.
    + rewrite Ed, (given_ext _ _ evs) by exact E. rewrite <- O1. unfold given. rewrite map_length.
      rewrite <- (map_seq_nth (dm_packets d)) at 1. rewrite map_map. erewrite map_ext; [reflexivity|]. intros j. cbv beta. now rewrite L.
    + intros j. rewrite E, Ed. intros As.
      destruct (nth_concat_perm (map all_but_last (dm_packets d)) j) as (r & Pr). rewrite nth_map_nil, L in Pr by reflexivity.
      apply (subseq_sorted _ _ r).
      * rewrite <- O1. exact Pr.
      * apply Sorted_StronglySorted; auto. intros x y z. unfold dts_le. lia.
      * apply ascending_removelast. now apply ascending_durs.
Qed.

Lemma only_last_durs l : only_last (durs l) = [] -> l = [].
Proof. destruct l as [|x l _] using rev_ind; [reflexivity|]. destruct (durs_last l x) as (y & ->). rewrite only_last_snoc. discriminate. Qed.
Lemma base_length d p : length (base_lists d p) = length (dm_packets d) \/ length (base_lists d p) = S (length (dm_packets d)).
Proof. unfold base_lists. destruct (_ <? _); auto. right. rewrite app_length. cbn. lia. Qed.
Lemma given_S n evs : lane n evs = [] -> given (S n) evs = given n evs.
Proof. intros E. unfold given. rewrite seq_S, map_app, concat_app. cbn. rewrite E. cbn. now rewrite app_nil_r. Qed.
Lemma given_base d p evs : dm_completed d = true -> lanes_ok d evs -> given (length (base_lists d p)) evs = given (length (dm_packets d)) evs.
Proof.
  intros C (L & _). destruct (base_length d p) as [-> | ->]; [reflexivity|]. apply given_S. specialize (L (length (dm_packets d))). rewrite C, nth_overflow in L by lia.
  now apply only_last_durs.
Qed.

Lemma process_lanes o d p d' e evs : oracle_ok o -> dm_tracks d <> [] -> lanes_ok d evs -> process_buffered_packet o d p = Ok (d', e) -> lanes_ok d' (evs ++ e).
Proof.
  intros O T LO P. apply process_cases in P as (k & l & N & K & P).
  assert (Hk : (k < length (base_lists d p))%nat) by (apply nth_error_Some; congruence).
  assert (N' : nth k (dm_packets d) [] = l) by (rewrite <- (nth_base d p); now apply nth_error_nth).
  pose proof (fun j => lane_add j k p _ K) as LA. destruct (LO) as (L & D & S3).
  assert (St1 : dm_completed d = false -> lanes_ok (with_packets d (set_nth k (stamp l p) (base_lists d p))) (evs ++ [EvAdd p (zlen (dm_packets d))])).
  { intros C. rewrite C in L. split; [|split; [|cbn; congruence]]; cbn [dm_completed with_packets dm_packets].
    - intros j. rewrite C, nth_set_nth, nth_base, lane_app, LA by assumption. destruct (Nat.eqb_spec j k) as [->|]; [|rewrite app_nil_r; apply L].
      rewrite durs_snoc, <- L, N'. reflexivity.
    - intros _. rewrite delivered_app, D by exact C. reflexivity. }
  destruct P as [(H & -> & ->)|[(l' & q & e' & -> & C & -> & F & ->)|(e' & Ln & C & _ & P & ->)]].
  - destruct (dm_completed d) eqn:C; [|now apply St1]. destruct H as [->|(X & _)]; [|congruence]. clear St1 D. destruct (S3 eq_refl) as [Pm As]. clear S3.
    assert (Ek : lane k evs = []) by (apply only_last_durs; rewrite <- L; exact N').
    assert (G : forall j, removelast (durs (lane j (evs ++ [EvAdd p (zlen (dm_packets d))]))) = removelast (durs (lane j evs))).
    { intros j. rewrite lane_app, LA. destruct (Nat.eqb_spec j k) as [->|]; [rewrite Ek; reflexivity|now rewrite app_nil_r]. }
    split; [|split; [cbn; congruence|intros _; split]]; cbn [dm_completed with_packets dm_packets].
    + intros j. rewrite C, nth_set_nth, nth_base, lane_app, LA by assumption. destruct (Nat.eqb_spec j k) as [->|]; [rewrite Ek; reflexivity|rewrite app_nil_r; apply L].
    + rewrite set_nth_length, delivered_app. cbn [delivered flat_map app]. rewrite app_nil_r, Pm.
      rewrite <- (given_base d p evs C LO). unfold given. erewrite map_ext; [reflexivity|]. intros j. symmetry. apply G.
    + intros j Asc. rewrite G, delivered_app. cbn [delivered flat_map app]. rewrite app_nil_r. apply As. rewrite lane_app in Asc. now apply StronglySorted_app_l in Asc.
  - apply forward_packet_events in F as (_ & F1 & F2 & _). rewrite C in L. clear St1 D. destruct (S3 C) as [Pm As]. clear S3.
    pose proof (L k) as Lk. rewrite N' in Lk. destruct (lane k evs) as [|x A _] eqn:EA using rev_ind; [destruct l'; discriminate|].
    destruct (durs_last A x) as (y & E). rewrite E, only_last_snoc in Lk.
    assert (l' = [] /\ q = x) as [-> ->] by (destruct l' as [|? [|? ?]]; inversion Lk; auto). clear Lk.
    set (x' := set_duration x (i64 (pk_dts p - pk_dts x))) in *.
    assert (EL : forall j, lane j (evs ++ EvAdd p (zlen (dm_packets d)) :: e') = lane j evs ++ (if (j =? k)%nat then [p] else [])).
    { intros j. rewrite lane_app. f_equal. change (EvAdd p (zlen (dm_packets d)) :: e') with ([EvAdd p (zlen (dm_packets d))] ++ e').
      rewrite lane_app, LA, (lane_none j e') by exact F2. apply app_nil_r. }
    assert (ED : delivered (evs ++ EvAdd p (zlen (dm_packets d)) :: e') = delivered evs ++ [x']).
    { rewrite delivered_app. f_equal. change (delivered (EvAdd p (zlen (dm_packets d)) :: e')) with (delivered e'). exact F1. }
    assert (EK : durs (lane k evs ++ [p]) = (removelast (durs (lane k evs)) ++ [x']) ++ [p]).
    { rewrite EA, durs_snoc, E, stamp_app, removelast_snoc, <- app_assoc. reflexivity. }
    split; [|split; [cbn; congruence|intros _; split]]; cbn [dm_completed with_packets dm_packets].
    + intros j. rewrite C, nth_set_nth, nth_base, EL by assumption. destruct (Nat.eqb_spec j k) as [->|]; [rewrite EK, only_last_snoc; reflexivity|rewrite app_nil_r; apply L].
    + rewrite set_nth_length, ED. symmetry. rewrite Pm, <- (given_base d p evs C LO). unfold given. apply (concat_seq_one _ _ k); [| |exact Hk].
      * intros j NE. rewrite EL. destruct (Nat.eqb_spec j k); [congruence|]. now rewrite app_nil_r.
      * rewrite EL, Nat.eqb_refl, EK. apply removelast_snoc.
    + intros j. rewrite EL, ED. intros Asc. destruct (Nat.eqb_spec j k) as [Ej|NE]; [subst j|].
      * rewrite EK, removelast_snoc. apply subseq_app; [|apply subseq_refl]. apply As. now apply StronglySorted_app_l in Asc.
      * rewrite app_nil_r in Asc |- *. apply subseq_skip_end. now apply As.
  - replace (evs ++ EvAdd p (zlen (dm_packets d)) :: e') with ((evs ++ [EvAdd p (zlen (dm_packets d))]) ++ e') by now rewrite <- app_assoc.
    eapply complete_lanes; [exact O| | |exact (St1 C)|exact P]; [exact C|]. intros X. exfalso. exact (T X).
Qed.
Lemma same_lanes d d' e evs : dm_packets d' = dm_packets d -> dm_completed d' = dm_completed d -> accepted e = [] -> delivered e = [] -> lanes_ok d evs -> lanes_ok d' (evs ++ e).
Proof.
  intros Pk C Q1 Q2 (L & D & S3). assert (E : forall j, lane j (evs ++ e) = lane j evs) by (intros j; now apply lane_keep).
  unfold lanes_ok. rewrite Pk, C, delivered_app, Q2, app_nil_r. split; [intros j; rewrite E; apply L|]. split; [exact D|]. intros Cm. destruct (S3 Cm) as [Pm As].
  split; [now rewrite (given_ext _ _ evs) by exact E|]. intros j. rewrite E. apply As.
Qed.
Lemma step_lanes o d a d' e evs : oracle_ok o -> wf d -> no_orphans d -> lanes_ok d evs -> step o d a = Ok (d', e) -> lanes_ok d' (evs ++ e).
Proof.
  intros O W NO St S. destruct (step_cases _ _ _ _ _ W S) as [((_ & _ & Pk & C) & Q & _)|[(buf & s & _ & C & E & -> & Q)|[(buf & id & data & dts & _ & P)|(_ & C)]]].
  - apply quiet_facts in Q as (_ & Q1 & Q2). eapply same_lanes; eauto.
  - apply quiet_facts in Q as (_ & Q1 & Q2). eapply same_lanes; eauto.
  - destruct P as [(-> & ->)|(d1 & i & s & p & G & I & X & _ & _ & _ & _ & _ & _ & _ & P)].
    + eapply same_lanes; eauto.
    + apply idx_not_nil in X. eapply process_lanes; [exact O|exact X| |exact P].
      destruct G as [->|(_ & _ & _ & _ & _ & ->)]; exact St.
  - destruct (dm_completed d) eqn:C0.
    + apply complete_cases in C as [(_ & -> & ->)|[(X & _)|(X & _)]]; [|congruence|congruence]. now rewrite app_nil_r.
    + eapply complete_lanes; eauto.
Qed.
Lemma reach_lanes name h d evs : Forall sorting h -> run (dm_new name) h = Ok (d, evs) -> lanes_ok d evs.
Proof.
  intros F R. refine (proj2 (run_inv sorting (fun d evs => (wf d /\ no_orphans d /\ balanced d evs) /\ lanes_ok d evs) (dm_new name) _ _ h d evs F R)).
  - split; [split; [apply wf_new|]; split; [intros _; reflexivity|]; split; [constructor|discriminate]|].
    split; [intros j; cbn; destruct j; reflexivity|]. split; [reflexivity|discriminate].
  - intros o a d1 evs1 d' e O ((W & NO & B) & St) S. destruct (step_balanced _ _ _ _ _ _ O W NO B S) as [NO' B'].
    split; [split; [eapply step_wf; eauto|auto]|]. eapply step_lanes; eauto.
Qed.

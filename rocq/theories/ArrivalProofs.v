(** * ArrivalProofs: when every stream has its own list of buffered packets. *)
From Coq Require Import String List Sorted.
From Verif Require Import Base CollectionsSpec NaluModel PacketModel DemuxModel DemuxProofs TrackSpec TrackProofs PropertiesDemux HandlerModel HandlerProofs IntakeSpec IntakeProofs ArrivalSpec.
Import ListNotations.
Local Open Scope list_scope.

Lemma in_turn_snoc l i : in_turn (l ++ [i]) <-> in_turn l /\ (forall k, 0 <= k < i -> In k l).
Proof.
  split.
  - intros T. split; [|intros k B; exact (T l i [] eq_refl k B)]. intros a j b -> k B. apply (T a j (b ++ [i])); [now rewrite <- app_assoc|exact B].
  - intros [T N] a j b E k B. destruct b as [|b0 b] using rev_ind.
    + apply app_inj_tail in E as [<- <-]. now apply N.
    + clear IHb. change (a ++ j :: b ++ [b0]) with (a ++ (j :: b) ++ [b0]) in E. rewrite app_assoc in E. apply app_inj_tail in E as [E _]. now apply (T a j b).
Qed.
Lemma aligned_app e e' : aligned (e ++ e') <-> aligned e /\ aligned e'.
Proof. apply Forall_app. Qed.

(** One list for each track number seen, if and as long as the numbers come in turn. *)
Definition listed (d : demuxer) (evs : list event) : Prop :=
  let ix := map pk_index (accepted evs) in (aligned evs <-> in_turn ix) /\ (aligned evs -> forall k, In k ix <-> 0 <= k < zlen (dm_packets d)).
Lemma listed_quiet d d' evs e : length (dm_packets d') = length (dm_packets d) -> accepted e = [] -> aligned e -> listed d evs -> listed d' (evs ++ e).
Proof.
  intros L A Al [T N]. unfold listed. rewrite accepted_app, A, app_nil_r, aligned_app. unfold zlen. rewrite L. split.
  - rewrite <- T. tauto.
  - intros [X _]. now apply N.
Qed.
Lemma step_listed o d a d' e evs : wf d -> listed d evs -> step o d a = Ok (d', e) -> listed d' (evs ++ e).
Proof.
  intros W L S. destruct (step_cases _ _ _ _ _ W S) as [((_ & _ & Pk & _) & Q & _)|[(buf & s & _ & _ & _ & -> & Q)|[(buf & id & data & dts & _ & P)|(_ & C)]]].
  - apply (listed_quiet d); [now rewrite Pk|now apply quiet_facts in Q|now apply quiet_aligned|exact L].
  - apply (listed_quiet d); [reflexivity|now apply quiet_facts in Q|now apply quiet_aligned|exact L].
  - destruct P as [(-> & ->)|(d1 & i & s & p & G & _ & _ & _ & _ & _ & _ & _ & _ & _ & P)]; [apply (listed_quiet d); [reflexivity|reflexivity|repeat constructor|exact L]|].
    destruct (process_packets _ _ _ _ _ P) as (N0 & L1 & _ & r & -> & Ar). destruct (process_events _ _ _ _ _ P) as [A _]. set (q := apply_pre (op_pre d a) p) in *.
    assert (Pk : dm_packets d1 = dm_packets d) by (destruct G as [->|(_ & _ & _ & _ & _ & ->)]; reflexivity). unfold base_lists in L1. rewrite Pk in *.
    destruct L as [T N]. unfold listed. rewrite accepted_app, A, map_app. cbn [map]. rewrite aligned_app, in_turn_snoc. set (ix := map pk_index (accepted evs)) in *. set (n := zlen (dm_packets d)) in *.
    assert (E : aligned (EvAdd q n :: r) <-> pk_index q <= n) by (unfold aligned; rewrite Forall_cons_iff; fold (aligned r); tauto).
    rewrite E. split.
    + rewrite <- T. split; intros [Al X]; (split; [exact Al|]); specialize (N Al).
      * intros k B. apply N. lia.
      * destruct (Z_le_gt_dec (pk_index q) n) as [|Gt]; [assumption|]. assert (In n ix) as I by (apply X; subst n; pose proof (zlen_nonneg (dm_packets d)); lia). apply N in I. lia.
    + intros [Al X] k. specialize (N Al). rewrite in_app_iff, N. cbn [In]. unfold zlen. rewrite L1. destruct (Z.ltb_spec (pk_index q) n) as [B|B].
      * fold (zlen (dm_packets d)). fold n. lia.
      * rewrite app_length. cbn [length]. rewrite Nat2Z.inj_add. fold (zlen (dm_packets d)). fold n. lia.
  - destruct (complete_packets_len _ _ _ _ C) as [L1 _]. destruct (complete_events _ _ _ _ C) as [A _]. apply (listed_quiet d); [exact L1|exact A|now apply complete_aligned in C|exact L].
Qed.
Lemma reach_listed name h d evs : run (dm_new name) h = Ok (d, evs) -> listed d evs.
Proof.
  intros R. refine (proj2 (run_hist (fun _ => True) (fun _ d evs => wf d /\ listed d evs) (dm_new name) _ _ h d evs _ R)).
  - split; [apply wf_new|]. split.
    + split; intros _; [intros a i b E; destruct a; discriminate|constructor].
    + intros _ k. cbn. unfold zlen. cbn. lia.
  - clear. intros h o a d evs d' e _ _ [W L] S. split; [eapply step_wf; eauto|eapply step_listed; eauto].
  - apply Forall_forall. auto.
Qed.

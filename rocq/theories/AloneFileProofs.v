(** * AloneFileProofs: the file of one track does not depend on the other streams (for C144). *)
From Verif Require Import Base NaluModel RecordModel AacModel FloatModel PacketModel DemuxModel DemuxProofs HandlerModel HandlerSpec HandlerProofs ReentProofs AloneSpec AloneProofs.
From Coq Require Import String List Permutation.
Import ListNotations.
Local Open Scope list_scope.

(** ** Who is delivered after the probe *)
Section delivered.
Variables (i : nat) (b : Z).
Local Notation settled := (AloneProofs.settled i b).
Definition fits (p : packet) : Prop := pk_buffer p = b <-> pk_index p = Z.of_nat i.

Lemma process_delivered o d p d' e : settled d -> In (pk_index p, pk_buffer p) (dm_map d) -> process_buffered_packet o d p = Ok (d', e) ->
  Forall fits (delivered e) /\ (pk_buffer p = b -> Forall (fun q => pk_buffer q = b) (delivered e)).
Proof.
  intros (W & C & _ & T & L & Lo) I P. apply process_cases in P as (k & l & N & K & [(_ & -> & ->)|[(l' & q & e' & -> & _ & -> & R & ->)|(e' & _ & X & _)]]); [split; constructor| |congruence].
  apply forward_packet_events in R as (_ & R & _). change (delivered (EvAdd p (zlen (dm_packets d)) :: e')) with (delivered e'). rewrite R.
  assert (Jq : In q (nth k (dm_packets d) [])) by (rewrite <- (AloneProofs.nth_base d p), (nth_error_nth _ _ _ N); apply in_elt).
  destruct (Lo k q Jq) as [Iq Kq]. pose proof (buffer_index i b d q W T Iq) as Bq. split; [repeat constructor; exact (proj1 Bq) || exact (proj2 Bq)|].
  intros B. repeat constructor. cbn [pk_buffer set_duration]. apply Bq, Kq, (place i d p k K L), (buffer_index i b d p W T I), B.
Qed.
Lemma step_delivered o d a d' e : settled d -> step o d a = Ok (d', e) ->
  Forall fits (delivered e) /\ (other b a = false -> Forall (fun q => pk_buffer q = b) (delivered e)).
Proof.
  intros S E. pose proof S as (W & C & H & _). destruct (op_front o d a) as [fr| | |] eqn:F; rewrite step_eq, F in E; cbn [bind] in E; try discriminate E. pose proof (front_cases _ _ _ _ F) as Q. destruct fr as [d1 e1|d1 p|d1].
  - injection E as <- <-. destruct Q as (_ & _ & -> & _). split; constructor.
  - clear Q. assert (Er : step o d a = Ok (d', e)) by (rewrite step_eq, F; exact E). clear E.
    assert (Nil : Forall fits (delivered [EvDiscardBack 0]) /\ Forall (fun q => pk_buffer q = b) (delivered [EvDiscardBack 0])) by (split; constructor).
    destruct a; cbn [op_front] in F; cbn [step] in Er;
      try (match type of F with bind ?x _ = _ => destruct x as [[? ?]| | |] end; cbn [bind] in F; discriminate F); try discriminate F.
    + destruct (audio_after o d buf id data ts W C) as [(_ & Q)|(q & I & B & Q)]; [rewrite Q in Er; injection Er as <- <-; split; [|intros _]; apply Nil|].
      specialize (Q (dm_packets d)). rewrite same_packets in Q. rewrite Q in Er. rewrite <- B in I. destruct (process_delivered _ _ _ _ _ S I Er) as [X Y]. split; [exact X|]. intros O. apply Y. cbn [other] in O. apply negb_false_iff, Z.eqb_eq in O. congruence.
    + destruct (video_after o d buf id data key dts pts W C H) as [(_ & Q)|(q & I & B & Q)]; [rewrite Q in Er; injection Er as <- <-; split; [|intros _]; apply Nil|].
      specialize (Q (dm_packets d)). rewrite same_packets in Q. rewrite Q in Er. rewrite <- B in I. destruct (process_delivered _ _ _ _ _ S I Er) as [X Y]. split; [exact X|]. intros O. apply Y. cbn [other] in O. apply negb_false_iff, Z.eqb_eq in O. congruence.
    + destruct (need_more d); discriminate F.
  - subst d1. unfold on_probe_complete in E. rewrite C in E. injection E as <- <-. split; constructor.
Qed.
Lemma run_delivered h : forall d d' e, settled d -> Forall op_hook_ok h -> run d h = Ok (d', e) ->
  Forall fits (delivered e) /\ (Forall (fun x => other b (snd x) = false) h -> Forall (fun q => pk_buffer q = b) (delivered e)).
Proof.
  induction h as [|[o a] t IH]; intros d d' e S F R; cbn [run] in R.
  - injection R as <- <-. split; constructor.
  - apply Forall_cons_iff in F as [Fa F]. destruct (step o d a) as [[d1 e1]| | |] eqn:E1; cbn [bind] in R; try discriminate. destruct (run d1 t) as [[d2 e2]| | |] eqn:E2; cbn [bind] in R; try discriminate. injection R as <- <-.
    assert (S1 : settled d1). { destruct (run_only i b [(o, a)] d d1 e1 (dm_packets d) S) as (S1 & _); auto; [cbn [run]; rewrite E1; cbn [bind]; now rewrite app_nil_r|apply S]. }
    destruct (step_delivered _ _ _ _ _ S E1) as [A B]. destruct (IH _ _ _ S1 F E2) as [A2 B2]. rewrite delivered_app. split; [now apply Forall_app|].
    intros O. apply Forall_cons_iff in O as [Oa O]. apply Forall_app. auto.
Qed.
End delivered.

(** ** What is written depends on the packets of the track only *)
Lemma writes_unique ts p w w' : writes_of ts p w -> writes_of ts p w' -> w = w'.
Proof.
  intros (d & A & ->) (d' & A' & ->). assert (E : d = d'); [|now rewrite E]. unfold access_unit in *. destruct (_ =? _); [|congruence].
  destruct A as (s & p1 & I & E). destruct A' as (s' & p1' & I' & E'). rewrite I in I'. injection I' as <-. rewrite E in E'. now injection E'.
Qed.
Lemma written_own ts j ps ws : Forall2 (writes_of ts) ps ws -> forall qs vs, Forall2 (writes_of ts) qs vs ->
  filter (fun p => Z.of_nat j =? pk_index p) ps = filter (fun p => Z.of_nat j =? pk_index p) qs -> written ps ws j = written qs vs j.
Proof.
  assert (K : forall ps ws, Forall2 (writes_of ts) ps ws -> exists us, Forall2 (writes_of ts) (filter (fun p => Z.of_nat j =? pk_index p) ps) us /\ written ps ws j = List.concat (List.concat us)).
  { induction 1 as [|p w ps' ws' Hp F (us & Fu & IH)]; [exists []; split; [constructor|reflexivity]|]. cbn [filter]. unfold written in *. cbn [combine filter fst]. destruct (_ =? _).
    - exists (w :: us). split; [now constructor|]. cbn [map snd List.concat]. rewrite !concat_app. now f_equal.
    - exists us. auto. }
  intros F qs vs G E. destruct (K _ _ F) as (us & Fu & ->). destruct (K _ _ G) as (us' & Fu' & ->). rewrite <- E in Fu'. do 2 f_equal. clear - Fu Fu'. revert us' Fu'. induction Fu as [|p w l l' Hp F IH]; intros us' G; inversion G; subst; [reflexivity|].
  f_equal; [eapply writes_unique; eauto|now apply IH].
Qed.

(** * PropertiesRoom: property C96, a ring block buffer that is never more than half full. *)
From Verif Require Import Base CollectionsSpec BlockModel BlockSpec HeapProofs DirectProofs RBProofs RoomSpec RoomProofs.

(** ** C96 *)
(** The side condition is on the FIFO only: no block positions, no growth count, no "exactly full". *)
Theorem C96_half_full : forall h c ops h0 r0 h' r' q' outs, rb_new h c = Ok (h0, r0) -> half_full c [] ops ->
  co_run rb_impl h0 r0 [] ops = ((h', r', q'), outs) ->
  Forall (fun p => fst p = snd p) outs /\ held_intact h' q' /\ rb_size r' = zlen q' /\ d_data (rb_d r') = d_data (rb_d r0).
Proof.
  intros h c ops h0 r0 h' r' q' outs E H R.
  assert (Hc : 0 <= c). { unfold rb_new, d_new, make in E. destruct (0 <=? c) eqn:X; [lia|discriminate]. }
  pose proof (roomy_run c ops h0 r0 [] [] (roomy_new h c h0 r0 Hc E) (Forall2_nil _) H) as Q. rewrite R in Q. destruct Q as (Q1 & Q2 & Q3).
  destruct Q1 as (I & D & _). split; [exact Q2|]. split; [eapply rb_inv_held; eauto|]. split; [|exact Q3]. apply rb_inv_count in I. lia.
Qed.

(** One byte over the half can be too much, whatever the capacity: with a block of m bytes, one pending byte, a Pop and m more
    bytes for the pending block, the ring of 2m bytes leaves its array although it never holds more than m + 1 bytes. *)
Definition C96_over (m : nat) : list bb_op := [BWrite (repeat 1 m); BFetch; BWrite [2]; BPop; BWrite (repeat 3 m)].
Lemma zlen_repeat (x : Z) m : zlen (repeat x m) = Z.of_nat m.
Proof. unfold zlen. now rewrite repeat_length. Qed.

Theorem C96_half_is_best : forall h m h0 r0 h' r' q' outs, (0 < m)%nat -> rb_new h (2 * Z.of_nat m) = Ok (h0, r0) ->
  co_run rb_impl h0 r0 [] (C96_over m) = ((h', r', q'), outs) ->
  half_full (2 * (Z.of_nat m + 1)) [] (C96_over m) /\ d_data (rb_d r') <> d_data (rb_d r0).
Proof.
  intros h m h0 r0 h' r' q' outs Hm E R. split.
  { unfold C96_over. cbn [half_full bb_spec fst app pending_of last_of rev removelast tl load snd]. rewrite ?zlen_repeat. change (zlen [2]) with 1. repeat split; lia. }
  remember (2 * Z.of_nat m) as c eqn:Hc.
  destruct (rb_new_inv true h c ltac:(lia)) as (h1 & r1 & E1 & (W & _)). rewrite E in E1. injection E1 as <- <-.
  unfold rb_new, d_new in E. rewrite make_ok in E by lia. cbn [bind] in E. injection E as _ <-. cbn [rb_d d_data].
  set (data := mkSlice (length h) 0 c) in *. assert (Ld : s_len data = c) by reflexivity. clearbody data.
  pose proof (zlen_repeat 1 m) as L1. pose proof (zlen_repeat 3 m) as L3.
  unfold C96_over in R. cbn [co_run] in R. unfold co_step at 1 in R. cbn [rb_impl] in R.
  destruct (rb_write_ok h0 _ (repeat 1 m) 0 0 (s_len data) [] (mkBlock 0 0 false) W eq_refl) as (h1 & r1 & E1 & W1 & _ & _ & _ & Cs1).
  rewrite E1 in R. cbn [bind raw_slice bb_spec pending_of last_of rev app observe] in R.
  destruct Cs1 as [D1 B1 C1 X1 _ _| |]; cbn [bk_index bk_size s_len] in *; [|exfalso; lia|exfalso; lia].
  destruct r1 as [[d1 n1 s1 b1] c1 x1]. cbn [rb_d d_data d_blocks rb_capacity rb_discard app] in *. rewrite L1 in *. subst d1 b1 c1 x1. pose proof W1 as (V1 & S1 & _). cbn in S1. subst s1.
  unfold co_step at 1 in R. cbn [rb_impl] in R. unfold rb_fetch, d_fetch in R.
  cbn [rb_d d_sealed negb assert bind d_blocks last_of rev app of_opt bk_completed bk_index bk_size removelast d_data] in R.
  rewrite reslice_ok in R by lia. cbn [bind raw_slice bb_spec pending_of last_of rev app removelast d_next d_sealed rb_capacity rb_discard] in R.
  set (k1 := mkBlock 0 (0 + Z.of_nat m) true) in *. set (r2 := mkRB (mkD data n1 false [k1]) (s_len data) 0) in *.
  assert (W2 : rb_wf h1 r2). { destruct W1 as (A1 & A2 & A3 & A4 & A5). inversion A5. split; [exact A1|]. split; [reflexivity|]. split; [exact A3|]. split; [exact A4|]. cbn in *. constructor; auto. }
  match type of R with context [co_step rb_impl h1 r2 ?q _] => set (q2 := q) in * end. clearbody q2.
  unfold co_step at 1 in R. cbn [rb_impl] in R.
  destruct (rb_write_ok h1 r2 [2] 0 (0 + (0 + Z.of_nat m)) (s_len data) [k1] (mkBlock (0 + (0 + Z.of_nat m)) 0 false) W2 eq_refl) as (h3 & r3 & E3 & W3 & _ & _ & _ & Cs3).
  rewrite E3 in R. cbn [bind raw_slice] in R. change (zlen [2]) with 1 in *.
  destruct Cs3 as [D3 B3 C3 X3 _ _| |]; cbn [bk_index bk_size s_len] in *; [|exfalso; lia|exfalso; lia].
  destruct r3 as [[d3 n3 s3 b3] c3 x3]. cbn [rb_d d_data d_blocks rb_capacity rb_discard app r2] in *. subst d3 b3 c3 x3. pose proof W3 as (V3 & S3 & C3 & Y3 & F3). cbn in S3. subst s3.
  destruct (bb_spec q2 None (BWrite [2])) as [q3 o3]. clearbody k1.
  unfold co_step at 1 in R. cbn [rb_impl] in R. unfold rb_pop, d_pop in R. cbn [rb_d d_sealed negb assert bind rb_discard Z.gtb Z.compare d_blocks tl d_data d_next first_of bk_index rb_capacity] in R.
  destruct (bb_spec q3 _ BPop) as [q4 o4].
  match type of R with context [co_step rb_impl h3 ?r _ _] => set (r4 := r) in * end.
  assert (W4 : rb_wf h3 r4). { inversion F3. split; [exact V3|]. split; [reflexivity|]. split; [unfold r4; cbn [rb_capacity rb_d d_data] in *; destruct (0 + (0 + Z.of_nat m) =? 0); exact C3|]. split; [exact Y3|]. assumption. }
  unfold co_step at 1 in R. cbn [rb_impl] in R.
  destruct (rb_write_ok h3 r4 (repeat 3 m) (0 + (0 + Z.of_nat m)) (0 + (0 + Z.of_nat m) + (0 + 1)) (s_len data) [] (mkBlock (0 + (0 + Z.of_nat m)) (0 + 1) false) W4 eq_refl) as (h5 & r5 & E5 & W5 & _ & _ & _ & Cs5).
  rewrite E5 in R. cbn [bind raw_slice] in R. rewrite L3 in *. destruct (bb_spec q4 None _) as [q5 o5]. injection R as _ <- _ _.
  destruct Cs5 as [| |Ha _ _ _ _ _ _]; cbn [bk_index bk_size] in *; [exfalso; lia|exfalso; lia|].
  intros Ex. rewrite Ex in Ha. destruct W4 as ((a & V4 & _) & _). cbn [r4 rb_d d_data] in V4. rewrite Ha in V4.
  assert (nth_error h3 (length h3) = None) by (apply nth_error_None; lia). congruence.
Qed.

(** Twenty operations on a ring of eight bytes that wraps, pops from both ends and never grows. *)
Definition C96_history : list bb_op :=
  [BWrite [1; 2; 3]; BFetch; BWrite [4]; BPop; BWrite [5]; BFetch; BWrite [6]; BWrite [7]; BPending; BFetch; BPop; BWrite [8; 9]; BFetch; BPop;
   BWrite [10; 11]; BPopBack; BWrite [12]; BFetch; BPop; BSize].
Example C96_example : exists h0 r0 h' r' q' outs s, rb_new [] 8 = Ok (h0, r0) /\ half_full 8 [] C96_history /\
  co_run rb_impl h0 r0 [] C96_history = ((h', r', q'), outs) /\ q' = [([12], Some s)] /\ read h' s = Ok [12] /\
  d_data (rb_d r') = d_data (rb_d r0) /\ d_blocks (rb_d r') = [mkBlock 2 1 true].
Proof.
  do 7 eexists. split; [reflexivity|]. split; [vm_compute; repeat split; intros X; discriminate X|]. 
  split; [vm_compute; reflexivity|]. repeat split; vm_compute; reflexivity.
Qed.
Print Assumptions C96_half_full.
Print Assumptions C96_half_is_best.

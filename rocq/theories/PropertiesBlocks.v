(** * PropertiesBlocks: properties C15-C24 of the block buffers, streams_buffer.go and direct_pipeline.go. *)
From Verif Require Import Base CollectionsSpec BlockModel BlockSpec HeapProofs DirectProofs RBProofs StreamsSpec StreamsProofs PipelineProofs.

(** ** C15 *)
Theorem C15_direct_buffer_refines_fifo : forall h c ops, 0 <= c ->
  exists h0 b0, d_new h c = Ok (h0, b0) /\
  Forall (fun p => fst p = snd p) (snd (co_run d_impl h0 b0 [] ops)).
Proof.
  intros h c ops H. destruct (d_new_inv h c H) as (h0 & b0 & E & I & _). exists h0, b0. split; [exact E|].
  pose proof (d_run_sim ops h0 b0 [] I) as S. destruct (co_run d_impl h0 b0 [] ops) as [[[h' b'] q'] outs]. apply S.
Qed.

(** growth after the first block, a block written in two pieces, an empty fetch, a reset *)
Example C15_example :
  exists h0 b0, d_new [] 2 = Ok (h0, b0) /\
  map snd (snd (co_run d_impl h0 b0 [] [BWrite [1; 2]; BFetch; BFetch; BWrite [3]; BPending; BWrite [4; 5]; BSize; BFetch; BPop; BPop; BSize; BWrite [6]; BFetch; BPopBack; BPopBack]))
  = [Ok BUnit; Ok (BBytes (Some [1; 2])); Ok (BBytes None); Ok BUnit; Ok (BNum 1); Ok BUnit; Ok (BNum 2); Ok (BBytes (Some [3; 4; 5]));
     Ok BUnit; Ok BUnit; Ok (BNum 0); Ok BUnit; Ok (BBytes (Some [6])); Ok BUnit; Panic].
Proof. do 2 eexists. split; [reflexivity|vm_compute; reflexivity]. Qed.
Print Assumptions C15_direct_buffer_refines_fifo.

(** ** C16 *)
Theorem C16_direct_held_blocks_intact : forall h c ops h0 b0 h' b' q' outs,
  d_new h c = Ok (h0, b0) -> co_run d_impl h0 b0 [] ops = ((h', b', q'), outs) -> held_intact h' q'.
Proof.
  intros h c ops h0 b0 h' b' q' outs E R.
  assert (0 <= c) as Hc. { unfold d_new, make in E. destruct (0 <=? c) eqn:X; [lia|discriminate]. }
  destruct (d_new_inv h c Hc) as (h1 & b1 & E1 & I & _). rewrite E in E1. injection E1 as <- <-.
  pose proof (d_run_sim ops h0 b0 [] I) as S. rewrite R in S. apply (d_inv_held h' b'), S.
Qed.

(** two blocks are held across a growth *)
Example C16_example : exists h0 b0 h' b' q' outs, d_new [] 2 = Ok (h0, b0) /\
  co_run d_impl h0 b0 [] [BWrite [1; 2]; BFetch; BWrite [3; 4; 5]; BFetch; BWrite [6; 7]] = ((h', b', q'), outs) /\
  q' = [([1; 2], Some (mkSlice 0 0 2)); ([3; 4; 5], Some (mkSlice 1 2 3)); ([6; 7], None)].
Proof. do 6 eexists. split; [reflexivity|]. split; vm_compute; reflexivity. Qed.
Print Assumptions C16_direct_held_blocks_intact.

(** ** C17 *)
Lemma d_inv_below h b q : d_inv h b q ->
  forall c s, In (c, Some s) q -> read h s = Ok c /\ apart s (d_free b).
Proof.
  intros (_ & fb & fq & pb & pq & _ & -> & F & P) c s HI. apply in_app_or in HI as [HI|HI].
  - induction F as [|x y fb fq H F IH]; [destruct HI|]. destruct HI as [->|HI]; [|auto].
    destruct H as (_ & c' & s' & E & R & A). injection E as <- <-. auto.
  - destruct P as [(_ & ->)|(k & g & _ & -> & _ & c' & -> & _)]; [destruct HI|]. destruct HI as [HI|[]]. discriminate.
Qed.

Lemma read_lt h s c : read h s = Ok c -> (s_arr s < length h)%nat.
Proof. unfold read. intros E. destruct (nth_error h (s_arr s)) eqn:X; [|discriminate]. apply nth_error_Some. congruence. Qed.

Theorem C17_split_off_seals : forall h c ops h0 b0 h1 b1 q1 outs1,
  d_new h c = Ok (h0, b0) -> co_run d_impl h0 b0 [] ops = ((h1, b1, q1), outs1) ->
  exists old new s, d_split_off b1 = Ok (old, new) /\
  (* the old buffer refuses everything *)
  (forall hh d, d_write hh old d = Panic) /\ (forall hh n, d_alloc hh old n = Panic) /\
  d_fetch old = Panic /\ d_pop old = Panic /\ d_pop_back old = Panic /\
  (* and its bytes, and those of the blocks still held, survive whatever is done with the new one *)
  d_data_slice old = Ok s /\
  forall ops2 h2 b2 q2 outs2, co_run d_impl h1 new [] ops2 = ((h2, b2, q2), outs2) ->
    read h2 s = read h1 s /\ held_intact h2 q1.
Proof.
  intros h c ops h0 b0 h1 b1 q1 outs1 E R.
  assert (0 <= c) as Hc. { unfold d_new, make in E. destruct (0 <=? c) eqn:X; [lia|discriminate]. }
  destruct (d_new_inv h c Hc) as (h0' & b0' & E1 & I & _). rewrite E in E1. injection E1 as <- <-.
  pose proof (d_run_sim ops h0 b0 [] I) as S. rewrite R in S. destruct S as [I1 _].
  pose proof I1 as ((V & N & Sl) & _).
  unfold d_split_off. rewrite (reslice_ok (d_data b1) (d_next b1) (s_len (d_data b1))) by lia. cbn [bind].
  do 3 eexists. split; [reflexivity|]. repeat (split; [reflexivity|]).
  split. { unfold d_data_slice. cbn [d_data d_next]. apply reslice_ok; lia. }
  intros ops2 h2 b2 q2 outs2 R2. set (mem := mkSlice _ _ _) in R2.
  assert (Fr : forall t, (s_arr t < length h1)%nat -> apart t mem -> read h2 t = read h1 t).
  { intros t Ht A. eapply (d_run_frame ops2 h1 (mkD mem (d_next b1) false []) [] h2 b2 q2 outs2 mem h1); eauto.
    - split; cbn [d_data d_next]; [|lia]. unfold mem. apply reslice_valid; [exact V|lia|lia].
    - right. reflexivity. }
  split.
  - apply Fr; [cbn [s_arr]; apply (valid_lt _ _ V)|]. unfold apart, mem. cbn [s_arr s_off s_len]. lia.
  - intros c0 s0 HI. destruct (d_inv_below _ _ _ I1 _ _ HI) as [Rd Ap]. rewrite Fr; [exact Rd|exact (read_lt _ _ _ Rd)|].
    exact Ap.
Qed.

Example C17_example : exists h0 b0 h1 b1 q1 o1 old new h2 b2 q2 o2 s,
  d_new [] 8 = Ok (h0, b0) /\ co_run d_impl h0 b0 [] [BWrite [1; 2]; BFetch; BWrite [3]] = ((h1, b1, q1), o1) /\
  d_split_off b1 = Ok (old, new) /\ d_data_slice old = Ok s /\
  co_run d_impl h1 new [] [BWrite [7; 7]; BFetch; BWrite [8; 8; 8; 8; 8; 8]] = ((h2, b2, q2), o2) /\
  Forall (fun p => fst p = snd p) o2 /\ read h2 s = Ok [1; 2; 3] /\ d_write h2 old [9] = Panic.
Proof. do 13 eexists. repeat (split; [vm_compute; reflexivity|]). split; [vm_compute; repeat constructor|]. split; vm_compute; reflexivity. Qed.
Print Assumptions C17_split_off_seals.

(** ** C18: false as stated. *)
Theorem C18_split_off_usable_refuted : exists h0 b0 h1 b1 q1 outs old new,
  d_new [] 4 = Ok (h0, b0) /\ co_run d_impl h0 b0 [] [BWrite [1; 2; 3]] = ((h1, b1, q1), outs) /\
  d_split_off b1 = Ok (old, new) /\
  d_available new = -2 /\ d_write h1 new [9] = Panic.
Proof. do 8 eexists. repeat (split; [vm_compute; reflexivity|]); vm_compute; reflexivity. Qed.
Print Assumptions C18_split_off_usable_refuted.

(** The new buffer works, for every history, exactly when the old one was at most half full. *)
Theorem C18_split_off_usable_partial : forall h c ops h0 b0 h1 b1 q1 outs1,
  d_new h c = Ok (h0, b0) -> co_run d_impl h0 b0 [] ops = ((h1, b1, q1), outs1) ->
  exists old new, d_split_off b1 = Ok (old, new) /\
  d_available new = s_len (d_data b1) - 2 * d_next b1 /\
  (2 * d_next b1 <= s_len (d_data b1) -> forall ops2,
     Forall (fun p => fst p = snd p) (snd (co_run d_impl h1 new [] ops2))) /\
  (2 * d_next b1 > s_len (d_data b1) -> forall d, d_write h1 new d = Panic) /\
  (* after Clear it always works *)
  (forall ops2, Forall (fun p => fst p = snd p) (snd (co_run d_impl h1 (d_clear new) [] ops2))).
Proof.
  intros h c ops h0 b0 h1 b1 q1 outs1 E R.
  assert (0 <= c) as Hc. { unfold d_new, make in E. destruct (0 <=? c) eqn:X; [lia|discriminate]. }
  destruct (d_new_inv h c Hc) as (h0' & b0' & E1 & I & _). rewrite E in E1. injection E1 as <- <-.
  pose proof (d_run_sim ops h0 b0 [] I) as S. rewrite R in S. destruct S as [I1 _].
  pose proof I1 as ((V & N & Sl) & _).
  unfold d_split_off. rewrite (reslice_ok (d_data b1) (d_next b1) (s_len (d_data b1))) by lia. cbn [bind].
  do 2 eexists. split; [reflexivity|]. set (mem := mkSlice _ _ _).
  assert (Vm : valid h1 mem). { unfold mem. apply reslice_valid; [exact V|lia|lia]. }
  assert (Lm : s_len mem = s_len (d_data b1) - d_next b1) by reflexivity.
  assert (G : forall n, 0 <= n <= s_len mem -> forall ops2, Forall (fun p => fst p = snd p) (snd (co_run d_impl h1 (mkD mem n false []) [] ops2))).
  { intros n Hn ops2. assert (J : d_inv h1 (mkD mem n false []) []).
    { split; [split; [exact Vm|split; [exact Hn|reflexivity]]|]. exists [], [], [], []. cbn. auto 6. }
    pose proof (d_run_sim ops2 _ _ _ J) as S. destruct (co_run d_impl h1 (mkD mem n false []) [] ops2) as [[[h' b'] q'] outs]. apply S. }
  split; [unfold d_available; cbn [d_data d_next]; lia|].
  split; [intros L ops2; apply G; lia|]. split.
  - intros L d. unfold d_write, d_alloc. cbn [d_sealed negb assert bind d_blocks last_of d_next d_data].
    change (last_of (@nil block)) with (@None block). cbv iota. pose proof (zlen_nonneg d).
    replace (d_next b1 + zlen d >? s_len mem) with true by lia. unfold d_grow. cbn [d_data d_next].
    rewrite make_ok by (Z.div_mod_to_equations; lia). cbn [bind]. unfold reslice. replace ((0 <=? 0) && (0 <=? d_next b1) && (d_next b1 <=? s_len mem)) with false by lia.
    reflexivity.
  - intros ops2. apply (G 0). lia.
Qed.

Example C18_example : exists h0 b0 h1 b1 q1 o1 old new,
  d_new [] 8 = Ok (h0, b0) /\ co_run d_impl h0 b0 [] [BWrite [1; 2]] = ((h1, b1, q1), o1) /\ d_split_off b1 = Ok (old, new) /\ d_available new = 4 /\
  map snd (snd (co_run d_impl h1 new [] [BWrite [7; 7]; BWrite [8; 8; 8; 8; 8; 8]; BFetch])) = [Ok BUnit; Ok BUnit; Ok (BBytes (Some [7; 7; 8; 8; 8; 8; 8; 8]))].
Proof. do 8 eexists. repeat (split; [vm_compute; reflexivity|]); vm_compute; reflexivity. Qed.
Print Assumptions C18_split_off_usable_partial.

(** ** C19: false as stated: a second growth overwrites discardBlockCount, so Pop gets out of step ... *)
Definition C19_history : list bb_op :=
  [BWrite [1; 2; 3; 4]; BFetch; BWrite [5; 6; 7; 8]; BFetch; BWrite [1; 1; 1; 1; 1; 1; 1; 1; 1; 1]; BFetch; BPop; BPop; BFetch].

(** ... and the third block, fetched but not popped, is gone: Fetch finds an empty queue and panics. *)
Theorem C19_rb_fetch_refuted : exists h0 r0, rb_new [] 4 = Ok (h0, r0) /\
  ~ Forall (fun p => fst p = snd p) (snd (co_run rb_impl h0 r0 [] C19_history)).
Proof.
  do 2 eexists. split; [reflexivity|]. vm_compute. intros F.
  repeat match goal with H : Forall _ (_ :: _) |- _ => inversion H; clear H; subst end. discriminate.
Qed.
Print Assumptions C19_rb_fetch_refuted.

Theorem C19_rb_fetch_partial : forall h c ops, 0 <= c ->
  exists h0 r0, rb_new h c = Ok (h0, r0) /\
  (all_ops rb_impl rb_cond h0 r0 [] ops -> Forall (fun p => fst p = snd p) (snd (co_run rb_impl h0 r0 [] ops))).
Proof.
  intros h c ops H. destruct (rb_new_inv false h c H) as (h0 & r0 & E & I). exists h0, r0. split; [exact E|]. intros A.
  pose proof (rb_run_sim false ops h0 r0 [] I A) as S. destruct (co_run rb_impl h0 r0 [] ops) as [[[h' b'] q'] outs]. apply S.
Qed.

(** The condition holds for a history with a wrap of a half-written block and a growth. *)
Example C19_example : exists h0 r0, rb_new [] 10 = Ok (h0, r0) /\
  let ops := [BWrite [1; 1; 1; 1]; BFetch; BWrite [2; 2; 2; 2]; BFetch; BPop; BWrite [3]; BWrite [3; 4]; BFetch; BWrite [5; 5; 5; 5; 5; 5]; BFetch; BPop; BPop; BPop] in
  all_ops rb_impl rb_cond h0 r0 [] ops /\
  map snd (snd (co_run rb_impl h0 r0 [] ops)) = [Ok BUnit; Ok (BBytes (Some [1; 1; 1; 1])); Ok BUnit; Ok (BBytes (Some [2; 2; 2; 2])); Ok BUnit; Ok BUnit; Ok BUnit; Ok (BBytes (Some [3; 3; 4]));
    Ok BUnit; Ok (BBytes (Some [5; 5; 5; 5; 5; 5])); Ok BUnit; Ok BUnit; Ok BUnit].
Proof.
  do 2 eexists. split; [reflexivity|]. split; [|vm_compute; reflexivity]. vm_compute.
  repeat split; intros; try discriminate; try congruence.
Qed.
Print Assumptions C19_rb_fetch_partial.

(** ** C20: false as stated: a write into an exactly full ring goes over the oldest block. *)
Theorem C20_rb_held_intact_refuted : exists h0 r0 h' r' q' outs s, rb_new [] 10 = Ok (h0, r0) /\
  co_run rb_impl h0 r0 [] [BWrite [1; 1; 1; 1]; BFetch; BWrite [2; 2; 2; 2]; BFetch; BPop; BWrite [3; 3; 3; 3]; BFetch; BWrite [4; 4]] = ((h', r', q'), outs) /\
  In ([2; 2; 2; 2], Some s) q' /\ read h' s = Ok [4; 4; 2; 2].
Proof.
  do 7 eexists. split; [reflexivity|]. split; [vm_compute; reflexivity|]. split; [left; reflexivity|vm_compute; reflexivity].
Qed.
Print Assumptions C20_rb_held_intact_refuted.

Theorem C20_rb_held_intact_partial : forall h c ops h0 r0 h' r' q' outs,
  rb_new h c = Ok (h0, r0) -> all_ops rb_impl rb_cond_full h0 r0 [] ops ->
  co_run rb_impl h0 r0 [] ops = ((h', r', q'), outs) -> held_intact h' q'.
Proof.
  intros h c ops h0 r0 h' r' q' outs E A R.
  assert (0 <= c) as Hc. { unfold rb_new, d_new, make in E. destruct (0 <=? c) eqn:X; [lia|discriminate]. }
  destruct (rb_new_inv true h c Hc) as (h1 & b1 & E1 & I). rewrite E in E1. injection E1 as <- <-.
  pose proof (rb_run_sim true ops h0 r0 [] I A) as S. rewrite R in S. eapply rb_inv_held; [|apply S]. reflexivity.
Qed.

Example C20_example : exists h0 r0 h' r' q' outs, rb_new [] 10 = Ok (h0, r0) /\
  let ops := [BWrite [1; 1; 1; 1]; BFetch; BWrite [2; 2; 2; 2]; BFetch; BPop; BWrite [3; 3; 3]; BFetch; BWrite [4; 4]; BFetch] in
  all_ops rb_impl rb_cond_full h0 r0 [] ops /\
  co_run rb_impl h0 r0 [] ops = ((h', r', q'), outs) /\
  q' = [([2; 2; 2; 2], Some (mkSlice 0 4 4)); ([3; 3; 3], Some (mkSlice 0 0 3)); ([4; 4], Some (mkSlice 1 0 2))].
Proof.
  do 6 eexists. split; [reflexivity|]. split; [|split; vm_compute; reflexivity]. vm_compute.
  repeat split; intros; try discriminate; try congruence;
  try (match goal with H : Ok _ = Ok _ |- _ => injection H as <- <-; reflexivity end);
  match goal with H : exists _, _ |- _ => destruct H as (hd & t & E1 & E2 & L1 & L2) end; try discriminate E1; injection E1 as <-; injection E2 as <-; try discriminate L1; try discriminate L2.
Qed.
Print Assumptions C20_rb_held_intact_partial.

(** ** C21: false as stated: with two growths the second Pop already releases the third block. *)
Definition C21_history : list bb_op :=
  [BWrite [1; 2; 3; 4]; BFetch; BWrite [5; 6; 7; 8]; BFetch; BWrite [1; 1; 1; 1; 1; 1; 1; 1; 1; 1]; BFetch; BPop; BPop; BWrite [9; 9; 9]].

Theorem C21_rb_pop_order_refuted : exists h0 r0 h' r' q' outs s, rb_new [] 4 = Ok (h0, r0) /\
  co_run rb_impl h0 r0 [] C21_history = ((h', r', q'), outs) /\
  (* three blocks fetched, two popped, the third is still held but its bytes are gone *)
  q' = [([1; 1; 1; 1; 1; 1; 1; 1; 1; 1], Some s); ([9; 9; 9], None)] /\
  read h' s = Ok [9; 9; 9; 1; 1; 1; 1; 1; 1; 1].
Proof. do 7 eexists. repeat (split; [vm_compute; reflexivity|]); vm_compute; reflexivity. Qed.
Print Assumptions C21_rb_pop_order_refuted.

(** Under the side conditions of C20: the buffer holds as many blocks as the FIFO does (those dropped by a
    growth count until their Pop), and all the fetched ones show their bytes. *)
Theorem C21_rb_pop_order_partial : forall h c ops h0 r0 h' r' q' outs,
  rb_new h c = Ok (h0, r0) -> all_ops rb_impl rb_cond_full h0 r0 [] ops ->
  co_run rb_impl h0 r0 [] ops = ((h', r', q'), outs) ->
  rb_discard r' + rb_size r' = zlen q' /\ held_intact h' q'.
Proof.
  intros h c ops h0 r0 h' r' q' outs E A R. split; [|eapply C20_rb_held_intact_partial; eauto].
  assert (0 <= c) as Hc. { unfold rb_new, d_new, make in E. destruct (0 <=? c) eqn:X; [lia|discriminate]. }
  destruct (rb_new_inv true h c Hc) as (h1 & b1 & E1 & I). rewrite E in E1. injection E1 as <- <-.
  pose proof (rb_run_sim true ops h0 r0 [] I A) as S. rewrite R in S. eapply rb_inv_count. apply S.
Qed.

Example C21_example : exists h0 r0 h' r' q' outs, rb_new [] 4 = Ok (h0, r0) /\
  let ops := [BWrite [1; 2; 3; 4]; BFetch; BWrite [5; 6; 7; 8]; BFetch; BWrite [9; 9]; BFetch; BPop; BPop] in
  all_ops rb_impl rb_cond_full h0 r0 [] ops /\
  co_run rb_impl h0 r0 [] ops = ((h', r', q'), outs) /\ zlen q' = 1 /\ rb_size r' = 1.
Proof.
  do 6 eexists. split; [reflexivity|]. split; [|split; [vm_compute; reflexivity|]; split; vm_compute; reflexivity]. vm_compute.
  repeat split; intros; try discriminate; try congruence;
  try (match goal with H : Ok _ = Ok _ |- _ => injection H as <- <-; reflexivity end);
  match goal with H : exists _, _ |- _ => destruct H as (hd & t & E1 & E2 & L1 & L2) end; try discriminate E1; injection E1 as <-; injection E2 as <-; try discriminate L1; try discriminate L2.
Qed.
Print Assumptions C21_rb_pop_order_partial.

(** ** C22 *)
(** Every stream returns what it would return if it were alone with private memory ... *)
Theorem C22_streams_isolated : forall h ops h' s outs, sb_run h [] ops = Ok (h', s, outs) ->
  forall j, exists st, alone_run None (of_stream j ops) = Ok (st, map snd (of_stream j outs)).
Proof. intros h ops h' s outs R j. exact (proj1 (sb_run_sim ops _ _ _ _ _ _ _ _ (sb_inv_init h) R) j). Qed.

(** ... and an operation on stream i leaves every slice handed out by another stream alone. *)
Theorem C22_streams_slices_isolated : forall h ops h1 s1 outs i o h2 s2 r x j t out,
  sb_run h [] ops = Ok (h1, s1, outs) -> sb_impl h1 s1 i o = Ok (h2, s2, r) -> observe h2 r = Ok x ->
  In (j, (RSlice (Some t), out)) outs -> j <> i -> read h2 t = read h1 t.
Proof.
  intros h ops h1 s1 outs i o h2 s2 r x j t out R E O HI Hj.
  destruct (sb_run_sim ops _ _ _ _ _ _ _ _ (sb_inv_init h) R) as (_ & al & own & I).
  destruct (sb_step _ _ _ _ _ _ _ _ _ _ _ I E O) as (st & own' & _ & _ & K).
  assert (Ow : nth_error own (s_arr t) = Some j).
  { apply (si_sl _ _ _ _ _ I). cbn [app]. unfold out_slices. apply in_flat_map. exists (j, (RSlice (Some t), out)). split; [exact HI|]. left. reflexivity. }
  unfold read. now rewrite (K _ _ Ow Hj).
Qed.

Definition visible (x : res (heap * sbuf * list (Z * (raw * bb_out)))) : option (Z * list (Z * bb_out)) :=
  match x with Ok (_, s, outs) => Some (zlen s, map (fun p => (fst p, snd (snd p))) outs) | _ => None end.

Example C22_example :
  visible (sb_run [] [] [(0, SWrite [1; 2] true); (1, SWrite [7] false); (0, SFetch); (1, SWrite [8; 9] false); (1, SFetch); (0, SDiscardHead)])
  = Some (2, [(0, BNum 2); (1, BNum 1); (0, BBytes (Some [1; 2])); (1, BNum 2); (1, BBytes (Some [7; 8; 9])); (0, BUnit)]).
Proof. vm_compute. reflexivity. Qed.
Print Assumptions C22_streams_isolated.
Print Assumptions C22_streams_slices_isolated.

(** ** C23: false as stated: the first write on index 1 panics when nothing was written on index 0. *)
Theorem C23_first_write_refuted : sb_write [] [] [1] 1 true = Panic.
Proof. vm_compute. reflexivity. Qed.
Print Assumptions C23_first_write_refuted.

Theorem C23_first_write_partial : forall h ops h1 s1 outs d i v, sb_run h [] ops = Ok (h1, s1, outs) ->
  0 <= i <= zlen s1 -> exists h2 s2, sb_write h1 s1 d i v = Ok (h2, s2, zlen d).
Proof.
  intros h ops h1 s1 outs d i v R Hi.
  destruct (sb_run_sim ops _ _ _ _ _ _ _ _ (sb_inv_init h) R) as (_ & al & own & I).
  assert (C : exists h2 s2 r, sb_find_or_create h1 s1 i v = Ok (h2, s2, r)).
  { unfold sb_find_or_create. destruct (i <? zlen s1) eqn:L.
    - destruct (idx_some s1 i) as [r E]; [lia|]. cbn [bind]. rewrite E. cbn [of_opt bind]. eauto.
    - destruct (rb_new_inv false h1 (stream_capacity v)) as (g & r0 & En & _); [destruct v; cbn; lia|]. rewrite En. cbn [bind].
      assert (i = zlen s1) as -> by lia. rewrite idx_app_r, Z.sub_diag by lia. rewrite (idx_nat [r0] 0 : idx [r0] 0 = _). cbn [nth_error of_opt bind]. eauto. }
  destruct C as (h2 & s2 & r & C). unfold sb_write. rewrite C. cbn [bind].
  destruct (sb_create_inv _ _ _ _ _ _ _ _ _ _ I C) as (own1 & h3 & r3 & _ & _ & Ei & I1 & _).
  destruct (si_buf _ _ _ _ _ I1 _ _ Ei) as (W & _). destruct (rb_write_frame h2 r d W) as (h4 & r4 & Ew & _). rewrite Ew. cbn [bind]. eauto.
Qed.

(** A stream starts with 2 MiB of memory if its first block is video, with 576000 bytes otherwise, and none of them is used. *)
Theorem C23_first_memory : forall h s v h1 s1 r, sb_find_or_create h s (zlen s) v = Ok (h1, s1, r) ->
  s1 = s ++ [r] /\ h1 = h ++ [zeros (Z.to_nat (if v then 2097152 else 576000))] /\
  d_data (rb_d r) = mkSlice (length h) 0 (if v then 2097152 else 576000) /\ rb_size r = 0.
Proof.
  intros h s v h1 s1 r. unfold sb_find_or_create, rb_new, d_new. replace (stream_capacity v) with (if v then 2097152 else 576000) by (destruct v; reflexivity).
  remember (if v then 2097152 else 576000) as c eqn:Hc. assert (0 <= c) by (subst c; destruct v; lia). clear Hc.
  rewrite Z.ltb_irrefl, make_ok by lia. cbn [bind]. rewrite idx_app_r, Z.sub_diag by lia. cbn [idx nth_error of_opt bind]. intros E. injection E as <- <- <-. auto.
Qed.
Print Assumptions C23_first_memory.

Example C23_example : visible (sb_run [] [] [(0, SWrite [1] true)]) = Some (1, [(0, BNum 1)]).
Proof. vm_compute. reflexivity. Qed.
Print Assumptions C23_first_write_partial.

(** ** C24 *)
Theorem C24_direct_pipeline : forall ops, Forall dp_op_ok ops ->
  snd (run dp_step ddp_new ops) = snd (run dp_spec [] ops).
Proof.
  intros ops F. apply (run_sim dp_op_ok dp_step dp_spec dp_rel); auto.
  - intros s t o R K. now apply dp_step_sim.
  - exists []. split; reflexivity.
Qed.

Example C24_example : let ops := [DPWrite [1; 2; 3]; DPSeek (-1); DPWrite [4]; DPPending; DPFetch; DPFetch; DPSeek (-5); DPWrite [6]; DPFetch] in
  snd (run dp_step ddp_new ops) = [Ok (DPNum 3); Ok DPUnit; Ok (DPNum 3); Ok (DPNum 3); Ok (DPBytes [1; 2; 4]); Ok (DPBytes []); Ok DPUnit; Ok (DPNum 1); Ok (DPBytes [6])] /\
  snd (run dp_spec [] ops) = snd (run dp_step ddp_new ops).
Proof. split; reflexivity. Qed.
Print Assumptions C24_direct_pipeline.

(** ** C77: false: SplitOff is promoted from DirectBlockBuffer, but RBBlockBuffer never moves nextOffset, so
    the "free" memory handed over is the whole array, live blocks included. *)
Theorem C77_rb_split_off_refuted : exists h0 r0 h1 r1 q1 outs old new h2 b2 s, rb_new [] 10 = Ok (h0, r0) /\
  co_run rb_impl h0 r0 [] [BWrite [1; 2; 3; 4]; BFetch] = ((h1, r1, q1), outs) /\
  d_split_off (rb_d r1) = Ok (old, new) /\ d_write h1 new [9; 9] = Ok (h2, b2) /\
  q1 = [([1; 2; 3; 4], Some s)] /\ read h2 s = Ok [9; 9; 3; 4].
Proof. do 11 eexists. repeat (split; [vm_compute; reflexivity|]). vm_compute. reflexivity. Qed.
Print Assumptions C77_rb_split_off_refuted.

(** After every history the memory handed over is all of the ring's memory; PropertiesSafe.v says exactly which bytes are lost. *)
Example C77_example : exists h0 r0 h' r' q' outs, rb_new [] 4 = Ok (h0, r0) /\
  co_run rb_impl h0 r0 [] [BWrite [1; 2; 3; 4]; BFetch; BPop; BWrite [5; 6; 7; 8; 9]] = ((h', r', q'), outs) /\
  d_data (rb_d r') = mkSlice 1 0 13.
Proof. do 6 eexists. split; [reflexivity|]. split; vm_compute; reflexivity. Qed.

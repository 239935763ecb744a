(** * PropertiesSafe: C101 and C102, the panics of RBBlockBuffer and StreamsBuffer. *)
From Verif Require Import Base RingProofs CollectionsSpec BlockModel BlockSpec HeapProofs RBProofs StreamsSpec StreamsProofs SafeSpec SafeProofs.

(** ** C101 *)
Theorem C101_rb_panics : forall h c ops h0 r0 h1 r1, rb_new h c = Ok (h0, r0) -> rb_calls h0 r0 ops = Ok (h1, r1) ->
  forall o, (forall s d, o <> XStore s d) ->
  (rb_panics (split_before ops) (rb_size r1) o = true -> rb_call h1 r1 o = Panic) /\
  (rb_panics (split_before ops) (rb_size r1) o = false -> exists x, rb_call h1 r1 o = Ok x).
Proof.
  intros h c ops h0 r0 h1 r1 E R o No. destruct (wfs_new _ _ _ _ E) as [W S]. destruct (rb_calls_ok _ _ _ _ _ W R) as [W1 S1].
  rewrite S in S1. destruct (rb_call_ok h1 r1 o W1) as (P & Q & _). rewrite S1 in P, Q. unfold split_before. split; [exact P|auto].
Qed.
Print Assumptions C101_rb_panics.

(** Alloc gives as many bytes as were asked for. *)
Theorem C101_alloc : forall h c ops h0 r0 h1 r1 n, rb_new h c = Ok (h0, r0) -> rb_calls h0 r0 ops = Ok (h1, r1) -> 0 <= n ->
  exists h2 r2 s l, rb_alloc h1 r1 n = Ok (h2, r2, s) /\ read h2 s = Ok l /\ zlen l = n.
Proof.
  intros h c ops h0 r0 h1 r1 n E R Hn. destruct (wfs_new _ _ _ _ E) as [W _]. destruct (rb_calls_ok _ _ _ _ _ W R) as [W1 _].
  destruct (rb_alloc_ok h1 r1 n W1 Hn) as (h2 & r2 & s & Ea & _ & V & L & _). destruct (valid_read _ _ V) as (l & Rl & Ll). exists h2, r2, s, l. split; [exact Ea|]. split; [exact Rl|]. now rewrite Ll.
Qed.
Print Assumptions C101_alloc.

(** A growth leaves one block: after PopBack nothing can be fetched although two blocks were not popped. Alloc works on a split buffer. *)
Example C101_example : exists h0 r0, rb_new [] 4 = Ok (h0, r0) /\
  (exists h1 r1, rb_calls h0 r0 [XWrite [1; 2]; XFetch; XWrite [3; 4]; XFetch; XWrite [5; 6]; XFetch] = Ok (h1, r1) /\ rb_size r1 = 1) /\
  rb_calls h0 r0 [XWrite [1; 2]; XFetch; XWrite [3; 4]; XFetch; XWrite [5; 6]; XFetch; XPopBack; XFetch] = Panic /\
  rb_calls h0 r0 [XWrite [1; 2]; XSplitOff; XPop] = Panic /\
  (exists h1 r1, rb_calls h0 r0 [XWrite [1; 2]; XSplitOff; XAlloc 7; XClear; XPop] = Ok (h1, r1)).
Proof.
  do 2 eexists. split; [reflexivity|]. split; [do 2 eexists; split; [vm_compute; reflexivity|reflexivity]|].
  split; [vm_compute; reflexivity|]. split; [vm_compute; reflexivity|]. do 2 eexists. vm_compute. reflexivity.
Qed.

(** ** C102 *)
Theorem C102_streams_panics : forall h ops h1 s1 outs, sb_run h [] ops = Ok (h1, s1, outs) -> forall i o,
  (sb_panics (map rb_size s1) i o = true -> sb_impl h1 s1 i o = Panic) /\
  (sb_panics (map rb_size s1) i o = false -> exists x, sb_impl h1 s1 i o = Ok x).
Proof.
  intros h ops h1 s1 outs R i o. destruct (sb_run_sim ops _ _ _ _ _ _ _ _ (sb_inv_init h) R) as (_ & al & own & I). apply (sb_call_ok h1 s1 al own _ i o I).
Qed.
Print Assumptions C102_streams_panics.

Example C102_example : sb_panics [0; 2] 2 (SWrite [1] true) = false /\ sb_panics [0; 2] 3 (SWrite [1] true) = true /\ sb_panics [0; 2] 0 SFetch = true /\
  sb_panics [0; 2] 1 SFetch = false /\ sb_panics [0; 2] 2 SFetch = true /\ sb_panics [0; 2] 0 SDiscardHead = false /\ sb_panics [0; 2] (-1) SPending = true.
Proof. repeat split. Qed.

(** ** C77, exactly: writes to the split-off buffer land one after the other on the ring from its first byte on, until one
    does not fit any more; every slice shows these bytes where it overlaps them and is otherwise unchanged. *)
Theorem C77_split_off_damage_partial : forall h c ops h0 r0 h1 r1, rb_new h c = Ok (h0, r0) -> rb_calls h0 r0 ops = Ok (h1, r1) ->
  let ring := d_data (rb_d r1) in
  exists old new, d_split_off (rb_d r1) = Ok (old, new) /\ d_sealed old = true /\ d_data new = ring /\
  forall ws, exists h2 b2, d_writes h1 new ws = Ok (h2, b2) /\ forall s l, read h1 s = Ok l ->
    exists l', read h2 s = Ok l' /\ if (s_arr s =? s_arr ring)%nat then painted (s_off s) (s_off ring) (landed (s_len ring) ws) l l' else l' = l.
Proof.
  intros h c ops h0 r0 h1 r1 E R ring. destruct (wfs_new _ _ _ _ E) as [W _]. destruct (rb_calls_ok _ _ _ _ _ W R) as [[(V & _) N] _]. cbn [unseal rb_d d_data] in V. fold ring in V.
  assert (L : 0 <= s_len ring) by (destruct V as (a & _ & _ & X & _); exact X).
  unfold d_split_off. fold ring. rewrite N, reslice_ok by lia. cbn [bind]. rewrite Z.add_0_r, Z.sub_0_r. replace (mkSlice (s_arr ring) (s_off ring) (s_len ring)) with ring by now destruct ring.
  do 2 eexists. split; [reflexivity|]. split; [reflexivity|]. split; [reflexivity|]. intros ws.
  destruct (d_writes_painted ws h1 (mkD ring 0 false [])) as (h2 & b2 & E2 & P2); [repeat split; cbn [d_data d_next]; auto; lia|].
  exists h2, b2. split; [exact E2|]. intros s l Rs. destruct (P2 s l Rs) as (l' & R' & Q). cbn [d_data d_next] in Q. rewrite Z.add_0_r, Z.sub_0_r in Q. eauto.
Qed.
Print Assumptions C77_split_off_damage_partial.

(** The first write spoils the first block, the second reaches into the next one, the third does not fit and spoils nothing. *)
Example C77_damage_example : exists h0 r0 h1 r1 old new h2 b2, rb_new [] 10 = Ok (h0, r0) /\
  rb_calls h0 r0 [XWrite [1; 2; 3; 4]; XFetch; XWrite [5; 6; 7; 8]; XFetch] = Ok (h1, r1) /\ d_split_off (rb_d r1) = Ok (old, new) /\
  landed 10 [[9; 9]; [10; 10; 10]; [11; 11; 11; 11; 11; 11]; [12]] = [9; 9; 10; 10; 10] /\
  d_writes h1 new [[9; 9]; [10; 10; 10]; [11; 11; 11; 11; 11; 11]; [12]] = Ok (h2, b2) /\
  read h2 (mkSlice 0 0 4) = Ok [9; 9; 10; 10] /\ read h2 (mkSlice 0 4 4) = Ok [10; 6; 7; 8].
Proof. do 8 eexists. split; [reflexivity|]. split; [vm_compute; reflexivity|]. split; [vm_compute; reflexivity|]. split; [reflexivity|]. split; [vm_compute; reflexivity|]. split; vm_compute; reflexivity. Qed.

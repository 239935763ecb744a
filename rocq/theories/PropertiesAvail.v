(** * PropertiesAvail: C105 and C106, Data, AvailableBytes and Alloc of the block buffers. *)
From Verif Require Import Base CollectionsSpec BlockModel BlockSpec HeapProofs DirectProofs SafeSpec SafeProofs AvailSpec AvailProofs.

(** ** C105 *)
Theorem C105_direct_data : forall h c ops h0 b0 h1 b1, d_new h c = Ok (h0, b0) -> d_run (h0, b0) ops = (h1, b1) ->
  let '(n, open, log) := since_empty ops in
  exists s, d_data_slice b1 = Ok s /\ read h1 s = Ok log /\ d_size b1 = Z.of_nat n /\
    d_available b1 = s_len (d_data b1) - zlen log /\ 0 <= d_available b1 /\
    (forall d, exists h2 b2, d_write h1 b1 d = Ok (h2, b2) /\
       (zlen d <= d_available b1 -> d_data b2 = d_data b1) /\ (d_available b1 < zlen d -> s_arr (d_data b2) = length h1)).
Proof.
  intros h c ops h0 b0 h1 b1 E R. pose proof (data_run ops _ _ _ (data_new _ _ _ _ E)) as D. rewrite R in D. fold (since_empty ops) in D. destruct (since_empty ops) as [[n open] log].
  destruct (data_slice _ _ _ _ _ D) as (E1 & R1 & L1). exists (all_data b1). split; [exact E1|]. split; [exact R1|]. pose proof D as ((V & N & Sl) & L & _). split; [unfold d_size, zlen; now rewrite L|].
  unfold d_available at 1 2. split; [lia|]. split; [lia|]. intros d. destruct (data_write _ _ _ d D) as (h2 & b2 & E2 & _). exists h2, b2. split; [exact E2|].
  apply write_alloc in E2 as (h3 & s & Ea & _). apply alloc_place in Ea as [_ P]. split; intros Q; [replace (_ <=? _) with true in P by lia; apply P|replace (_ <=? _) with false in P by lia; exact P].
Qed.
Print Assumptions C105_direct_data.

(** The popped [1] is still shown; with the last block gone the data is gone. *)
Example C105_example : exists h0 b0, d_new [] 4 = Ok (h0, b0) /\
  since_empty [BWrite [1]; BFetch; BWrite [2; 3]; BPop; BWrite [4; 5]] = (1%nat, true, [1; 2; 3; 4; 5]) /\
  since_empty [BWrite [1]; BFetch; BWrite [2; 3]; BPop; BWrite [4; 5]; BPopBack; BWrite [6]] = (1%nat, true, [6]) /\
  (let '(h1, b1) := d_run (h0, b0) [BWrite [1]; BFetch; BWrite [2; 3]; BPop; BWrite [4; 5]] in
   d_available b1 = 2 /\ exists s, d_data_slice b1 = Ok s /\ read h1 s = Ok [1; 2; 3; 4; 5]).
Proof. do 2 eexists. split; [reflexivity|]. split; [reflexivity|]. split; [reflexivity|]. vm_compute. split; [reflexivity|]. eexists. split; reflexivity. Qed.

(** RBBlockBuffer.AvailableBytes and Data say nothing: an empty ring of 8 bytes takes 8 bytes without growing, and holds them. *)
Theorem C105_ring_available_refuted : exists h0 r0 h1 r1, rb_new [] 8 = Ok (h0, r0) /\ rb_available r0 = 0 /\
  rb_write h0 r0 [1; 2; 3; 4; 5; 6; 7; 8] = Ok (h1, r1) /\ d_data (rb_d r1) = d_data (rb_d r0) /\ rb_data r1 = (None, None).
Proof. do 4 eexists. split; [reflexivity|]. split; [reflexivity|]. split; [vm_compute; reflexivity|]. split; reflexivity. Qed.
Print Assumptions C105_ring_available_refuted.

(** What a right AvailableBytes would return, after every history of calls (and stores through the slices handed out). *)
Theorem C105_ring_room : forall h c ops h0 r0 h1 r1 n, rb_new h c = Ok (h0, r0) -> rb_calls h0 r0 ops = Ok (h1, r1) -> 0 <= n ->
  exists h2 r2 s, rb_alloc h1 r1 n = Ok (h2, r2, s) /\
  (n <= rb_room r1 -> d_data (rb_d r2) = d_data (rb_d r1) /\ s_arr s = s_arr (d_data (rb_d r1))) /\
  (rb_room r1 < n -> s_arr (d_data (rb_d r2)) = length h1 /\ s_arr s = length h1).
Proof.
  intros h c ops h0 r0 h1 r1 n E R Hn. destruct (wfs_new _ _ _ _ E) as [W _]. destruct (rb_calls_ok _ _ _ _ _ W R) as [W1 _]. exact (rb_room_exact h1 r1 n W1 Hn).
Qed.
Print Assumptions C105_ring_room.

(** Three blocks of two bytes in a ring of 8, the oldest popped: two bytes behind the newest, or two at the front. With an open block of two
    bytes behind them, none behind and (moving it) none at the front. *)
Example C105_room_example : exists h0 r0 h1 r1 h2 r2, rb_new [] 8 = Ok (h0, r0) /\
  rb_calls h0 r0 [XWrite [1; 2]; XFetch; XWrite [3; 4]; XFetch; XWrite [5; 6]; XFetch; XPop] = Ok (h1, r1) /\ rb_room r1 = 2 /\
  rb_calls h1 r1 [XWrite [7; 8]] = Ok (h2, r2) /\ rb_room r2 = 0.
Proof. do 6 eexists. split; [reflexivity|]. split; [vm_compute; reflexivity|]. split; [reflexivity|]. split; [vm_compute; reflexivity|]. reflexivity. Qed.

(** ** C106 *)
(** Two bytes are allocated in a buffer of four, four more are written, and then the two are filled in: the block shows zeros. *)
Theorem C106_alloc_refuted : exists h0 b0 h1 b1 s h2 b2 h3 b4 f, d_new [] 4 = Ok (h0, b0) /\ d_alloc h0 b0 2 = Ok (h1, b1, s) /\
  d_write h1 b1 [3; 4; 5; 6] = Ok (h2, b2) /\ hcopy h2 s [1; 2] = Ok h3 /\ d_fetch b2 = Ok (b4, Some f) /\ read h3 f = Ok [0; 0; 3; 4; 5; 6].
Proof.
  do 10 eexists. split; [reflexivity|]. split; [vm_compute; reflexivity|]. split; [vm_compute; reflexivity|]. split; [vm_compute; reflexivity|].
  split; [vm_compute; reflexivity|]. vm_compute. reflexivity.
Qed.
Print Assumptions C106_alloc_refuted.

(** The bytes stored later appear exactly if what was written meanwhile fitted behind them. *)
Theorem C106_alloc_exact : forall h c ops h0 b0 h1 b1 d more, d_new h c = Ok (h0, b0) -> d_run (h0, b0) ops = (h1, b1) -> Forall adds more ->
  exists h2 b2 s junk, d_alloc h1 b1 (zlen d) = Ok (h2, b2, s) /\ zlen junk = zlen d /\ read h2 s = Ok junk /\
  forall h3 b3, d_run (h2, b2) more = (h3, b3) -> exists h4 ds, hcopy h3 s d = Ok h4 /\ d_data_slice b3 = Ok ds /\
    read h4 ds = Ok (snd (since_empty ops) ++ (if zlen (written more) <=? d_available b2 then d else junk) ++ written more).
Proof.
  intros h c ops h0 b0 h1 b1 d more E R A. pose proof (data_run ops _ _ _ (data_new _ _ _ _ E)) as D. rewrite R in D. fold (since_empty ops) in D. destruct (since_empty ops) as [[n open] log].
  destruct (fill_later _ _ _ _ _ more d D A) as (h2 & b2 & s & junk & Ea & Lj & Rj & F). exists h2, b2, s, junk. split; [exact Ea|]. split; [exact Lj|]. split; [exact Rj|]. intros h3 b3 R3. rewrite R3 in F. exact F.
Qed.
Print Assumptions C106_alloc_exact.

Example C106_example : exists h0 b0 h1 b1 h2 b2 s h3 b3 h4 ds, d_new [] 8 = Ok (h0, b0) /\ d_run (h0, b0) [BWrite [9; 9]; BFetch] = (h1, b1) /\
  d_alloc h1 b1 2 = Ok (h2, b2, s) /\ d_run (h2, b2) [BWrite [3]; BFetch; BWrite [4]] = (h3, b3) /\ hcopy h3 s [1; 2] = Ok h4 /\
  d_data_slice b3 = Ok ds /\ read h4 ds = Ok [9; 9; 1; 2; 3; 4].
Proof.
  do 11 eexists. split; [reflexivity|]. split; [vm_compute; reflexivity|]. split; [vm_compute; reflexivity|]. split; [vm_compute; reflexivity|].
  split; [vm_compute; reflexivity|]. split; [vm_compute; reflexivity|]. vm_compute. reflexivity.
Qed.

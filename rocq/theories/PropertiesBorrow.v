(** * PropertiesBorrow: C138, the demuxer together with a DirectDataPipeline. *)
From Verif Require Import Base BlockModel PacketModel DemuxModel DemuxProofs DeliverySpec SystemSpec PipeModel PipeSpec BorrowSpec BorrowProofs PropertiesDemux PropertiesSystem.
From Coq Require Import String List.
Import ListNotations.
Local Open Scope list_scope.

(* ---------------------------------------------------------------------------------------- *)
(** ** C138 A DirectDataPipeline gives the handler the bytes of later packets *)
(** [lend_run] runs the demuxer on a DirectDataPipeline with shared memory. The claim that the handler sees the bytes written is false
    in the simplest session: the demuxer delivers a packet when the next one arrives, and that one lies on top of it. *)
Definition C138_plain : list call :=
  [((o0, OpSetHandler), []); ((o0, OpAudio 0 G711A [1; 2; 3] 0), [[1; 2; 3]]); ((o0, OpProbeComplete), []); ((o0, OpAudio 0 G711A [4; 5; 6] 9000), [[4; 5; 6]])].
Definition lend_session (name : string) (l : list call) : res (list (packet * list Z)) := y <- lend_new name;; '(_, out) <- lend_run y l;; Ok out.
Theorem C138_seen_differs : exists name l d evs out, Forall well_behaved (map fst l) /\ Forall plain_hook (map fst l) /\ Forall honest l /\ run (dm_new name) (map fst l) = Ok (d, evs) /\
  lend_session name l = Ok out /\ ~ Forall (fun x => snd x = pk_data (fst x)) out.
Proof.
  exists "ps"%string, C138_plain. destruct (run (dm_new "ps") (map fst C138_plain)) as [[d evs]| | |] eqn:E; try (exfalso; clear - E; vm_compute in E; discriminate E).
  destruct (lend_session "ps" C138_plain) as [out| | |] eqn:L; try (exfalso; clear - L; vm_compute in L; discriminate L).
  exists d, evs, out. unfold C138_plain. split; [|split; [|split; [|split; [|split]]]].
  - repeat (apply Forall_cons; [split; [exact o0_ok|exact Logic.I]|]); apply Forall_nil.
  - repeat (apply Forall_cons; [exact Logic.I|]); apply Forall_nil.
  - repeat (apply Forall_cons; [first [exact Logic.I|reflexivity]|]); apply Forall_nil.
  - reflexivity.
  - reflexivity.
  - assert (S : (o <- lend_session "ps" C138_plain;; Ok (map (fun x => (pk_data (fst x), snd x)) o)) = Ok [([1; 2; 3], [4; 5; 6])]) by (vm_compute; reflexivity).
    rewrite L in S. cbn [bind] in S. intros F. destruct out as [|x [|]]; try discriminate S. cbn [map] in S. injection S as S1 S2. apply Forall_inv in F. rewrite F, S1 in S2. discriminate S2.
Qed.
Print Assumptions C138_seen_differs.

(** Whenever the demuxer that holds its data by value succeeds, so does this one, it ends in the same state and calls OnPacket with the
    same packets. No bound on the bytes is needed. *)
Theorem C138_packets : forall name l d evs, Forall well_behaved (map fst l) -> Forall plain_hook (map fst l) -> Forall honest l -> run (dm_new name) (map fst l) = Ok (d, evs) ->
  exists y0 y out, lend_new name = Ok y0 /\ lend_run y0 l = Ok (y, out) /\ ln_dm y = d /\ map fst out = delivered evs /\ zlen (ln_held y) = zlen (List.concat (dm_packets d)).
Proof.
  intros name l d evs F P Hn R. destruct (lend_reach name l d evs F P Hn R) as (y0 & y & out & N & E & L & _ & O). exists y0, y, out. repeat (split; [assumption || apply L|]).
  destruct L as [_ _ _ K _]. apply Permutation.Permutation_length in K. rewrite !map_length in K. unfold zlen. now rewrite K.
Qed.
Print Assumptions C138_packets.

(** The bytes, exactly. A packet delivered by call [c] was made by some call [c1] at or before it; what the handler sees is its data with
    every block written since on top, up to the first one that does not fit the array that the packet lies in. *)
Theorem C138_seen_exact : forall name l c d evs d' e, Forall well_behaved (map fst (l ++ [c])) -> Forall plain_hook (map fst (l ++ [c])) -> Forall honest (l ++ [c]) ->
  run (dm_new name) (map fst l) = Ok (d, evs) -> step (fst (fst c)) d (snd (fst c)) = Ok (d', e) ->
  exists y0 y out1 y' out2, lend_new name = Ok y0 /\ lend_run y0 l = Ok (y, out1) /\ lend_step y c = Ok (y', out2) /\ ln_dm y' = d' /\ map fst out2 = delivered e /\
    Forall (fun x => exists l1 c1 l2 q, l ++ [c] = l1 ++ c1 :: l2 /\ made name l1 c1 q /\ pk_buffer (fst x) = pk_buffer q /\ pk_dts (fst x) = pk_dts q /\ pk_data (fst x) = pk_data q /\
      snd x = shown (room (l1 ++ [c1])) (pk_data (fst x)) (blocks l2) /\ zlen (snd x) = zlen (pk_data (fst x))) out2.
Proof.
  intros name l c d evs d' e F P Hn R S. destruct (lend_last name l c d evs d' e F P Hn R S) as (y0 & y & out1 & y' & out2 & N & E & E' & D & O & Q).
  exists y0, y, out1, y', out2. repeat (split; [assumption|]). eapply Forall_impl; [|exact Q]. intros x (l1 & c1 & l2 & q & El & M & Eb & Et & Es). exists l1, c1, l2, q. unfold tag in Et. injection Et as Et Ed.
  repeat (split; [assumption|]). rewrite Es. unfold zlen. now rewrite shown_length.
Qed.
Print Assumptions C138_seen_exact.

(** If all blocks have the same size and are written in one piece, the handler is always given the bytes of the newest block, whatever
    the packet. *)
Theorem C138_same_size : forall name l c d evs d' e n, Forall well_behaved (map fst (l ++ [c])) -> Forall plain_hook (map fst (l ++ [c])) -> Forall honest (l ++ [c]) ->
  run (dm_new name) (map fst l) = Ok (d, evs) -> step (fst (fst c)) d (snd (fst c)) = Ok (d', e) -> Forall (fun b => exists x, b = [x] /\ zlen x = n) (blocks (l ++ [c])) ->
  exists y0 y out1 y' out2, lend_new name = Ok y0 /\ lend_run y0 l = Ok (y, out1) /\ lend_step y c = Ok (y', out2) /\ map fst out2 = delivered e /\
    Forall (fun x => snd x = last (map (@concat Z) (blocks (l ++ [c]))) []) out2.
Proof.
  intros name l c d evs d' e n F P Hn R S B. destruct (lend_last name l c d evs d' e F P Hn R S) as (y0 & y & out1 & y' & out2 & N & E & E' & D & O & Q).
  exists y0, y, out1, y', out2. repeat (split; [assumption|]). eapply Forall_impl; [|exact Q]. intros x Sx. exact (seen_sized name _ n _ _ Hn B Sx).
Qed.
Print Assumptions C138_same_size.

(** A block in one piece that does not fit leaves the slices before it alone for good. *)
Theorem C138_moved : forall c l d bs, shown c l ([d] :: bs) = if zlen d <=? c then shown c (over l d) bs else l.
Proof.
  intros c l d bs. cbn [shown concat landed]. rewrite app_nil_r, Z.sub_0_r. destruct (zlen d <=? c) eqn:C; [reflexivity|]. replace (c <? zlen d) with true by lia. apply over_nil.
Qed.
Print Assumptions C138_moved.
(** That is rare: every move is a new array in memory, and if no block has more than [M] bytes, there are at most log2 (M + 1) moves,
    however long the session. *)
Theorem C138_moves : forall name l d evs M, Forall well_behaved (map fst l) -> Forall plain_hook (map fst l) -> Forall honest l -> run (dm_new name) (map fst l) = Ok (d, evs) ->
  0 <= M -> Forall (fun b => zlen (concat b) <= M) (blocks l) ->
  exists y0 y out, lend_new name = Ok y0 /\ lend_run y0 l = Ok (y, out) /\ zlen (ln_heap y0) = 1 /\ zlen (ln_heap y) = 1 + Z.of_nat (moves 0 (blocks l)) /\ 2 ^ (zlen (ln_heap y) - 1) <= M + 1.
Proof.
  intros name l d evs M F P Hn R Hm B. pose proof (block_growth (blocks l) 0 ltac:(lia)) as G. pose proof (block_bound M (blocks l) 0 ltac:(lia) B) as K.
  destruct (lend_arrays name l d evs F P Hn R) as (y0 & y & out & N & E & A0 & A). exists y0, y, out. repeat (split; [assumption|]). rewrite A. replace (1 + Z.of_nat (moves 0 (blocks l)) - 1) with (Z.of_nat (moves 0 (blocks l))) by lia. lia.
Qed.
Print Assumptions C138_moves.

(** Two audio buffers. The block [9 ...] of 7 bytes moves to a new array when its second piece does not fit the 4 bytes of the first one:
    packet [1; 2; 3] of buffer 0 then shows the block of buffer 1, [4; 5], and the first piece on top of it. *)
Definition C138_calls : list call :=
  [((o0, OpSetHandler), []); ((o0, OpAudio 0 G711A [1; 2; 3] 0), [[1; 2]; [3]]); ((o0, OpAudio 1 G711A [4; 5] 4500), [[4; 5]]); ((o0, OpProbeComplete), []);
   ((o0, OpAudio 0 G711A [9; 8; 7; 6; 5; 4; 3] 9000), [[9]; [8; 7; 6; 5; 4; 3]]);
   ((o0, OpAudio 1 G711A [6; 6; 6] 13500), [[6; 6; 6]]); ((o0, OpAudio 0 G711A [7] 18000), [[7]])].
Example C138_example :
  (out <- lend_session "ts" C138_calls;; Ok (map (fun x => (pk_data (fst x), snd x)) out)) =
    Ok [([1; 2; 3], [9; 5; 3]); ([4; 5], [9; 5]); ([9; 8; 7; 6; 5; 4; 3], [7; 6; 6; 6; 5; 4; 3])] /\
  room C138_calls = 14 /\ moves 0 (blocks C138_calls) = 2%nat /\ Forall honest C138_calls.
Proof. split; [vm_compute; reflexivity|]. split; [vm_compute; reflexivity|]. split; [vm_compute; reflexivity|]. repeat (apply Forall_cons; [first [exact Logic.I|reflexivity]|]); apply Forall_nil. Qed.

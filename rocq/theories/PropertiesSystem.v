(** * PropertiesSystem: C97, the demuxer together with its StreamsBuffer. *)
From Verif Require Import Base BlockModel PacketModel DemuxModel DemuxProofs DeliverySpec DeliveryProofs PropertiesDemux PropertiesDelivery SystemSpec SystemProofs.
From Coq Require Import String Sorted List.
Import ListNotations.
Local Open Scope list_scope.

(* ---------------------------------------------------------------------------------------- *)
(** ** C97 The handler sees the bytes that were written *)
(** [sys_run] runs the demuxer on a StreamsBuffer with shared memory: each call writes its block in pieces, fetches it and passes the
    fetched slice; OnPacket is given what the slice kept for the packet shows at that moment; DiscardHeadPacket and DiscardBackPacket
    act on the buffers. The claim that the handler always sees the bytes written is false: below, a packet of 230400 bytes waits, and
    a block of 230401 bytes, written in two pieces into the audio buffer of 576000 bytes, overwrites its first byte. *)
Definition n230400 : nat := Z.to_nat 230400.
Definition C97_over : list call :=
  [((o0, OpSetAutoFree true), []); ((o0, OpSetHandler), []);
   ((o0, OpAudio 0 G711A (repeat 1 n230400) 0), [repeat 1 n230400]);
   ((o0, OpAudio 0 G711A (repeat 2 n230400) 1), [repeat 2 n230400]);
   ((o0, OpProbeComplete), []);
   ((o0, OpAudio 0 G711A (repeat 3 n230400 ++ [4]) 2), [repeat 3 n230400; [4]])].
Lemma C97_over_seen : ('(_, out) <- sys_run (sys_new "ps") C97_over;; Ok (map (fun x => (hd 0 (pk_data (fst x)), hd 0 (snd x))) out)) = Ok [(1, 1); (2, 4)].
Proof. vm_compute. reflexivity. Qed.
Theorem C97_seen_refuted : exists name l y out, Forall well_behaved (map fst l) /\ Forall delivery_op (map fst l) /\ Forall packet_driven (map fst l) /\
  Forall (fun c => match call_block (snd (fst c)) with Some (_, data) => concat (snd c) = data /\ snd c <> [] | None => True end) l /\
  sys_run (sys_new name) l = Ok (y, out) /\ ~ Forall (fun x => snd x = pk_data (fst x)) out.
Proof.
  pose proof C97_over_seen as H. destruct (sys_run (sys_new "ps") C97_over) as [[y out]| | |] eqn:E; cbn [bind] in H; try discriminate H.
  exists "ps"%string, C97_over, y, out. injection H as H.
  split; [|split; [|split; [|split; [|split; [|]]]]].
  1-3: unfold C97_over; cbn [map fst]; repeat (apply Forall_cons; [try (split; [exact o0_ok|]); try exact Logic.I; reflexivity|]); apply Forall_nil.
  - unfold C97_over. repeat (apply Forall_cons; [cbn [call_block fst snd]; first [exact Logic.I|split; [cbn [concat]; rewrite ?app_nil_r; reflexivity|discriminate]]|]); apply Forall_nil.
  - exact E.
  - intros F. destruct out as [|x1 [|x2 [|]]]; try discriminate H. cbn [map] in H. injection H as _ _ H1 H2. apply Forall_inv_tail, Forall_inv in F. rewrite <- F in H1. congruence.
Qed.
Print Assumptions C97_seen_refuted.

(** With AutoFree on, one buffer per track and lists aligned with tracks, and if for every block the bytes of the packets waiting for
    its buffer and the block itself fill at most half of the buffer ([supplied]): whatever the timestamps (C86 needs them ascending
    because at the end of the probe a packet may release another one's block, but no block is written before all of them are
    delivered), whenever the demuxer that holds its data by value succeeds, the system succeeds, the handler sees the same packets with exactly these bytes,
    and every slice still held shows the bytes of its waiting packet. *)
Theorem C97_seen_partial : forall name o0 c0 l d evs, let h := map fst l in
  Forall well_behaved ((o0, OpSetAutoFree true) :: h) -> Forall delivery_op h -> run (dm_new name) ((o0, OpSetAutoFree true) :: h) = Ok (d, evs) ->
  aligned evs -> NoDup (map snd (dm_map d)) ->
  supplied (dm_new name) [] (((o0, OpSetAutoFree true), c0) :: l) ->
  exists y out, sys_run (sys_new name) (((o0, OpSetAutoFree true), c0) :: l) = Ok (y, out) /\ sy_dm y = d /\
    map fst out = delivered evs /\ Forall (fun x => snd x = pk_data (fst x)) out /\
    forall b, Forall2 (fun x p => fst x = tag p /\ read (sy_heap y) (snd x) = Ok (pk_data p)) (held_of b (sy_held y)) (waiting b d).
Proof.
  intros name o c0 l d evs h F D R Al N Su. destruct (reach_system name o c0 l d evs F D R Al N Su) as (y & out & E & K & O1 & O2).
  exists y, out. split; [exact E|]. split; [apply K|]. split; [exact O1|]. split; [exact O2|]. intros b. eapply sys_held_ok; eauto.
Qed.
(** When tracks are created from packets only, two of the conditions hold by themselves. *)
Theorem C97_seen_driven : forall name o0 c0 l d evs, let h := map fst l in
  Forall well_behaved ((o0, OpSetAutoFree true) :: h) -> Forall delivery_op h -> Forall packet_driven h -> run (dm_new name) ((o0, OpSetAutoFree true) :: h) = Ok (d, evs) ->
  supplied (dm_new name) [] (((o0, OpSetAutoFree true), c0) :: l) ->
  exists y out, sys_run (sys_new name) (((o0, OpSetAutoFree true), c0) :: l) = Ok (y, out) /\ sy_dm y = d /\
    map fst out = delivered evs /\ Forall (fun x => snd x = pk_data (fst x)) out.
Proof.
  intros name o c0 l d evs h W D P R Su. destruct (reach_driven name ((o, OpSetAutoFree true) :: h) d evs) as ((Al & _ & N) & _); auto.
  - apply Forall_cons; [split; [exact Logic.I|reflexivity]|]. inversion W as [|x l' _ W2]; subst. clear -W2 P. subst h. induction W2 as [|x l' [_ H] _ IH]; constructor.
    + now apply Forall_inv in P.
    + apply IH. now apply Forall_inv_tail in P.
  - destruct (C97_seen_partial name o c0 l d evs W D R Al N Su) as (y & out & E & K & O1 & O2 & _). eauto 6.
Qed.
(** After the probe a quarter of the buffer, [c / 2] for [c] its half, is enough for each packet. *)
Theorem C97_quarter : forall name h d evs b c x, Forall well_behaved h -> run (dm_new name) h = Ok (d, evs) -> dm_completed d = true -> aligned evs ->
  NoDup (map snd (dm_map d)) -> 0 <= c -> (forall p, In p (waiting b d) -> 2 * zlen (pk_data p) <= c) -> 2 * x <= c -> bytes_of (waiting b d) + x <= c.
Proof.
  intros name h d evs b c x F R C Al N Hc Hq Hx. destruct (reach_live _ _ _ _ F R) as (W & _ & Or).
  destruct (reach_balanced name _ d evs (Forall_impl sorting (fun x => @proj1 _ _) F) R) as (_ & _ & [_ B] & St). specialize (B C).
  assert (L : (length (waiting b d) <= 1)%nat).
  { destruct (buffer_dec (dm_map d) b) as [(i & I)|No]; [|unfold waiting; rewrite (waiting_none _ b _ No Or); cbn; lia].
    rewrite (waiting_nth d i b W N (indexed_streams _ _ St Al) Or I). destruct (nth_in_or_default (Z.to_nat i) (dm_packets d) []) as [J| ->]; [|cbn; lia]. rewrite Forall_forall in B. now apply B. }
  destruct (waiting b d) as [|p [|q r]]; [change (bytes_of []) with 0; lia| |cbn in L; lia]. specialize (Hq p (or_introl eq_refl)).
  change (bytes_of [p]) with (zlen (pk_data p) + 0). lia.
Qed.
Print Assumptions C97_seen_partial.
Print Assumptions C97_seen_driven.
Print Assumptions C97_quarter.
(** Two audio buffers, blocks in several pieces; the last packets [8; 8] and [6] are still held. *)
Definition C97_calls : list call :=
  [((o0, OpSetAutoFree true), []); ((o0, OpSetHandler), []);
   ((o0, OpAudio 0 G711A [1; 2; 3] 0), [[1; 2]; [3]]); ((o0, OpAudio 1 G711A [4] 4500), [[4]]); ((o0, OpAudio 0 G711A [5; 5] 9000), [[5]; []; [5]]);
   ((o0, OpProbeComplete), []); ((o0, OpAudio 1 G711A [6] 13500), [[6]]); ((o0, OpAudio 2 G711A [7] 0), [[7]]); ((o0, OpAudio 0 G711A [8; 8] 18000), [[8; 8]])].
Example C97_example :
  ('(y, out) <- sys_run (sys_new "ts") C97_calls;;
   Ok (map (fun x => (pk_buffer (fst x), pk_dts (fst x), snd x)) out, map (fun x => (fst x, read (sy_heap y) (snd x))) (sy_held y), map rb_size (sy_bufs y))) =
  Ok ([(0, 0, [1; 2; 3]); (1, 4500, [4]); (0, 9000, [5; 5])], [((1, (13500, [6])), Ok [6]); ((0, (18000, [8; 8])), Ok [8; 8])], [1; 1; 0]) /\
  supplied (dm_new "ts") [] C97_calls.
Proof. split; [vm_compute; reflexivity|]. vm_compute. repeat (split; try discriminate; try reflexivity). Qed.

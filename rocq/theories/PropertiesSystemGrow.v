(** * PropertiesSystemGrow: C115, the demuxer on stream buffers that may grow. *)
From Verif Require Import Base CollectionsSpec BlockModel BlockSpec PacketModel DemuxModel DemuxProofs DeliverySpec DeliveryProofs PropertiesDemux PropertiesDelivery SystemSpec SystemProofs
  SystemGrowSpec SystemGrowProofs.
From Coq Require Import String Sorted List.
Import ListNotations.
Local Open Scope list_scope.

(* ---------------------------------------------------------------------------------------- *)
(** ** C115 The handler sees the bytes that were written, growths included *)
(** C97 bounds the load of every buffer, so that no buffer grows. Here there is no bound: with AutoFree on, one buffer per track and
    lists aligned with tracks, if no piece of a block meets an exactly full ring and no piece makes a buffer grow while blocks that
    an earlier growth set aside wait for their release ([sys_fits]), then whenever the demuxer that holds its data by value succeeds,
    the system succeeds, the handler sees the same packets with exactly these bytes, and every slice still held shows the bytes of
    its waiting packet. *)
Theorem C115_seen : forall name o0 c0 l d evs, let h := map fst l in
  Forall well_behaved ((o0, OpSetAutoFree true) :: h) -> Forall delivery_op h -> run (dm_new name) ((o0, OpSetAutoFree true) :: h) = Ok (d, evs) ->
  aligned evs -> NoDup (map snd (dm_map d)) ->
  sys_fits (sys_new name) (((o0, OpSetAutoFree true), c0) :: l) ->
  exists y out, sys_run (sys_new name) (((o0, OpSetAutoFree true), c0) :: l) = Ok (y, out) /\ sy_dm y = d /\
    map fst out = delivered evs /\ Forall (fun x => snd x = pk_data (fst x)) out /\
    forall b, Forall2 (fun x p => fst x = tag p /\ read (sy_heap y) (snd x) = Ok (pk_data p)) (held_of b (sy_held y)) (waiting b d).
Proof.
  intros name o c0 l d evs h F D R Al N Su. destruct (reach_fit name o c0 l d evs F D R Al N Su) as (y & out & E & K & O1 & O2).
  exists y, out. split; [exact E|]. split; [apply K|]. split; [exact O1|]. split; [exact O2|]. intros b. eapply synced_held; eauto.
Qed.
(** When tracks are created from packets only, two of the conditions hold by themselves. *)
Theorem C115_driven : forall name o0 c0 l d evs, let h := map fst l in
  Forall well_behaved ((o0, OpSetAutoFree true) :: h) -> Forall delivery_op h -> Forall packet_driven h -> run (dm_new name) ((o0, OpSetAutoFree true) :: h) = Ok (d, evs) ->
  sys_fits (sys_new name) (((o0, OpSetAutoFree true), c0) :: l) ->
  exists y out, sys_run (sys_new name) (((o0, OpSetAutoFree true), c0) :: l) = Ok (y, out) /\ sy_dm y = d /\
    map fst out = delivered evs /\ Forall (fun x => snd x = pk_data (fst x)) out.
Proof.
  intros name o c0 l d evs h W D P R Su. destruct (reach_driven name ((o, OpSetAutoFree true) :: h) d evs) as ((Al & _ & N) & _); auto.
  - apply Forall_cons; [split; [exact Logic.I|reflexivity]|]. inversion W as [|x l' _ W2]; subst. clear -W2 P. subst h. induction W2 as [|x l' [_ H] _ IH]; constructor.
    + now apply Forall_inv in P.
    + apply IH. now apply Forall_inv_tail in P.
  - destruct (C115_seen name o c0 l d evs W D R Al N Su) as (y & out & E & K & O1 & O2 & _). eauto 6.
Qed.
(** The load bound of C97 implies the condition. *)
Theorem C115_half : forall name o0 c0 l d evs, let h := map fst l in
  Forall well_behaved ((o0, OpSetAutoFree true) :: h) -> Forall delivery_op h -> run (dm_new name) ((o0, OpSetAutoFree true) :: h) = Ok (d, evs) ->
  aligned evs -> NoDup (map snd (dm_map d)) ->
  supplied (dm_new name) [] (((o0, OpSetAutoFree true), c0) :: l) -> sys_fits (sys_new name) (((o0, OpSetAutoFree true), c0) :: l).
Proof. exact supplied_fits. Qed.
Print Assumptions C115_seen.
Print Assumptions C115_driven.
Print Assumptions C115_half.

(** The condition by computation. *)
Definition fullb (r : rbuf) : bool :=
  match first_of (d_blocks (rb_d r)), last_of (d_blocks (rb_d r)) with
  | Some hd, Some t => (bk_index t <? bk_index hd) && (bk_index t + bk_size t =? bk_index hd)
  | _, _ => false
  end.
Definition slice_eqb (a b : gslice) : bool := Nat.eqb (s_arr a) (s_arr b) && (s_off a =? s_off b) && (s_len a =? s_len b).
Definition keepsb (h : heap) (r : rbuf) (c : list Z) : bool :=
  (rb_discard r <=? 0) || match rb_write h r c with Ok (_, r2) => slice_eqb (d_data (rb_d r2)) (d_data (rb_d r)) | _ => true end.
Fixpoint chunksb (h : heap) (s : sbuf) (buf : Z) (video : bool) (chunks : list (list Z)) : bool :=
  match chunks with
  | [] => true
  | c :: t =>
    match sb_find_or_create h s buf video with Ok (h1, _, r) => negb (fullb r) && keepsb h1 r c | _ => true end &&
    match sb_write h s c buf video with Ok (h1, s1, _) => chunksb h1 s1 buf video t | _ => true end
  end.
Lemma chunksb_fit buf v chunks : forall h s, chunksb h s buf v chunks = true -> chunks_fit h s buf v chunks.
Proof.
  induction chunks as [|c t IH]; intros h s H; cbn [chunksb chunks_fit] in *; [exact Logic.I|]. apply andb_prop in H as [H1 H2]. split.
  - destruct (sb_find_or_create h s buf v) as [[[h1 s1] r]| | |]; auto. apply andb_prop in H1 as [H1 H3]. split.
    + intros (a & z & Ea & Ez & L & E). unfold fullb in H1. rewrite Ea, Ez in H1. replace (bk_index z <? bk_index a) with true in H1 by lia. rewrite E, Z.eqb_refl in H1. discriminate H1.
    + intros G h2 r2 W. unfold keepsb in H3. rewrite W in H3. replace (rb_discard r <=? 0) with false in H3 by lia. cbn [orb] in H3. unfold slice_eqb in H3.
      destruct (d_data (rb_d r2)) as [a1 o1 l1], (d_data (rb_d r)) as [a2 o2 l2]. cbn [s_arr s_off s_len] in H3. apply andb_prop in H3 as [H3 H5]. apply andb_prop in H3 as [H3 H4].
      apply Nat.eqb_eq in H3. f_equal; [exact H3|lia|lia].
  - destruct (sb_write h s c buf v) as [[[h1 s1] n]| | |]; auto.
Qed.
Definition callb (y : system) (c : call) : bool :=
  match call_block (snd (fst c)) with
  | None => true
  | Some (buf, data) =>
    (if list_eq_dec Z.eq_dec (concat (snd c)) data then true else false) && negb (zlen (snd c) =? 0) && (0 <=? buf) && (buf <=? zlen (sy_bufs y)) &&
    chunksb (sy_heap y) (sy_bufs y) buf (call_video (snd (fst c))) (snd c)
  end.
Fixpoint fitsb (y : system) (l : list call) : bool :=
  match l with [] => true | c :: t => callb y c && match sys_step y c with Ok (y1, _) => fitsb y1 t | _ => true end end.
Lemma fitsb_fits l : forall y, fitsb y l = true -> sys_fits y l.
Proof.
  induction l as [|c t IH]; intros y H; cbn [fitsb sys_fits] in *; [exact Logic.I|]. apply andb_prop in H as [H1 H2]. split.
  - unfold callb, call_fits in *. destruct (call_block (snd (fst c))) as [[buf data]|]; [|exact Logic.I]. repeat (apply andb_prop in H1 as [H1 ?]).
    destruct (list_eq_dec Z.eq_dec _ _); [|discriminate H1]. split; [assumption|]. split; [intros Z; rewrite Z in *; discriminate|]. split; [lia|]. now apply chunksb_fit.
  - destruct (sys_step y c) as [[y1 o1]| | |]; auto.
Qed.

(** Two packets of 230400 bytes wait in an audio buffer of 576000 bytes; a third one makes it grow, and the packets set aside still
    show their bytes when the probe ends. *)
Definition m230400 : nat := Z.to_nat 230400.
Definition C115_calls : list call :=
  [((o0, OpSetAutoFree true), []); ((o0, OpSetHandler), []);
   ((o0, OpAudio 0 G711A (repeat 1 m230400) 0), [repeat 1 m230400]);
   ((o0, OpAudio 0 G711A (repeat 2 m230400) 1), [repeat 2 m230400]);
   ((o0, OpAudio 0 G711A (repeat 3 m230400) 2), [repeat 3 m230400]);
   ((o0, OpProbeComplete), []);
   ((o0, OpAudio 0 G711A [4; 4] 3), [[4]; [4]])].
Lemma C115_calls_fit : fitsb (sys_new "ps") C115_calls = true.
Proof. vm_compute. reflexivity. Qed.
Example C115_example : sys_fits (sys_new "ps") C115_calls /\
  ('(y, out) <- sys_run (sys_new "ps") C115_calls;; Ok (length (sy_heap y), map (fun x => (pk_dts (fst x), hd 0 (snd x), zlen (snd x))) out)) =
  Ok (2%nat, [(0, 1, 230400); (1, 2, 230400); (2, 3, 230400)]).
Proof. split; [apply fitsb_fits; exact C115_calls_fit|vm_compute; reflexivity]. Qed.

(** The second condition is needed: the third packet makes the buffer grow a second time while the first one, set aside by the first
    growth, still waits. That release is forgotten, the two releases at the end of the probe reach the third packet, and the next block
    overwrites it before it is delivered. *)
Definition C115_forgotten : list call :=
  [((o0, OpSetAutoFree true), []); ((o0, OpSetHandler), []);
   ((o0, OpAudio 0 G711A (repeat 1 (Z.to_nat 576000)) 0), [repeat 1 (Z.to_nat 576000)]);
   ((o0, OpAudio 0 G711A [2] 1), [[2]]);
   ((o0, OpAudio 0 G711A (repeat 3 (Z.to_nat 864001)) 2), [repeat 3 (Z.to_nat 864001)]);
   ((o0, OpProbeComplete), []);
   ((o0, OpAudio 0 G711A [4; 4] 3), [[4; 4]])].
Example C115_forgotten_seen :
  ('(y, out) <- sys_run (sys_new "ps") C115_forgotten;; Ok (map (fun x => (pk_dts (fst x), hd 0 (pk_data (fst x)), hd 0 (snd x))) out)) = Ok [(0, 1, 1); (1, 2, 2); (2, 3, 4)].
Proof. vm_compute. reflexivity. Qed.

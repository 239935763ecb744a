(** * PropertiesBlockRecover: block buffers and pipelines whose caller recovers from panics (C158). *)
From Coq Require Import List Bool ZArith Lia.
From Verif Require Import Base CollectionsSpec RingProofs BlockModel BlockSpec HeapProofs DirectProofs RBProofs StreamsSpec SafeSpec SafeProofs PipeModel PipeSpec BlockQueueModel BlockRecoverModel BlockRecoverProofs.
Import ListNotations.
Local Open Scope list_scope.
Local Open Scope Z_scope.

(** ** C158 Without the state that a panic leaves, the calls are those of BlockModel. *)
Theorem C158_agrees : (forall h b o, ended (d_call_r h b o) = d_one h b o) /\ (forall h r o, ended (rb_call_r h r o) = rb_call h r o) /\
  (forall h s i o, ended (sb_call_r h s (i, o)) = sb_impl h s i o) /\ (forall h p o, ended (pp_call_r h p o) = pp_call h p o).
Proof. repeat split; [apply d_call_ended|apply rb_call_ended|apply sb_call_ended|apply pp_call_ended]. Qed.
Print Assumptions C158_agrees.

(** ** C158 A DirectBlockBuffer, an RBBlockBuffer and a DirectDataPipeline go on after a recovered panic as if the call had not been made: final memory,
    final state and every result are those of a history in which a failing call changes nothing, as BlockSpec.co_step has it. No negative Alloc. *)
Theorem C158_direct : forall h c h0 b0 ops, d_new h c = Ok (h0, b0) -> Forall sizedf ops -> recovered d_call_r h0 b0 ops = skipping d_one h0 b0 ops.
Proof. intros h c h0 b0 ops E F. apply d_history; [exact (d_new_wfs _ _ _ _ E)|exact F]. Qed.
Print Assumptions C158_direct.
Theorem C158_ring : forall h c h0 r0 ops, rb_new h c = Ok (h0, r0) -> Forall sized ops -> recovered rb_call_r h0 r0 ops = skipping rb_call h0 r0 ops.
Proof. intros h c h0 r0 ops E F. apply rb_history; [exact (rb_new_wfs _ _ _ _ E)|exact F]. Qed.
Print Assumptions C158_ring.
Theorem C158_pipe : forall h h0 p0 ops, hp_new h = Ok (h0, p0) -> recovered pp_call_r h0 p0 ops = skipping pp_call h0 p0 ops.
Proof. intros h h0 p0 ops E. apply pp_history. unfold hp_new in E. destruct (make h 0) as [[h1 s]| | |]; try discriminate. injection E as <- <-. cbn [hp_size]. lia. Qed.
Print Assumptions C158_pipe.

(** The calls between two panics have their effect. *)
Example C158_example : exists h0 r0, rb_new [] 8 = Ok (h0, r0) /\
  snd (recovered rb_call_r h0 r0 [XFetch; XWrite [1; 2; 3]; XPopBack; XPopBack; XWrite [4; 5]; XFetch; XSplitOff; XFetch; XWrite [6]; XSize]) =
  [Panic; Ok RUnit; Ok RUnit; Panic; Ok RUnit; Ok (RSlice (Some (mkSlice 0 0 2))); Ok RUnit; Panic; Ok RUnit; Ok (RNum 2)].
Proof. do 2 eexists. split; [reflexivity|]. vm_compute. reflexivity. Qed.
Example C158_pipe_example : exists h0 p0, hp_new [] = Ok (h0, p0) /\
  snd (recovered pp_call_r h0 p0 [PWrite [1; 2]; PSeek 9; PFetch; PWrite [3]; PPending; PSeek (-9); PFetch]) =
  [Ok (PNum 2); Ok PNone; Panic; Panic; Ok (PNum 11); Ok PNone; Ok (PSlice (mkSlice 1 0 2))].
Proof. do 2 eexists. split; [reflexivity|]. vm_compute. reflexivity. Qed.

(** ** C158 A StreamsBuffer, after any history with recovered panics: a call that panics at an index beyond the last buffer, and a Fetch just behind it,
    leaves one more empty buffer behind; every other call that panics changes nothing. *)
Theorem C158_streams : forall ops i o, let '(h, s, _) := recovered sb_call_r [] [] ops in
  match adds (zlen s) i o with
  | Some v => exists h1 r, rb_new h (stream_capacity v) = Ok (h1, r) /\ sb_call_r h s (i, o) = (h1, s ++ [r], Panic)
  | None => sb_call_r h s (i, o) = plain h s (sb_impl h s i o)
  end.
Proof.
  intros ops i o. pose proof (sb_history ops [] [] (Forall_nil _)) as W. destruct (recovered sb_call_r [] [] ops) as [[h s] xs]. apply (sb_call_split h s i o W).
Qed.
Print Assumptions C158_streams.

(** ** C158 A Write at an index [k] beyond the last buffer panics [k] times and then succeeds; the [k] buffers in between have the capacity of its medium,
    and nothing that is held changes. *)
Theorem C158_catch_up : forall ops d v k, let '(h, s, _) := recovered sb_call_r [] [] ops in let i := zlen s + Z.of_nat k in
  exists h1 s1 fresh h2 s2, recovered sb_call_r h s (repeat (i, SWrite d v) k) = (h1, s1, repeat Panic k) /\ s1 = s ++ fresh /\ length fresh = k /\
    Forall (fun r => d_blocks (rb_d r) = [] /\ s_len (d_data (rb_d r)) = stream_capacity v) fresh /\ (forall t, valid h t -> read h1 t = read h t) /\
    sb_call_r h1 s1 (i, SWrite d v) = (h2, s2, Ok (RNum (zlen d))).
Proof.
  intros ops d v k. pose proof (sb_history ops [] [] (Forall_nil _)) as W. destruct (recovered sb_call_r [] [] ops) as [[h s] xs]. cbv zeta.
  destruct (sb_catch_up k h s (zlen s + Z.of_nat k) d v W eq_refl) as (h1 & s1 & fresh & R & S1 & L & F & V & W1).
  assert (E : exists h2 s2, sb_call_r h1 s1 (zlen s + Z.of_nat k, SWrite d v) = (h2, s2, Ok (RNum (zlen d)))).
  { destruct (stream_new h1 v) as (h2 & r & E & Wr & _ & _). cbn [sb_call_r]. assert (Q : zlen s + Z.of_nat k = zlen s1) by (rewrite S1, zlen_app; unfold zlen; rewrite L; reflexivity).
    rewrite (find_new h1 s1 _ v h2 r E) by lia. rewrite Q, Z.eqb_refl. cbn [attempt]. destruct (rb_write_same h2 r d Wr) as (h3 & r1 & E3 & _). rewrite E3. cbn [attempt]. eauto. }
  destruct E as (h2 & s2 & E). exists h1, s1, fresh, h2, s2. auto 8.
Qed.
Print Assumptions C158_catch_up.
Definition C158_beyond : list (Z * sop) := [(2, SPending); (2, SPending); (2, SPending); (-1, SPending); (3, SFetch); (3, SFetch)].
Example C158_catch_up_example : snd (recovered sb_call_r [] [] C158_beyond) = [Panic; Panic; Ok (RNum 0); Panic; Panic; Panic] /\
  map (fun r => s_len (d_data (rb_d r))) (snd (fst (recovered sb_call_r [] [] C158_beyond))) = repeat (stream_capacity false) 4.
Proof. split; vm_compute; reflexivity. Qed.

(** ** C158 A negative Alloc on a DirectBlockBuffer, recovered: the pending block loses [k] bytes at its end. A later Write succeeds as if nothing had happened,
    and the Fetch after it returns the slice that it would return without the negative Alloc, cut by its last [k] bytes, or panics if the block is shorter. *)
Theorem C158_negative : forall h c h0 b0 ops k d, d_new h c = Ok (h0, b0) -> Forall sizedf ops -> 0 < k ->
  let '(h1, b1, _) := recovered d_call_r h0 b0 ops in d_sealed b1 = false ->
  d_alloc_r h1 b1 (- k) = (h1, shorter b1 k, Panic) /\
  exists h2 b2 b3 s, d_write h1 b1 d = Ok (h2, b2) /\ d_write h1 (shorter b1 k) d = Ok (h2, shorter b2 k) /\ d_fetch b2 = Ok (b3, Some s) /\
    (k <= s_len s -> exists b4, d_fetch (shorter b2 k) = Ok (b4, Some (mkSlice (s_arr s) (s_off s) (s_len s - k)))) /\
    (s_len s < k -> d_fetch (shorter b2 k) = Panic).
Proof.
  intros h c h0 b0 ops k d E F K. pose proof (proj2 (d_history ops h0 b0 (d_new_wfs _ _ _ _ E) F)) as W. destruct (recovered d_call_r h0 b0 ops) as [[h1 b1] xs]. intros S.
  split; [apply d_alloc_neg; auto; apply W|]. destruct (d_negative_write h1 b1 k d W S K) as (h2 & b2 & b3 & s & A & B & C & _ & G1 & G2). exists h2, b2, b3, s. auto 8.
Qed.
Print Assumptions C158_negative.
Example C158_negative_example : exists h0 b0, d_new [] 8 = Ok (h0, b0) /\
  snd (recovered d_call_r h0 b0 [FCall (XWrite [1; 2; 3]); FCall (XAlloc (-2)); FCall (XWrite [4; 5]); FCall XFetch; FCall XSize; FCall (XAlloc (-9)); FCall XFetch; FCall XFetch; FCall XSize]) =
  [Ok ([], RUnit); Panic; Ok ([], RUnit); Ok ([], RSlice (Some (mkSlice 0 0 3))); Ok ([], RNum 1); Panic; Panic; Ok ([], RSlice None); Ok ([], RNum 2)].
Proof. do 2 eexists. split; [reflexivity|]. vm_compute. reflexivity. Qed.

(** ** C158 A negative Alloc on an RBBlockBuffer that is not exactly full, recovered: it opens an empty block if none is pending and changes nothing else;
    every later Alloc gives the memory it would have given. *)
Theorem C158_ring_negative : forall h c ops h0 r0 h1 r1 q1 outs k, rb_new h c = Ok (h0, r0) -> all_ops rb_impl rb_cond_full h0 r0 [] ops ->
  co_run rb_impl h0 r0 [] ops = ((h1, r1, q1), outs) -> ~ rb_full r1 -> 0 < k ->
  rb_alloc_r h1 r1 (- k) = (h1, opened r1, Panic) /\ (forall h n, rb_alloc h (opened r1) n = rb_alloc h r1 n).
Proof.
  intros h c ops h0 r0 h1 r1 q1 outs k E A R NF K. split; [|intros; apply opened_alloc].
  assert (0 <= c) as Hc. { unfold rb_new, d_new, make in E. destruct (0 <=? c) eqn:X; [lia|discriminate]. }
  destruct (rb_new_inv true h c Hc) as (h2 & b2 & E1 & I). rewrite E in E1. injection E1 as <- <-.
  pose proof (rb_run_sim true ops h0 r0 [] I A) as S. rewrite R in S. destruct S as [I1 _]. destruct (rb_pick r1) as [[[[head tail] c1] front] ob] eqn:Pk.
  eapply rb_alloc_neg; [exact Pk|eapply rb_inv_tail; eauto|exact K].
Qed.
Print Assumptions C158_ring_negative.
(** What [opened] shows: the blocks are those before, and one more if the last one was fetched. *)
Theorem C158_opened : forall r, d_blocks (rb_d (opened r)) = d_blocks (rb_d r) ++ match last_of (d_blocks (rb_d r)) with
    | None => [mkBlock 0 0 false] | Some t => if bk_completed t then [mkBlock (bk_index t + bk_size t) 0 false] else [] end /\
  d_data (rb_d (opened r)) = d_data (rb_d r) /\ d_sealed (rb_d (opened r)) = d_sealed (rb_d r) /\ rb_discard (opened r) = rb_discard r.
Proof.
  intros r. unfold opened, rb_pick. destruct (snoc_cases (d_blocks (rb_d r))) as [X|(f & t & X)]; rewrite X.
  - cbn. auto.
  - rewrite last_of_snoc, first_of_snoc, removelast_snoc. destruct (bk_completed t); cbn [rb_d d_blocks d_data d_sealed rb_discard]; rewrite ?app_nil_r; auto.
Qed.
Print Assumptions C158_opened.
Example C158_ring_negative_example : exists h0 r0, rb_new [] 8 = Ok (h0, r0) /\
  snd (recovered rb_call_r h0 r0 [XWrite [1; 2; 3]; XFetch; XAlloc (-2); XSize; XFetch; XWrite [4; 5]; XAlloc (-1); XFetch; XSize]) =
  [Ok RUnit; Ok (RSlice (Some (mkSlice 0 0 3))); Panic; Ok (RNum 2); Ok (RSlice (Some (mkSlice 0 3 0))); Ok RUnit; Panic; Ok (RSlice (Some (mkSlice 0 3 2))); Ok (RNum 3)].
Proof. do 2 eexists. split; [reflexivity|]. vm_compute. reflexivity. Qed.

(** ** C158 The new buffer of a SplitOff past the middle of its array (C18), whose Allocs all panic: the first opens an empty block, later ones leave it alone;
    Fetch then panics, but completes the block, so that the next Fetch returns nil and the next Alloc opens another; SplitOff panics, but seals the buffer;
    Clear makes it usable again. *)
Theorem C158_split : forall h b old new n, valid h (d_data b) -> d_split_off b = Ok (old, new) -> 0 <= s_len (d_data b) < 2 * d_next b -> 0 <= n ->
  let pending f := mkD (d_data new) (d_next new) false (f ++ [mkBlock (d_next new) 0 false]) in
  let completed k := mkD (d_data new) (d_next new) false (repeat (mkBlock (d_next new) 0 true) k) in
  new = completed 0%nat /\
  (forall k, d_alloc_r h (completed k) n = (h, pending (repeat (mkBlock (d_next new) 0 true) k), Panic)) /\
  (forall f, d_alloc_r h (pending f) n = (h, pending f, Panic)) /\
  (forall k, d_fetch_r (pending (repeat (mkBlock (d_next new) 0 true) k)) = (completed (S k), Panic)) /\
  (forall k, d_fetch_r (completed (S k)) = (completed (S k), Ok None)) /\
  d_split_off_r new = (mkD (d_data new) (d_next new) true [], Panic) /\
  (exists h1 b1 s, d_alloc h (d_clear new) n = Ok (h1, b1, s) /\ s_len s = n).
Proof.
  intros h b old new n V E L Hn. unfold d_split_off in E. destruct (reslice (d_data b) (d_next b) (s_len (d_data b))) as [s| | |] eqn:R; try discriminate. cbn [bind] in E. injection E as _ <-.
  unfold reslice in R. destruct ((0 <=? d_next b) && (d_next b <=? s_len (d_data b)) && (s_len (d_data b) <=? s_len (d_data b))) eqn:G; [|discriminate]. injection R as <-.
  cbv zeta. cbn [d_data d_next s_len]. set (s := mkSlice (s_arr (d_data b)) (s_off (d_data b) + d_next b) (s_len (d_data b) - d_next b)).
  assert (Ls : 0 <= s_len s < d_next b) by (subst s; cbn [s_len]; lia).
  assert (Snoc : forall k, repeat (mkBlock (d_next b) 0 true) (S k) = repeat (mkBlock (d_next b) 0 true) k ++ [mkBlock (d_next b) 0 true]) by (intros k; apply repeat_cons).
  split; [reflexivity|]. split.
  { intros k. rewrite d_alloc_beyond by (cbn [d_sealed d_data d_next]; auto). unfold d_pick. cbn [d_blocks d_data d_next]. destruct k as [|k]; [reflexivity|]. rewrite Snoc, last_of_snoc. reflexivity. }
  split. { intros f. rewrite d_alloc_beyond by (cbn [d_sealed d_data d_next]; auto). unfold d_pick. cbn [d_blocks d_data d_next]. rewrite last_of_snoc, removelast_snoc. reflexivity. }
  split. { intros k. erewrite d_fetch_beyond; [cbn [d_data d_next]; rewrite Snoc; reflexivity|reflexivity|cbn [d_data d_next]; lia|reflexivity]. }
  split. { intros k. unfold d_fetch_r. cbn [d_sealed d_blocks negb assert attempt]. rewrite Snoc, last_of_snoc. reflexivity. }
  split; [apply d_split_beyond; cbn [d_data d_next]; lia|].
  destruct (d_alloc_good h (mkD s 0 false []) n) as (h1 & b1 & t & A & _ & _ & _ & Lt); [|reflexivity|exact Hn|exists h1, b1, t; auto].
  split; [apply reslice_valid; [exact V|lia..]|]. cbn [d_next d_data d_blocks]. split; [lia|constructor].
Qed.
Print Assumptions C158_split.
Example C158_split_example : exists h0 b0 h1 b1 old new h2 b2, d_new [] 4 = Ok (h0, b0) /\ d_write h0 b0 [1; 2; 3] = Ok (h1, b1) /\ d_split_off b1 = Ok (old, new) /\
  recovered d_call_r h1 new [FCall (XWrite [9]); FCall (XWrite [9]); FCall XSize; FCall XFetch; FCall XFetch; FCall (XWrite [9]); FCall XSize; FCall XSplitOff; FCall XClear; FCall (XWrite [9]); FCall XSize] =
  (h2, b2, [Panic; Panic; Ok ([], RNum 1); Panic; Ok ([], RSlice None); Panic; Ok ([], RNum 2); Panic; Ok ([], RUnit); Ok ([], RUnit); Ok ([], RNum 1)]) /\ h2 = [[1; 2; 3; 9]].
Proof. do 8 eexists. repeat (split; [vm_compute; reflexivity|]). vm_compute. reflexivity. Qed.

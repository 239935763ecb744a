(** * PropertiesRbLedger: C111 (which blocks the ring still has), C112 (which blocks keep their bytes). *)
From Verif Require Import Base CollectionsSpec BlockModel BlockSpec HeapProofs DirectProofs RBProofs RbLedgerSpec RbLedgerProofs.

(** C111: after any calls the blocks of the ring are the newest blocks the user holds, in order, each with the size of the
    bytes written and, once fetched, with the slice handed out. The older blocks number exactly the Pops that the buffer
    will still spend on blocks set aside by the last growth, plus the Pops it forgot when a further growth began a new count. *)
Theorem C111_account : forall h0 c h r ops, rb_new h0 c = Ok (h, r) ->
  let '(h', r', L) := acc_run (h, r, led_new) ops in
  exists older ring, l_held L = older ++ ring /\ Forall (fun e => e_place e <> InRing) older /\
    Forall2 (shows (d_data (rb_d r'))) (d_blocks (rb_d r')) ring /\ rb_size r' = zlen ring /\
    zlen older = l_owed L + l_lost L /\ rb_discard r' = l_owed L /\ 0 <= l_owed L /\ 0 <= l_lost L.
Proof.
  intros h0 c h r ops E. pose proof (acc_run_ok false ops h r led_new (acc_new _ _ _ _ _ E) ltac:(discriminate)) as I. destruct (acc_run (h, r, led_new) ops) as [[h' r'] L].
  destruct I as ((_ & _ & _ & D & _) & _ & Ow & Ls & old & ring & Eh & Fo & Fs & Lo & _). exists old, ring. split; [exact Eh|]. split; [exact Fo|]. split; [exact Fs|].
  split; [unfold rb_size, d_size; now apply Forall2_zlen in Fs|]. split; [exact Lo|]. rewrite Ow. auto.
Qed.
Print Assumptions C111_account.

(** Which block a Pop releases: none while Pops are owed to blocks set aside, then the one after [l_lost] older blocks;
    with nothing forgotten this is the oldest block held. *)
Theorem C111_pop_exact : forall h0 c h r ops, rb_new h0 c = Ok (h, r) ->
  let '(h', r', L) := acc_run (h, r, led_new) ops in
  exists r2, rb_pop r' = Ok r2 /\
  if l_owed L >? 0 then d_blocks (rb_d r2) = d_blocks (rb_d r')
  else match d_blocks (rb_d r') with
       | [] => d_blocks (rb_d r2) = [] /\ zlen (l_held L) = l_lost L
       | b :: bs => d_blocks (rb_d r2) = bs /\ exists e, nth_error (l_held L) (Z.to_nat (l_lost L)) = Some e /\ shows (d_data (rb_d r')) b e
       end.
Proof.
  intros h0 c h r ops E. pose proof (acc_run_ok false ops h r led_new (acc_new _ _ _ _ _ E) ltac:(discriminate)) as I. destruct (acc_run (h, r, led_new) ops) as [[h' r'] L].
  destruct I as ((_ & Sl & _ & D & _) & _ & Ow & Ls & old & ring & Eh & Fo & Fs & Lo & _). unfold rb_pop, d_pop. rewrite Sl. cbn [negb assert bind]. rewrite Ow.
  destruct (rb_discard r' >? 0) eqn:Dg; [eexists; split; [reflexivity|reflexivity]|]. eexists. split; [reflexivity|]. cbn [rb_d d_blocks]. destruct Fs as [|b e bs ring S Fs].
  - split; [reflexivity|]. rewrite Eh, app_nil_r. lia.
  - split; [reflexivity|]. exists e. split; [|exact S]. rewrite Eh, nth_error_app2 by (unfold zlen in Lo; lia). replace (Z.to_nat (l_lost L) - length old)%nat with 0%nat by (unfold zlen in Lo; lia). reflexivity.
Qed.
Print Assumptions C111_pop_exact.

(** The array of four bytes is replaced twice: with the first two Pops still owed, the second growth begins a new count. *)
Definition twice_grown : list bb_op :=
  [BWrite [1;2]; BFetch; BWrite [3;4]; BFetch; BWrite [5]; BFetch; BWrite [6;7;8;9;1;1]; BFetch; BWrite [2]; BFetch].
Example C111_example : exists h r, rb_new [] 4 = Ok (h, r) /\
  (let '(_, r1, L) := acc_run (h, r, led_new) (firstn 5 twice_grown) in map e_bytes (l_held L) = [[1;2];[3;4];[5]] /\ (rb_size r1, rb_discard r1, l_lost L) = (1, 2, 0)) /\
  (let '(_, r1, L) := acc_run (h, r, led_new) twice_grown in
   map (fun e => (e_bytes e, e_place e)) (l_held L) = [([1;2], Aside); ([3;4], Aside); ([5], Aside); ([6;7;8;9;1;1], Aside); ([2], InRing)] /\ (rb_size r1, rb_discard r1, l_lost L) = (1, 2, 2)) /\
  (let '(_, r1, L) := acc_run (h, r, led_new) (twice_grown ++ [BPop; BPop; BPop]) in
   map (fun e => (e_bytes e, e_place e)) (l_held L) = [([6;7;8;9;1;1], Aside); ([2], Gone)] /\ (rb_size r1, rb_discard r1, l_lost L) = (0, 0, 2)).
Proof. do 2 eexists. split; [vm_compute; reflexivity|]. split; [vm_compute; split; reflexivity|]. split; vm_compute; split; reflexivity. Qed.
Print Assumptions C111_example.

(** C112: if no Write meets an exactly full ring, every fetched block that the user holds shows the bytes it was fetched
    with, unless the buffer has released it before the user's Pop reached it. *)
Theorem C112_kept : forall h0 c h r ops, rb_new h0 c = Ok (h, r) -> never_full (h, r, led_new) ops ->
  let '(h', r', L) := acc_run (h, r, led_new) ops in
  forall e s, In e (l_held L) -> e_slice e = Some s -> e_place e <> Gone -> read h' s = Ok (e_bytes e).
Proof.
  intros h0 c h r ops E NF. pose proof (acc_run_ok true ops h r led_new (acc_new _ _ _ _ _ E) (fun _ => NF)) as I. destruct (acc_run (h, r, led_new) ops) as [[h' r'] L].
  destruct I as (_ & Y & _). destruct (Y eq_refl) as [_ K]. rewrite Forall_forall in K. intros e s HI S P. specialize (K e HI s S). destruct (e_place e); [exact K|apply K|congruence].
Qed.
Print Assumptions C112_kept.

(** No block is released before its Pop as long as no growth found Pops still owed. *)
Theorem C112_none_gone : forall h0 c h r ops, rb_new h0 c = Ok (h, r) ->
  (forall n, l_lost (snd (acc_run (h, r, led_new) (firstn n ops))) = 0) ->
  forall e, In e (l_held (snd (acc_run (h, r, led_new) ops))) -> e_place e <> Gone.
Proof.
  intros h0 c h r ops E.
  enough (X : forall h1 r1 L1, acc_inv false h1 r1 L1 -> (forall n, l_lost (snd (acc_run (h1, r1, L1) (firstn n ops))) = 0) -> Forall (fun e => e_place e <> Gone) (l_held L1) ->
    Forall (fun e => e_place e <> Gone) (l_held (snd (acc_run (h1, r1, L1) ops)))).
  { intros Lz. apply Forall_forall. apply X; [eapply acc_new; exact E|exact Lz|constructor]. }
  clear. induction ops as [|o ops IH]; intros h r L I Lz F; [exact F|]. cbn [acc_run fold_left]. pose proof (acc_step_ok false h r L o I ltac:(discriminate)) as Y.
  pose proof (fun n => Lz (S n)) as Lz'. cbn [firstn acc_run fold_left] in Lz'. pose proof (Lz 0%nat) as L0. cbn in L0.
  assert (F' : Forall (fun e => e_place e <> Gone) (l_held (snd (acc_step (h, r, L) o)))).
  { assert (Fb : Forall (fun e => e_place e <> Gone) (before_open (l_held L))) by (apply Forall_forall; intros e He; rewrite Forall_forall in F; apply F; now apply before_in).
    unfold acc_step. destruct (rb_impl h r o) as [[[h1 r1] ret]| | |]; try exact F. cbn [snd]. destruct o as [d| | | | | |]; cbn [led_step]; auto.
    - destruct (negb _); cbn [l_held]; apply Forall_app; (split; [|constructor; [discriminate|constructor]]); [|exact Fb].
      apply Forall_map. eapply Forall_impl; [|exact Fb]. intros e He. unfold set_aside. destruct (in_ring e); [discriminate|exact He].
    - destruct (raw_slice ret); [|exact F]. cbn [l_held]. apply Forall_app. split; [exact Fb|constructor; [discriminate|constructor]].
    - destruct I as (_ & _ & Ow & _ & old & ring & Eh & Fo & Fs & Lo & _). destruct (l_owed L >? 0) eqn:Og; [cbn [l_held]; destruct F; cbn; auto|].
      assert (Ft : Forall (fun e => e_place e <> Gone) (tl (l_held L))) by (destruct F; cbn; auto).
      assert (old = []) as ->; [|].
      { apply zlen_zero_nil. pose proof (zlen_nonneg old). lia. }
      destruct (existsb in_ring (l_held L)); [|exact Ft]. cbn [l_held]. rewrite Eh in *. cbn [app] in *. destruct Fs as [|k e f l Sh _]; [exact Ft|]. cbn [release]. rewrite (shows_in _ _ _ Sh). exact Ft.
    - cbn [l_held]. destruct (snoc_cases (l_held L)) as [X|(f & x & X)]; rewrite X in *; [exact F|]. rewrite removelast_snoc. now apply Forall_app in F as [F _].
    - constructor. }
  destruct (acc_step (h, r, L) o) as [[h1 r1] L1]. exact (IH _ _ _ Y Lz' F').
Qed.
Print Assumptions C112_none_gone.

(** A block set aside by a growth is never touched again, whatever is called. *)
Theorem C112_aside_untouched : forall h0 c h r ops o, rb_new h0 c = Ok (h, r) ->
  let '(h', r', L) := acc_run (h, r, led_new) ops in
  let '(h2, _, _) := acc_step (h', r', L) o in
  forall e s, In e (l_held L) -> e_place e = Aside -> e_slice e = Some s -> read h2 s = read h' s.
Proof.
  intros h0 c h r ops o E. pose proof (acc_new false _ _ _ _ E) as I0. pose proof (acc_run_ok false ops h r led_new I0 ltac:(discriminate)) as I. pose proof (away_run ops h r led_new I0 (Forall_nil _)) as A.
  destruct (acc_run (h, r, led_new) ops) as [[h' r'] L]. pose proof (away_step h' r' L o I A) as X. destruct (acc_step (h', r', L) o) as [[h2 r2] L2]. destruct X as [_ X].
  intros e s HI P S. rewrite Forall_forall in A. destruct (A e HI P s S). auto.
Qed.
Print Assumptions C112_aside_untouched.

(** After the three Pops of the example above the block [2] is gone too early, and the next Write overwrites its memory;
    the block set aside stays. *)
Example C112_example : exists h r, rb_new [] 4 = Ok (h, r) /\
  (let '(h1, r1, L) := acc_run (h, r, led_new) (twice_grown ++ [BPop; BPop; BPop; BWrite [9;9]]) in
   map (fun e => (e_bytes e, e_place e)) (l_held L) = [([6;7;8;9;1;1], Aside); ([2], Gone); ([9;9], InRing)] /\
   map (fun e => match e_slice e with Some s => read h1 s | None => Err end) (l_held L) = [Ok [6;7;8;9;1;1]; Ok [9]; Err]).
Proof. do 2 eexists. split; [vm_compute; reflexivity|]. vm_compute; split; reflexivity. Qed.
Print Assumptions C112_example.

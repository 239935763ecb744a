(** * SystemGrowProofs: the handler sees what was written also when stream buffers grow. *)
From Verif Require Import Base CollectionsSpec BlockModel BlockSpec HeapProofs DirectProofs RBProofs RingProofs RoomSpec RoomProofs StreamsSpec StreamsProofs
  PacketModel DemuxModel DemuxProofs DeliverySpec DeliveryProofs SystemSpec SystemProofs SystemGrowSpec.
From Coq Require Import List Permutation Sorted.
Import ListNotations.
Local Open Scope list_scope.

(** ** One ring *)
Lemma inv_transport h h' r q : rb_inv true h r q -> nth_error h' (arr_of r) = nth_error h (arr_of r) ->
  (forall x s, In (x, Some s) q -> nth_error h' (s_arr s) = nth_error h (s_arr s)) -> rb_inv true h' r q.
Proof.
  intros (W & Lay & qd & fb & fq & pb & pq & Eb & -> & Ld & Fd & F & P) E K.
  split; [eapply wf_transport; eauto|]. split; [exact Lay|]. exists qd, fb, fq, pb, pq. split; [exact Eb|]. split; [reflexivity|]. split; [exact Ld|].
  assert (Rd : forall k, read h' (blk_slice (d_data (rb_d r)) k) = read h (blk_slice (d_data (rb_d r)) k)) by (intros k; unfold read; cbn [s_arr blk_slice]; unfold arr_of in E; now rewrite E).
  split; [|split].
  - apply Forall_forall. intros g Hg. rewrite Forall_forall in Fd. destruct (Fd g Hg) as (x & s & -> & G). exists x, s. split; [reflexivity|]. intros T. destruct (G T) as [G1 G2]. split; [|exact G2].
    unfold read. rewrite (K x s) by (apply in_or_app; now left). exact G1.
  - clear - F Rd. induction F as [|k g fb fq (Ck & x & s & Eg & G) _ IH]; [constructor|]. constructor; [|exact IH]. split; [exact Ck|]. exists x, s. split; [exact Eg|]. intros T. destruct (G T) as [-> G2]. split; [reflexivity|]. now rewrite Rd.
  - destruct P as [P|(k & g & E1 & E2 & Ck & x & Eg & Lx & Rx)]; [now left|]. right. exists k, g. split; [exact E1|]. split; [exact E2|]. split; [exact Ck|]. exists x. split; [exact Eg|]. split; [exact Lx|]. now rewrite Rd.
Qed.

Lemma inv_pop h r g q : rb_inv true h r (g :: q) -> exists r', rb_pop r = Ok r' /\ rb_inv true h r' q /\ rb_frame h r h r'.
Proof.
  intros I. pose proof (rb_step_sim true h r _ BPop I (conj Logic.I Logic.I)) as S. unfold co_step in S. cbn [rb_impl bb_spec tl] in S.
  destruct (rb_pop r) as [r'| | |] eqn:E; cbn [bind] in S; destruct S as [S1 S2]; try discriminate S2. exists r'. split; [reflexivity|]. split; [exact S1|].
  destruct (rb_pop_wf h r r' (proj1 I) E). now apply rb_frame_same.
Qed.
Lemma inv_pop_back h r g q : rb_inv true h r (q ++ [g]) -> d_blocks (rb_d r) <> [] -> exists r', rb_pop_back r = Ok r' /\ rb_inv true h r' q /\ rb_frame h r h r'.
Proof.
  intros I Nb. pose proof (rb_step_sim true h r _ BPopBack I (conj (fun E => False_ind _ (Nb E)) Logic.I)) as S. unfold co_step in S. cbn [rb_impl] in S.
  assert (Sp : forall s, bb_spec (q ++ [g]) s BPopBack = (q, Ok BUnit)) by (intros s; cbn [bb_spec]; destruct (q ++ [g]) eqn:E; [destruct q; discriminate|]; rewrite <- E, removelast_snoc; reflexivity).
  rewrite !Sp in S. destruct (rb_pop_back r) as [r'| | |] eqn:E; cbn [bind] in S; rewrite ?Sp in S; destruct S as [S1 S2]; try discriminate S2. exists r'. split; [reflexivity|]. split; [exact S1|].
  destruct (rb_pop_back_wf h r r' (proj1 I) E). now apply rb_frame_same.
Qed.
Lemma inv_write h r q d : rb_inv true h r q -> rb_cond_full h r (BWrite d) ->
  exists h' r', rb_write h r d = Ok (h', r') /\ rb_inv true h' r' (fst (bb_spec q None (BWrite d))) /\ rb_frame h r h' r'.
Proof.
  intros I C. destruct (rb_write_sim true h r q d I C) as (h' & r' & E & I' & _). destruct (rb_write_frame h r d (proj1 I)) as (h2 & r2 & E2 & Fr). rewrite E in E2. injection E2 as <- <-. eauto.
Qed.
Lemma inv_fetch h r q x : rb_inv true h r (q ++ [(x, None)]) ->
  exists r' s, rb_fetch r = Ok (r', Some s) /\ rb_inv true h r' (q ++ [(x, Some s)]) /\ rb_frame h r h r' /\ s_arr s = arr_of r /\ d_blocks (rb_d r') <> [].
Proof.
  intros I.
  assert (Nb : d_blocks (rb_d r) <> []).
  { destruct I as (_ & _ & qd & fb & fq & pb & pq & Eb & Eq & _ & Fd & F & P). intros Z. rewrite Z in Eb. symmetry in Eb. apply app_eq_nil in Eb as [-> ->]. inversion F; subst fq.
    destruct P as [(_ & ->)|(k & g & Y & _)]; [|discriminate Y]. rewrite app_nil_l, app_nil_r in Eq. rewrite <- Eq in Fd. apply Forall_app in Fd as [_ Fd]. apply Forall_inv in Fd. destruct Fd as (c & s & Y & _). discriminate Y. }
  pose proof (rb_step_sim true h r _ BFetch I (conj (fun E => False_ind _ (Nb E)) Logic.I)) as S. unfold co_step in S. cbn [rb_impl] in S.
  assert (Sp : forall s, bb_spec (q ++ [(x, None)]) s BFetch = (q ++ [(x, s)], Ok (BBytes (Some x)))).
  { intros s. assert (Pn : pending_of (q ++ [(x, None)]) = Some x) by (unfold pending_of; now rewrite last_of_snoc).
    cbn [bb_spec]. pose proof (removelast_snoc q (x, @None gslice)) as Rl. destruct (q ++ [(x, None)]) eqn:E; [destruct q; discriminate|]. unfold gblock in *. rewrite Pn, Rl. reflexivity. }
  rewrite !Sp in S. destruct (rb_fetch r) as [[r' y]| | |] eqn:E; cbn [bind] in S; rewrite ?Sp in S; destruct S as [S1 S2]; try discriminate S2.
  cbn [raw_slice] in S1. destruct y as [s|]; [|discriminate S2]. exists r', s. split; [reflexivity|]. split; [exact S1|].
  destruct (rb_fetch_wf h r r' _ (proj1 I) E) as (W' & Ea & Es). destruct (Es s eq_refl) as [Es1 _]. split; [now apply rb_frame_same|]. split; [exact Es1|].
  unfold rb_fetch, d_fetch in E. destruct (d_sealed (rb_d r)); cbn [negb assert bind] in E; [discriminate E|]. destruct (snoc_cases (d_blocks (rb_d r))) as [X|(f & t & X)]; [congruence|]. rewrite X, last_of_snoc in E. cbn [of_opt bind] in E. destruct (bk_completed t); cbn [bind] in E; [discriminate E|].
  destruct (reslice _ _ _); cbn [bind] in E; try discriminate E. injection E as <- _. cbn [rb_d d_blocks]. intros Z. apply app_eq_nil in Z as [_ Z]. discriminate Z.
Qed.

(** ** All streams: every array belongs to one of them *)
Record rings (h : heap) (s : sbuf) (own : list Z) (Q : Z -> list gblock) : Prop := {
  rg_len : length own = length h;
  rg_buf : forall b r, idx s b = Some r -> rb_inv true h r (Q b) /\ nth_error own (arr_of r) = Some b;
  rg_out : forall b, ~ (0 <= b < zlen s) -> Q b = [];
  rg_sl : forall b x t, In (x, Some t) (Q b) -> nth_error own (s_arr t) = Some b }.

Lemma rings_ext h s own Q Q' : (forall b, Q b = Q' b) -> rings h s own Q -> rings h s own Q'.
Proof. intros E [A B C D]. constructor; auto; intros b; rewrite <- E; eauto. Qed.

Lemma rings_put h s own Q b r h' r' q' : rings h s own Q -> idx s b = Some r -> rb_inv true h' r' q' -> rb_frame h r h' r' ->
  (forall x t, In (x, Some t) q' -> In (x, Some t) (Q b) \/ s_arr t = arr_of r) ->
  exists own', rings h' (sb_put s b r') own' (setq Q b q').
Proof.
  intros [A B C D] Ei R [Fw Fl Fa Fe Fn] Sl. pose proof (idx_inv _ _ _ Ei) as Ri. destruct (B _ _ Ei) as [Ir Or]. unfold sb_put.
  assert (Keep : forall k j, nth_error own k = Some j -> j <> b -> nth_error h' k = nth_error h k).
  { intros k j Hk Hj. apply Fn; [rewrite <- A; apply nth_error_Some; congruence|]. intros ->. congruence. }
  assert (X : exists own', length own' = length h' /\ (forall k j, nth_error own k = Some j -> nth_error own' k = Some j) /\ nth_error own' (arr_of r') = Some b).
  { destruct Fa as [Fa|[Fa1 Fa2]].
    - exists own. rewrite Fa. split; [rewrite A; symmetry; auto|auto].
    - exists (own ++ [b]). split; [rewrite app_length; cbn; lia|]. split.
      + intros k j Hk. rewrite nth_error_app1; [auto|]. apply nth_error_Some. congruence.
      + rewrite Fa1, <- A, nth_error_app2, Nat.sub_diag by lia. reflexivity. }
  destruct X as (own' & X1 & X2 & X3). exists own'. constructor; [exact X1| | |].
  - intros x rx Ex. destruct (Z.eq_dec x b) as [->|N].
    + rewrite idx_set_nth_same in Ex by lia. injection Ex as <-. rewrite setq_same. auto.
    + rewrite idx_set_nth_other in Ex by lia. rewrite setq_other by exact N. destruct (B _ _ Ex) as [Ix Ox]. split; [|auto]. eapply inv_transport; [exact Ix|eauto|].
      intros y t Ht. apply D in Ht. eauto.
  - intros x Hx. rewrite zlen_set_nth in Hx. rewrite setq_other by lia. now apply C.
  - intros x y t Ht. destruct (Z.eq_dec x b) as [->|N].
    + rewrite setq_same in Ht. apply Sl in Ht as [Ht| ->]; [apply D in Ht|]; auto.
    + rewrite setq_other in Ht by exact N. apply D in Ht. auto.
Qed.

Lemma rings_open h s own Q b v : rings h s own Q -> 0 <= b <= zlen s ->
  exists h1 s1 r own1, sb_find_or_create h s b v = Ok (h1, s1, r) /\ idx s1 b = Some r /\ zlen s <= zlen s1 /\ rings h1 s1 own1 Q.
Proof.
  intros Rm Hb. pose proof Rm as [A B C D]. unfold sb_find_or_create. destruct (Z.eqb_spec b (zlen s)) as [->|N].
  - replace (zlen s <? zlen s) with false by lia.
    assert (Hc : 0 <= stream_capacity v) by (destruct v; cbn; lia).
    destruct (rb_new_inv true h (stream_capacity v) Hc) as (h1 & r & E & R). rewrite E. cbn [bind].
    assert (Ei : idx (s ++ [r]) (zlen s) = Some r) by (rewrite idx_app_r, Z.sub_diag by lia; reflexivity). rewrite Ei. cbn [of_opt bind].
    exists h1, (s ++ [r]), r, (own ++ [zlen s]). split; [reflexivity|]. split; [exact Ei|]. split; [rewrite zlen_app; cbn; lia|].
    destruct (rb_new_shape _ _ _ _ Hc E) as [Eh Ea].
    assert (K : forall k, (k < length h)%nat -> nth_error h1 k = nth_error h k) by (intros; rewrite Eh; now apply nth_error_app1).
    assert (Ko : forall k j, nth_error own k = Some j -> nth_error (own ++ [zlen s]) k = Some j).
    { intros k j Hk. rewrite nth_error_app1; [auto|]. apply nth_error_Some. congruence. }
    assert (Kl : forall k j, nth_error own k = Some j -> (k < length h)%nat) by (intros k j Hk; rewrite <- A; apply nth_error_Some; congruence).
    constructor.
    + rewrite Eh, !app_length. cbn. lia.
    + intros x rx Ex. pose proof (idx_inv _ _ _ Ex) as Rx. rewrite zlen_app in Rx. change (zlen [r]) with 1 in Rx. destruct (Z.eq_dec x (zlen s)) as [->|Nx].
      * rewrite Ei in Ex. injection Ex as <-. rewrite C by lia. split; [exact R|]. rewrite Ea, <- A, nth_error_app2, Nat.sub_diag by lia. reflexivity.
      * rewrite idx_app_l in Ex by lia. destruct (B _ _ Ex) as [Ix Ox]. split; [|auto]. eapply inv_transport; [exact Ix|eauto|]. intros y t Ht. apply D in Ht. eauto.
    + intros x Hx. apply C. rewrite zlen_app in Hx. change (zlen [r]) with 1 in Hx. lia.
    + intros x y t Ht. apply D in Ht. auto.
  - replace (b <? zlen s) with true by lia. cbn [bind]. destruct (idx_some s b) as (r & Ei); [lia|]. rewrite Ei. cbn [of_opt bind]. exists h, s, r, own. split; [reflexivity|]. split; [exact Ei|]. split; [lia|exact Rm].
Qed.

(** Writing a block in pieces and fetching it. *)
Lemma write_slices (q : list gblock) d x t : In (x, Some t) (fst (bb_spec q None (BWrite d))) -> In (x, Some t) q.
Proof.
  cbn [bb_spec]. destruct (pending_of q); cbn [fst]; intros H; apply in_app_or in H as [H|[H|[]]]; try discriminate H; [|exact H].
  destruct (snoc_cases q) as [->|(f & g & ->)]; [destruct H|]. rewrite removelast_snoc in H. apply in_or_app. now left.
Qed.
Lemma rings_write1 h s own Q b v d t : rings h s own Q -> 0 <= b <= zlen s -> chunks_fit h s b v (d :: t) ->
  exists h1 s1 own1, sb_write h s d b v = Ok (h1, s1, zlen d) /\ rings h1 s1 own1 (setq Q b (fst (bb_spec (Q b) None (BWrite d)))) /\ b < zlen s1 /\ chunks_fit h1 s1 b v t.
Proof.
  intros Rm Hb [Cf Ct]. destruct (rings_open h s own Q b v Rm Hb) as (h1 & s1 & r & own1 & E & Ei & Ls & R1). unfold sb_write in *. rewrite E in *. cbn [bind] in *.
  destruct (rg_buf _ _ _ _ R1 _ _ Ei) as [Ir _].
  destruct (inv_write _ _ _ d Ir) as (h2 & r2 & Ew & I2 & Fr). { split; [|apply Cf]. cbn [rb_cond]. intros H h' r' W. eapply Cf; eauto. }
  rewrite Ew in *. cbn [bind] in *. destruct (rings_put _ _ _ _ _ _ _ _ _ R1 Ei I2 Fr) as (own2 & R2). { intros x t0 Ht. left. eapply write_slices; eauto. }
  exists h2, (sb_put s1 b r2), own2. split; [reflexivity|]. split; [exact R2|]. split; [unfold sb_put; rewrite zlen_set_nth; apply idx_inv in Ei; lia|exact Ct].
Qed.
Lemma rings_more b v chunks : forall h s own Q q x, rings h s own Q -> 0 <= b < zlen s -> Q b = q ++ [(x, None)] -> chunks_fit h s b v chunks ->
  exists h1 s1 own1, write_chunks h s b v chunks = Ok (h1, s1) /\ b < zlen s1 /\ rings h1 s1 own1 (setq Q b (q ++ [(x ++ concat chunks, None)])).
Proof.
  induction chunks as [|c t IH]; intros h s own Q q x Rm Hb Eq Cf; cbn [write_chunks concat].
  - exists h, s, own. split; [reflexivity|]. split; [lia|]. rewrite app_nil_r. eapply rings_ext; [|exact Rm]. intros y. unfold setq. destruct (Z.eqb_spec y b) as [->|]; auto.
  - destruct (rings_write1 h s own Q b v c t Rm ltac:(lia) Cf) as (h1 & s1 & own1 & E & R1 & L1 & Ct). rewrite E. cbn [bind].
    assert (Sp : fst (bb_spec (Q b) None (BWrite c)) = q ++ [(x ++ c, None)]).
    { rewrite Eq. cbn [bb_spec]. unfold pending_of. rewrite last_of_snoc, removelast_snoc. reflexivity. }
    rewrite Sp in R1. destruct (IH h1 s1 own1 _ q (x ++ c) R1 ltac:(lia) (setq_same _ _ _) Ct) as (h2 & s2 & own2 & E2 & L2 & R2).
    exists h2, s2, own2. split; [exact E2|]. split; [exact L2|]. eapply rings_ext; [|exact R2]. intros y. unfold setq. destruct (y =? b); [|reflexivity]. now rewrite <- app_assoc.
Qed.
Lemma rings_block h s own Q b v chunks : rings h s own Q -> 0 <= b <= zlen s -> chunks <> [] -> Forall (fun g : gblock => snd g <> None) (Q b) -> chunks_fit h s b v chunks ->
  exists h1 s1 s2 own2 sl r, write_chunks h s b v chunks = Ok (h1, s1) /\ sb_fetch h1 s1 b = Ok (h1, s2, Some sl) /\
    read h1 sl = Ok (concat chunks) /\ idx s2 b = Some r /\ d_blocks (rb_d r) <> [] /\ rings h1 s2 own2 (setq Q b (Q b ++ [(concat chunks, Some sl)])).
Proof.
  intros Rm Hb Nc Fc Cf. destruct chunks as [|c t]; [congruence|]. cbn [write_chunks concat] in *.
  destruct (rings_write1 h s own Q b v c t Rm Hb Cf) as (h1 & s1 & own1 & E & R1 & L1 & Ct). rewrite E. cbn [bind].
  assert (Sp : fst (bb_spec (Q b) None (BWrite c)) = Q b ++ [(c, None)]) by (cbn [bb_spec]; now rewrite pending_complete).
  rewrite Sp in R1. destruct (rings_more b v t h1 s1 own1 _ (Q b) c R1 ltac:(lia) (setq_same _ _ _) Ct) as (h2 & s2 & own2 & E2 & L2 & R2).
  unfold sb_fetch, sb_find_or_create. destruct (idx_some s2 b) as (r & Ei); [lia|].
  destruct (rg_buf _ _ _ _ R2 _ _ Ei) as [Ir _]. rewrite setq_same in Ir. destruct (inv_fetch _ _ _ _ Ir) as (r' & sl & Ef & If & Fr & Es & Nb).
  destruct (rings_put _ _ _ _ _ _ _ _ _ R2 Ei If Fr) as (own3 & R3).
  { intros x t0 Ht. rewrite setq_same. apply in_app_or in Ht as [Ht|[Ht|[]]]; [left; apply in_or_app; now left|]. injection Ht as _ <-. now right. }
  exists h2, s2, (sb_put s2 b r'), own3, sl, r'. split; [exact E2|]. replace (b <? zlen s2) with true by lia. cbn [bind]. rewrite Ei. cbn [of_opt bind]. rewrite Ef. cbn [bind]. split; [reflexivity|].
  split; [apply (rb_inv_held true _ _ _ eq_refl If); apply in_or_app; right; now left|]. split; [unfold sb_put; apply idx_set_nth_same; lia|]. split; [exact Nb|].
  eapply rings_ext; [|exact R3]. intros y. unfold setq. destruct (y =? b); reflexivity.
Qed.

(** ** Held slices *)
Definition synced (h : heap) (s : sbuf) (k : held) (G : Z -> list ghost) : Prop :=
  (exists own, rings h s own (fun b => gq (G b))) /\ forall b, held_of b k = G b.

Lemma rings_some h s own Q b g r : rings h s own Q -> Q b = g :: r -> exists rb, idx s b = Some rb.
Proof.
  intros [A B C D] E. assert (Hb : 0 <= b < zlen s).
  { destruct (Z_lt_dec b 0); [|destruct (Z_lt_dec b (zlen s)); [lia|]]; specialize (C b ltac:(lia)); rewrite E in C; discriminate C. }
  destruct (idx_some s b Hb) as (x & ->). eauto.
Qed.
Lemma rings_shows h s own G b : rings h s own (fun b => gq (G b)) -> Forall (shows h) (G b).
Proof.
  intros Rm. apply Forall_forall. intros g I. destruct (gq (G b)) as [|g0 r] eqn:Gb; [destruct (G b); [destruct I|discriminate Gb]|].
  destruct (rings_some _ _ _ _ b _ _ Rm Gb) as (rb & Ei). destruct (rg_buf _ _ _ _ Rm _ _ Ei) as [Ir _]. apply (rb_inv_held true _ _ _ eq_refl Ir).
  apply (in_map (fun g : ghost => (snd (fst g), Some (snd g)))) in I. exact I.
Qed.

Lemma pairs_fit h cur W n : forall e s own k X P, (length e <= n)%nat -> rings h s own (fun b => gq (X b ++ W b)) -> (forall b, held_of b k = P b ++ W b) ->
  (forall b, Forall (shows h) (P b)) -> (forall b, length (X b) = length (P b)) -> paired true e = true -> accepted e = [] -> discards e = [] ->
  (forall b, Permutation (map tag (on_buffer b (delivered e))) (map fst (P b))) ->
  exists s' k' out, sys_events cur h s k e = Ok (s', k', out) /\ map fst out = delivered e /\ Forall (fun x => snd x = pk_data (fst x)) out /\ synced h s' k' W.
Proof.
  assert (K0 : forall s own k (X P : Z -> list ghost), rings h s own (fun b => gq (X b ++ W b)) -> (forall b, held_of b k = P b ++ W b) -> (forall b, length (X b) = length (P b)) ->
    (forall b, Permutation (map tag (on_buffer b (delivered []))) (map fst (P b))) -> synced h s k W).
  { intros s own k X P Rm Hl L E. assert (Pn : forall b, P b = []). { intros b. specialize (E b). cbn in E. apply Permutation_nil in E. now destruct (P b). }
    assert (Xn : forall b, X b = []). { intros b. specialize (L b). rewrite Pn in L. now destruct (X b). }
    split; [exists own; eapply rings_ext; [|exact Rm]; intros b; cbn beta; now rewrite Xn|]. intros b. now rewrite Hl, Pn. }
  induction n as [|n IH]; intros e s own k X P L Rm Hl Sh Le Pd Ac Di E.
  - destruct e; [|cbn in L; lia]. exists s, k, []. split; [reflexivity|]. split; [reflexivity|]. split; [constructor|]. eapply K0; eauto.
  - destruct e as [|[tr| | |p|i|i|p m|m i] e].
    + exists s, k, []. split; [reflexivity|]. split; [reflexivity|]. split; [constructor|]. eapply K0; eauto.
    + apply (IH e s own k X P); auto. cbn in L. lia.
    + apply (IH e s own k X P); auto. cbn in L. lia.
    + apply (IH e s own k X P); auto. cbn in L. lia.
    + cbn [paired] in Pd. destruct e as [|[ | | | | |i| | ] e]; try discriminate Pd. apply andb_prop in Pd as [Ei Pd]. apply Z.eqb_eq in Ei. subst i.
      change (accepted e = []) in Ac. change (discards e = []) in Di. change (delivered (EvPacket p :: EvDiscardHead (pk_buffer p) :: e)) with (p :: delivered e) in *.
      set (b := pk_buffer p) in *. pose proof (E b) as Ep. cbn [on_buffer filter] in Ep. fold b in Ep. rewrite Z.eqb_refl in Ep. cbn [map] in Ep. fold (on_buffer b (delivered e)) in Ep.
      assert (It : In (tag p) (map fst (P b))) by (eapply Permutation_in; [exact Ep|now left]).
      destruct (take_held_first b (tag p) (W b) k (P b) (Hl b) It) as (P1 & sl & P2 & k' & EP & Tk & Hk1 & Hk2).
      pose proof (Sh b) as Shb. rewrite EP in Shb. apply Forall_app in Shb as [Sh1 Sh2]. apply Forall_cons_iff in Sh2 as [Sp Sh2]. unfold shows in Sp. cbn [fst snd tag] in Sp.
      assert (Lx : exists g r, X b = g :: r). { specialize (Le b). rewrite EP, app_length in Le. cbn [length] in Le. destruct (X b) as [|g r]; [cbn in Le; lia|eauto]. }
      destruct Lx as (g & r & Xb). destruct (rings_some h s own _ b (snd (fst g), Some (snd g)) (gq (r ++ W b)) Rm) as (rb & Ei); [now rewrite Xb|].
      destruct (rg_buf _ _ _ _ Rm _ _ Ei) as [Rr _]. cbn beta in Rr. rewrite Xb in Rr. cbn [gq app map] in Rr.
      destruct (inv_pop _ _ _ _ Rr) as (rb' & Epop & Rr' & Fr).
      cbn [sys_events]. fold b. rewrite Tk. cbn [of_opt bind]. rewrite Sp. cbn [bind]. unfold sb_discard_head. rewrite Ei. cbn [of_opt bind]. rewrite Epop. cbn [bind].
      destruct (rings_put _ _ _ _ _ _ h rb' _ Rm Ei Rr' Fr) as (own' & Rm').
      { intros x t Ht. left. cbn beta. rewrite Xb. cbn [gq app map]. right. exact Ht. }
      destruct (IH e (sb_put s b rb') own' k' (setq X b r) (setq P b (P1 ++ P2))) as (s2 & k2 & out & E2 & O1 & O2 & Sy2); [cbn in L; lia| | | | |exact Pd|exact Ac|exact Di| |].
      * eapply rings_ext; [|exact Rm']. intros x. unfold setq. destruct (Z.eqb_spec x b) as [->|]; reflexivity.
      * intros x. unfold setq. destruct (Z.eqb_spec x b) as [->|N]; [now rewrite Hk1, app_assoc|]. rewrite (Hk2 x N). apply Hl.
      * intros x. unfold setq. destruct (x =? b); [apply Forall_app; auto|apply Sh].
      * intros x. unfold setq. destruct (x =? b); [|apply Le]. specialize (Le b). rewrite Xb, EP, app_length in Le. rewrite app_length. cbn [length] in Le. lia.
      * intros x. unfold setq. destruct (Z.eqb_spec x b) as [->|N].
        -- rewrite EP, map_app in Ep. cbn [map fst] in Ep. apply Permutation_cons_app_inv in Ep. now rewrite map_app.
        -- specialize (E x). cbn [on_buffer filter] in E. fold b in E. now replace (b =? x) with false in E by lia.
      * rewrite E2. cbn [bind]. exists s2, k2, ((p, pk_data p) :: out). split; [reflexivity|]. cbn [map fst]. split; [now rewrite O1|]. split; [constructor; auto|]. exact Sy2.
    + discriminate Di.
    + discriminate Pd.
    + discriminate Ac.
    + apply (IH e s own k X P); auto. cbn in L. lia.
Qed.

(** ** The system *)
Definition sys_synced (y : system) (d : demuxer) : Prop :=
  sy_dm y = d /\ exists G, synced (sy_heap y) (sy_bufs y) (sy_held y) G /\ forall b, map fst (G b) = map tag (waiting b d).

Lemma leave_fit h s k cur G d' e : synced h s k G -> paired true e = true -> accepted e = [] -> discards e = [] ->
  (forall b, exists D, map fst (G b) = D ++ map tag (waiting b d') /\ Permutation (map tag (on_buffer b (delivered e))) D) ->
  exists s' k' out G', sys_events cur h s k e = Ok (s', k', out) /\ map fst out = delivered e /\ Forall (fun x => snd x = pk_data (fst x)) out /\ synced h s' k' G' /\
    forall b, map fst (G' b) = map tag (waiting b d').
Proof.
  intros [(own & Rm) Hl] Pd Ac Di E. set (n b := (length (G b) - length (map tag (waiting b d')))%nat).
  destruct (pairs_fit h cur (fun b => skipn (n b) (G b)) (length e) e s own k (fun b => firstn (n b) (G b)) (fun b => firstn (n b) (G b))) as (s' & k' & out & E1 & O1 & O2 & Sy); auto.
  - eapply rings_ext; [|exact Rm]. intros b. cbn beta. now rewrite firstn_skipn.
  - intros b. cbn beta. now rewrite firstn_skipn.
  - intros b. cbn beta. pose proof (rings_shows _ _ _ _ b Rm) as F. rewrite <- (firstn_skipn (n b) (G b)) in F. now apply Forall_app in F as [F _].
  - intros b. cbn beta. destruct (E b) as (D & E1 & E2). destruct (split_at fst (G b) D _ E1) as [F1 _]. rewrite <- F1 in E2. exact E2.
  - exists s', k', out, (fun b => skipn (n b) (G b)). split; [exact E1|]. split; [exact O1|]. split; [exact O2|]. split; [exact Sy|].
    intros b. cbn beta. destruct (E b) as (D & E2 & _). destruct (split_at fst (G b) D _ E2) as [_ F2]. exact F2.
Qed.

Lemma sys_step_fit y d o a chunks d' e : sys_synced y d -> live d -> calm d -> delivery_op (o, a) -> step o d a = Ok (d', e) -> paired true e = true ->
  (forall b, exists D, map tag (waiting b d) ++ map tag (on_buffer b (accepted e)) = D ++ map tag (waiting b d') /\ Permutation (map tag (on_buffer b (delivered e))) D) ->
  call_fits y ((o, a), chunks) ->
  exists y' out, sys_step y ((o, a), chunks) = Ok (y', out) /\ sys_synced y' d' /\ map fst out = delivered e /\ Forall (fun x => snd x = pk_data (fst x)) out.
Proof.
  intros (Ed & G & Sy & EG) Lv C D S P Fi Su. pose proof (step_shape _ _ _ _ _ Lv C D S) as Sh. unfold call_fits in Su. cbn [fst snd] in Su. unfold sys_step, supply. subst d.
  destruct (call_block a) as [[buf data]|] eqn:Cb.
  - destruct Su as (Ec & Nc & Hb & Cf). destruct Sy as [(own & Rm) Hl].
    destruct (rings_block _ _ _ _ buf (call_video a) chunks Rm Hb Nc (gq_complete _) Cf) as (h1 & s1 & s2 & own2 & sl & rb & E1 & E2 & E3 & Ei & Nb & R2).
    rewrite E1. cbn [bind]. rewrite E2. cbn [bind of_opt]. rewrite E3. cbn [bind]. rewrite Ec in *. rewrite (with_block_same _ _ _ Cb), S. cbn [bind].
    destruct Sh as [(-> & Ek)|(p & m & r & -> & Eb & Edt & _ & Ar & Dr)].
    + cbn [sys_events]. unfold sb_discard_back. rewrite Ei. cbn [of_opt bind]. destruct (rg_buf _ _ _ _ R2 _ _ Ei) as [Rr _]. rewrite setq_same in Rr.
      destruct (inv_pop_back _ _ _ _ Rr Nb) as (rb' & Ep & Rr' & Fr). rewrite Ep. cbn [bind]. do 2 eexists. split; [reflexivity|]. split; [|split; [reflexivity|constructor]].
      split; [reflexivity|]. exists G. cbn [sy_heap sy_bufs sy_held]. split.
      * split; [|exact Hl]. destruct (rings_put _ _ _ _ _ _ h1 rb' _ R2 Ei Rr' Fr) as (own3 & R3). { intros x t Ht. left. rewrite setq_same. apply in_or_app. now left. }
        exists own3. eapply rings_ext; [|exact R3]. intros b. unfold setq. destruct (Z.eqb_spec b buf) as [->|]; reflexivity.
      * intros b. rewrite EG. unfold waiting. now rewrite Ek.
    + cbn [sys_events of_opt bind].
      destruct (leave_fit h1 s2 (sy_held y ++ [(pk_buffer p, tag p, sl)]) (Some sl) (setq G buf (G buf ++ [(tag p, sl)])) d' r)
        as (s3 & k3 & out & G3 & E4 & O1 & O2 & Sy3 & O3); auto.
      * split.
        -- exists own2. eapply rings_ext; [|exact R2]. intros b. unfold setq. destruct (b =? buf); [|reflexivity]. unfold gq. rewrite map_app. cbn [map fst snd tag]. now rewrite Edt.
        -- intros b. rewrite held_of_snoc, Eb, Hl. unfold setq. rewrite (Z.eqb_sym buf b). destruct (Z.eqb_spec b buf) as [->|]; reflexivity.
      * intros b. destruct (Fi b) as (Db & F1 & F2). exists Db. change (delivered (EvAdd p m :: r)) with (delivered r) in F2. split; [|exact F2]. rewrite <- F1.
        change (accepted (EvAdd p m :: r)) with (p :: accepted r). rewrite Ar.
        unfold setq. cbn [on_buffer filter]. rewrite Eb, (Z.eqb_sym buf b). destruct (Z.eqb_spec b buf) as [->|]; [|now rewrite app_nil_r].
        rewrite map_app, EG. reflexivity.
      * rewrite E4. cbn [bind]. do 2 eexists. split; [reflexivity|]. split; [|split; [exact O1|exact O2]]. split; [reflexivity|]. exists G3. auto.
  - destruct Sh as [Ae De]. cbn [bind]. rewrite S. cbn [bind].
    destruct (leave_fit (sy_heap y) (sy_bufs y) (sy_held y) None G d' e Sy P Ae De) as (s3 & k3 & out & G3 & E4 & O1 & O2 & Sy3 & O3); auto.
    + intros b. destruct (Fi b) as (Db & F1 & F2). exists Db. split; [|exact F2]. rewrite EG, <- F1, Ae. cbn [on_buffer filter map]. now rewrite app_nil_r.
    + rewrite E4. cbn [bind]. do 2 eexists. split; [reflexivity|]. split; [|split; [exact O1|exact O2]]. split; [reflexivity|]. exists G3. auto.
Qed.

Lemma sys_fits_snoc l c : forall y, sys_fits y (l ++ [c]) -> sys_fits y l /\ forall y1 o1, sys_run y l = Ok (y1, o1) -> call_fits y1 c.
Proof.
  induction l as [|x t IH]; intros y Hs; cbn [app sys_fits sys_run] in *.
  - destruct Hs as [Hs _]. split; [exact Logic.I|]. now intros y1 o1 [= <- <-].
  - destruct Hs as [H1 H2]. destruct (sys_step y x) as [[y1 o1]| | |]; cbn [bind]; try (split; [auto|discriminate]). apply IH in H2 as [H2 H3]. split; [auto|].
    intros y2 o2 R. destruct (sys_run y1 t) as [[y3 o3]| | |]; cbn [bind] in R; try discriminate. injection R as <- _. exact (H3 _ _ eq_refl).
Qed.

Lemma reach_fit name o0 c0 l : forall d evs, let h := map fst l in
  Forall well_behaved ((o0, OpSetAutoFree true) :: h) -> Forall delivery_op h -> run (dm_new name) ((o0, OpSetAutoFree true) :: h) = Ok (d, evs) ->
  aligned evs -> NoDup (map snd (dm_map d)) ->
  sys_fits (sys_new name) (((o0, OpSetAutoFree true), c0) :: l) ->
  exists y out, sys_run (sys_new name) (((o0, OpSetAutoFree true), c0) :: l) = Ok (y, out) /\ sys_synced y d /\
    map fst out = delivered evs /\ Forall (fun x => snd x = pk_data (fst x)) out.
Proof.
  induction l as [|[[o a] chunks] t IH] using rev_ind; intros d evs h F D R Al N Su.
  - cbn in R. injection R as <- <-. do 2 eexists. split; [reflexivity|]. split; [|split; [reflexivity|constructor]].
    split; [reflexivity|]. exists (fun _ => []). split; [|reflexivity]. split; [|reflexivity]. exists []. constructor; try reflexivity; cbn.
    + intros b r E. apply idx_inv in E. cbn in E. lia.
    + intros b x t0 [].
  - subst h. rewrite map_app in F, D, R. cbn [map fst] in F, D, R. rewrite app_comm_cons in *. apply Forall_app in F as [F Fa]. apply Forall_inv in Fa. apply Forall_app in D as [D Da]. apply Forall_inv in Da.
    pose proof R as R0. rewrite run_app in R. destruct (run (dm_new name) ((o0, OpSetAutoFree true) :: map fst t)) as [[d1 e1]| | |] eqn:R1; cbn [bind] in R; try discriminate.
    cbn [run bind] in R. destruct (step o d1 a) as [[d2 e2]| | |] eqn:S; cbn [bind] in R; try discriminate. injection R as <- <-. rewrite app_nil_r in *.
    pose proof (reach_live _ _ _ _ F R1) as Lv. destruct (reach_balanced name _ d1 e1 (Forall_impl sorting (fun x => @proj1 _ _) F) R1) as (W & _ & B & St).
    assert (F' : Forall well_behaved ((o0, OpSetAutoFree true) :: map fst t ++ [(o, a)])) by (rewrite app_comm_cons; apply Forall_app; split; auto).
    rewrite <- app_comm_cons in R0. pose proof (reach_live _ _ _ _ F' R0) as (W2 & _ & Or2).
    destruct (reach_balanced name _ d2 (e1 ++ e2) (Forall_impl sorting (fun x => @proj1 _ _) F') R0) as (_ & _ & B2 & St2).
    assert (Oa : Forall (origin (dm_map d2)) (accepted (e1 ++ e2))) by (eapply reach_accepted; [exact F'| |exact R0]; apply Forall_app; auto).
    pose proof Al as Al'. unfold aligned in Al'. apply Forall_app in Al' as [Al1 _].
    pose proof (reach_calm _ _ _ _ _ D R1) as C. destruct (step_calm _ _ _ _ _ W C Da S) as [_ (m & Em)].
    assert (N1 : NoDup (map snd (dm_map d1))) by (rewrite Em, map_app in N; now apply NoDup_app_l in N).
    apply sys_fits_snoc in Su as [Su1 Su2].
    destruct (IH d1 e1 F D R1 Al1 N1 Su1) as (y & out & E & Ok1 & O1 & O2). specialize (Su2 y out E). rewrite sys_run_snoc, E. cbn [bind].
    assert (Or1 : Forall (origin (dm_map d2)) (List.concat (dm_packets d1))).
    { eapply origin_incl; [apply Lv|]. rewrite Em. intros j b. apply map_find_ext. }
    assert (Pr : paired true e2 = true).
    { destruct Fa as [O _]. destruct Lv as (L1 & L2 & L3). destruct (step_origin _ _ _ _ _ O L1 L2 L3 S) as [_ P]. rewrite (proj1 C) in P. apply P. clear -Da. destruct a; cbn in *; auto. }
    destruct (sys_step_fit y d1 o a chunks d2 e2 Ok1 Lv C Da S Pr) as (y' & out' & E' & Ok2 & O3 & O4).
    + intros b. eapply buffer_leave; eauto. intros Cd. now apply (step_ext _ _ _ _ _ W S).
    + exact Su2.
    + rewrite E'. cbn [bind]. exists y', (out ++ out'). split; [reflexivity|]. split; [exact Ok2|].
      split; [now rewrite map_app, delivered_app, O1, O3|]. apply Forall_app. auto.
Qed.

Lemma synced_held y d b : sys_synced y d -> Forall2 (fun x p => fst x = tag p /\ read (sy_heap y) (snd x) = Ok (pk_data p)) (held_of b (sy_held y)) (waiting b d).
Proof.
  intros (_ & G & [(own & Rm) Hl] & E). rewrite Hl. specialize (E b). pose proof (rings_shows _ _ _ _ b Rm) as Rd.
  revert E Rd. generalize (G b) (waiting b d). induction l as [|[[t x] s] l IH]; intros [|p ps] E Rd; cbn [map] in E; try discriminate; [constructor|].
  injection E as E1 E2 E3. apply Forall_cons_iff in Rd as [R1 R2]. unfold shows in R1. cbn [fst snd] in *. constructor; [cbn; unfold tag; rewrite <- E1, <- E2; auto|]. now apply IH.
Qed.

(** ** The load bound of C97 is a special case *)
Lemma load_write q d : load (fst (bb_spec q None (BWrite d))) = load q + zlen d.
Proof.
  cbn [bb_spec]. unfold pending_of. destruct (snoc_cases q) as [->|(f & [x o] & ->)]; [cbn; lia|]. rewrite last_of_snoc, removelast_snoc.
  destruct o; cbn [fst]; rewrite !load_snoc, ?zlen_app; lia.
Qed.
Lemma rooms_fit b v chunks : forall h s caps Q, rooms h s caps Q -> 0 <= b <= zlen caps ->
  2 * (load (Q b) + zlen (concat chunks)) <= cap_of (if b =? zlen caps then caps ++ [v] else caps) b -> chunks_fit h s b v chunks.
Proof.
  induction chunks as [|c t IH]; intros h s caps Q Rm Hb Ld; cbn [chunks_fit concat] in *; [exact Logic.I|]. rewrite zlen_app in Ld. pose proof (zlen_nonneg (concat t)). split.
  - destruct (rooms_open h s caps Q b v Rm Hb) as (h1 & s1 & r & E & Ei & R1). rewrite E. pose proof (rm_buf _ _ _ _ R1 _ _ Ei) as ((W & _) & D0 & Lc & Ro).
    split; [apply (room_not_full h1 r W); now rewrite Lc|lia].
  - destruct (rooms_write1 h s caps Q b v c Rm Hb ltac:(lia)) as (h1 & s1 & E & R1). rewrite E. set (caps' := if b =? zlen caps then caps ++ [v] else caps) in *.
    assert (Hb' : 0 <= b < zlen caps') by (unfold caps'; destruct (Z.eqb_spec b (zlen caps)); [rewrite zlen_app; cbn; lia|lia]).
    apply (IH h1 s1 caps' _ R1 ltac:(lia)). replace (b =? zlen caps') with false by lia. rewrite setq_same, load_write. lia.
Qed.
Lemma supply_fits y d caps o a chunks : sys_ok y d caps -> supply_ok d caps a chunks -> call_fits y ((o, a), chunks).
Proof.
  intros (_ & G & [Rm _] & EG) Su. unfold supply_ok, open_stream in Su. unfold call_fits. cbn [fst snd]. destruct (call_block a) as [[buf data]|]; [|exact Logic.I].
  destruct Su as (Ec & Nc & Hb & Ld). split; [exact Ec|]. split; [exact Nc|]. split; [now rewrite (rm_len _ _ _ _ Rm)|].
  apply (rooms_fit buf (call_video a) chunks _ _ caps _ Rm Hb). rewrite (load_ghosts _ _ (EG buf)), Ec. unfold cap_of. rewrite stream_half_ok. lia.
Qed.
Lemma sys_fits_add l c : forall y, sys_fits y l -> (forall y1 o1, sys_run y l = Ok (y1, o1) -> call_fits y1 c) -> sys_fits y (l ++ [c]).
Proof.
  induction l as [|x t IH]; intros y Hs Hc; cbn [app sys_fits sys_run] in *.
  - split; [eapply Hc; reflexivity|]. now destruct (sys_step y c) as [[? ?]| | |].
  - destruct Hs as [H1 H2]. split; [exact H1|]. destruct (sys_step y x) as [[y1 o1]| | |]; auto. apply IH; [exact H2|]. cbn [bind] in Hc. intros y2 o2 R. rewrite R in Hc. cbn [bind] in Hc. eapply Hc. reflexivity.
Qed.
Lemma supplied_fits name o0 c0 l : forall d evs, let h := map fst l in
  Forall well_behaved ((o0, OpSetAutoFree true) :: h) -> Forall delivery_op h -> run (dm_new name) ((o0, OpSetAutoFree true) :: h) = Ok (d, evs) ->
  aligned evs -> NoDup (map snd (dm_map d)) ->
  supplied (dm_new name) [] (((o0, OpSetAutoFree true), c0) :: l) -> sys_fits (sys_new name) (((o0, OpSetAutoFree true), c0) :: l).
Proof.
  induction l as [|[[o a] chunks] t IH] using rev_ind; intros d evs h F D R Al N Su; [cbn; auto|].
  subst h. rewrite map_app in F, D, R. cbn [map fst] in F, D, R. rewrite app_comm_cons in *. apply Forall_app in F as [F _]. apply Forall_app in D as [D Da]. apply Forall_inv in Da.
  rewrite run_app in R. destruct (run (dm_new name) ((o0, OpSetAutoFree true) :: map fst t)) as [[d1 e1]| | |] eqn:R1; cbn [bind] in R; try discriminate.
  cbn [run bind] in R. destruct (step o d1 a) as [[d2 e2]| | |] eqn:S; cbn [bind] in R; try discriminate. injection R as <- <-. rewrite app_nil_r in *.
  pose proof (reach_live _ _ _ _ F R1) as Lv. unfold aligned in Al. apply Forall_app in Al as [Al1 _].
  pose proof (reach_calm _ _ _ _ _ D R1) as C. destruct (step_calm _ _ _ _ _ (proj1 Lv) C Da S) as [_ (m & Em)].
  assert (N1 : NoDup (map snd (dm_map d1))) by (rewrite Em, map_app in N; now apply NoDup_app_l in N).
  apply supplied_snoc in Su as [Su1 Su2]. specialize (Su2 d1 e1 R1).
  destruct (reach_system name o0 c0 t d1 e1 F D R1 Al1 N1 Su1) as (y & out & E & Ok1 & _).
  apply sys_fits_add; [eapply IH; eauto|]. intros y1 o1 E1. rewrite E in E1. injection E1 as <- <-. eapply supply_fits; eauto.
Qed.

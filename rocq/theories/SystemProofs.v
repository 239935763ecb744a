(** * SystemProofs: what the handler sees is what was written. *)
From Verif Require Import Base CollectionsSpec BlockModel BlockSpec HeapProofs DirectProofs RBProofs RingProofs RoomSpec RoomProofs StreamsSpec StreamsProofs
  PacketModel DemuxModel DemuxProofs DeliverySpec DeliveryProofs SystemSpec.
From Coq Require Import List Permutation Sorted.
Import ListNotations.
Local Open Scope list_scope.

(** ** One ring *)
Lemma roomy_transport c h h' r q : roomy c h r q -> nth_error h' (arr_of r) = nth_error h (arr_of r) -> roomy c h' r q.
Proof.
  intros ((W & Lay & qd & fb & fq & pb & pq & Eb & -> & Ld & Fd & F & P) & D0 & Lc & Rm) E. split; [|auto].
  split; [eapply wf_transport; eauto|]. split; [exact Lay|]. exists qd, fb, fq, pb, pq. split; [exact Eb|]. split; [reflexivity|]. split; [exact Ld|].
  rewrite D0 in Ld. apply zlen_zero_nil in Ld. subst qd. split; [constructor|].
  assert (Rd : forall k, read h' (blk_slice (d_data (rb_d r)) k) = read h (blk_slice (d_data (rb_d r)) k)) by (intros k; unfold read; cbn [s_arr blk_slice]; unfold arr_of in E; now rewrite E).
  split.
  - clear - F Rd. induction F as [|k g fb fq (Ck & x & s & Eg & G) _ IH]; [constructor|]. constructor; [|exact IH]. split; [exact Ck|]. exists x, s. split; [exact Eg|]. intros T. destruct (G T) as [-> G2]. split; [reflexivity|]. now rewrite Rd.
  - destruct P as [P|(k & g & E1 & E2 & Ck & x & Eg & Lx & Rx)]; [now left|]. right. exists k, g. split; [exact E1|]. split; [exact E2|]. split; [exact Ck|]. exists x. split; [exact Eg|]. split; [exact Lx|]. now rewrite Rd.
Qed.

Lemma roomy_intact c h r q x s : roomy c h r q -> In (x, Some s) q -> read h s = Ok x.
Proof. intros (I & _) HI. now apply (rb_inv_held true h r q eq_refl I). Qed.

Lemma roomy_pop c h r g q : roomy c h r (g :: q) -> exists r', rb_pop r = Ok r' /\ roomy c h r' q /\ arr_of r' = arr_of r.
Proof.
  intros R. pose proof (roomy_step c h r _ BPop R Logic.I) as S. unfold co_step in S. cbn [rb_impl bb_spec tl] in S.
  destruct (rb_pop r) as [r'| | |]; cbn [bind] in S; destruct S as (S1 & S2 & S3 & _); try discriminate S2. exists r'. split; [reflexivity|]. split; [exact S1|]. unfold arr_of. now rewrite S3.
Qed.
Lemma roomy_pop_back c h r g q : roomy c h r (q ++ [g]) -> exists r', rb_pop_back r = Ok r' /\ roomy c h r' q /\ arr_of r' = arr_of r.
Proof.
  intros R. pose proof (roomy_step c h r _ BPopBack R Logic.I) as S. unfold co_step in S. cbn [rb_impl] in S.
  assert (Sp : forall s, bb_spec (q ++ [g]) s BPopBack = (q, Ok BUnit)) by (intros s; cbn [bb_spec]; destruct (q ++ [g]) eqn:E; [destruct q; discriminate|]; rewrite <- E, removelast_snoc; reflexivity).
  rewrite !Sp in S. destruct (rb_pop_back r) as [r'| | |]; cbn [bind] in S; rewrite ?Sp in S; destruct S as (S1 & S2 & S3 & _); try discriminate S2. exists r'. split; [reflexivity|]. split; [exact S1|]. unfold arr_of. now rewrite S3.
Qed.
Lemma roomy_write c h r q d : roomy c h r q -> 2 * (load q + zlen d) <= c ->
  exists h' r', rb_write h r d = Ok (h', r') /\ roomy c h' r' (fst (bb_spec q None (BWrite d))) /\ arr_of r' = arr_of r /\ length h' = length h /\
    (forall i, i <> arr_of r -> nth_error h' i = nth_error h i).
Proof.
  intros R H. pose proof (roomy_step c h r q (BWrite d) R H) as S. unfold co_step in S. cbn [rb_impl] in S.
  destruct R as ((W & _) & _). destruct (rb_write_frame h r d W) as (h' & r' & E & Fr). rewrite E in S. cbn [bind raw_slice] in S.
  destruct (bb_spec q None (BWrite d)) as [q' so]. destruct S as (S1 & _ & S3 & _). assert (A : arr_of r' = arr_of r) by (unfold arr_of; now rewrite S3).
  exists h', r'. split; [exact E|]. split; [exact S1|]. split; [exact A|]. pose proof (fr_eq _ _ _ _ Fr A) as L. split; [exact L|].
  intros i Hi. destruct (Nat.lt_ge_cases i (length h)) as [G|G]; [now apply (fr_nth _ _ _ _ Fr)|].
  rewrite (proj2 (nth_error_None h i)), (proj2 (nth_error_None h' i)) by lia. reflexivity.
Qed.
Lemma roomy_fetch c h r q x : roomy c h r (q ++ [(x, None)]) ->
  exists r' s, rb_fetch r = Ok (r', Some s) /\ roomy c h r' (q ++ [(x, Some s)]) /\ arr_of r' = arr_of r.
Proof.
  intros R. pose proof (roomy_step c h r _ BFetch R Logic.I) as S. unfold co_step in S. cbn [rb_impl] in S.
  assert (Sp : forall s, bb_spec (q ++ [(x, None)]) s BFetch = (q ++ [(x, s)], Ok (BBytes (Some x)))).
  { intros s. assert (Pn : pending_of (q ++ [(x, None)]) = Some x) by (unfold pending_of; now rewrite last_of_snoc).
    cbn [bb_spec]. pose proof (removelast_snoc q (x, @None gslice)) as Rl. destruct (q ++ [(x, None)]) eqn:E; [destruct q; discriminate|]. unfold gblock in *. rewrite Pn, Rl. reflexivity. }
  rewrite !Sp in S. destruct (rb_fetch r) as [[r' y]| | |]; cbn [bind] in S; rewrite ?Sp in S; destruct S as (S1 & S2 & S3 & _); try discriminate S2.
  cbn [raw_slice] in S1. destruct y as [s|]; [|discriminate S2]. exists r', s. split; [reflexivity|]. split; [exact S1|]. unfold arr_of. now rewrite S3.
Qed.

(** ** All streams *)
Definition setq {A} (Q : Z -> A) (b : Z) (q : A) : Z -> A := fun x => if x =? b then q else Q x.
Lemma setq_same {A} (Q : Z -> A) b q : setq Q b q b = q.
Proof. unfold setq. now rewrite Z.eqb_refl. Qed.
Lemma setq_other {A} (Q : Z -> A) b q x : x <> b -> setq Q b q x = Q x.
Proof. unfold setq. intros. now replace (x =? b) with false by lia. Qed.

Definition cap_of (caps : list bool) (b : Z) : Z := stream_capacity (nth (Z.to_nat b) caps false).
Record rooms (h : heap) (s : sbuf) (caps : list bool) (Q : Z -> list gblock) : Prop := {
  rm_len : zlen s = zlen caps;
  rm_buf : forall b r, idx s b = Some r -> roomy (cap_of caps b) h r (Q b);
  rm_out : forall b, ~ (0 <= b < zlen s) -> Q b = [];
  rm_arr : forall b1 b2 r1 r2, idx s b1 = Some r1 -> idx s b2 = Some r2 -> b1 <> b2 -> arr_of r1 <> arr_of r2 }.

Lemma rooms_ext h s caps Q Q' : (forall b, Q b = Q' b) -> rooms h s caps Q -> rooms h s caps Q'.
Proof. intros E [A B C D]. constructor; auto; intros b; rewrite <- E; auto. Qed.

Lemma rooms_put h s caps Q b r h' r' q' : rooms h s caps Q -> idx s b = Some r -> roomy (cap_of caps b) h' r' q' -> arr_of r' = arr_of r ->
  (forall i, i <> arr_of r -> nth_error h' i = nth_error h i) -> rooms h' (sb_put s b r') caps (setq Q b q').
Proof.
  intros [A B C D] Ei R Ea Fr. pose proof (idx_inv _ _ _ Ei) as Ri. unfold sb_put. constructor.
  - rewrite zlen_set_nth. exact A.
  - intros x rx Ex. destruct (Z.eq_dec x b) as [->|N].
    + rewrite idx_set_nth_same in Ex by lia. injection Ex as <-. now rewrite setq_same.
    + rewrite idx_set_nth_other in Ex by lia. rewrite setq_other by exact N. eapply roomy_transport; [apply B; exact Ex|]. apply Fr. eapply D; eauto.
  - intros x Hx. rewrite zlen_set_nth in Hx. rewrite setq_other by lia. now apply C.
  - assert (G : forall x rx, idx (set_nth (Z.to_nat b) r' s) x = Some rx -> exists r0, idx s x = Some r0 /\ arr_of rx = arr_of r0).
    { intros x rx Ex. destruct (Z.eq_dec x b) as [->|N].
      - rewrite idx_set_nth_same in Ex by lia. injection Ex as <-. eauto.
      - rewrite idx_set_nth_other in Ex by lia. eauto. }
    intros b1 b2 r1 r2 E1 E2 N. apply G in E1 as (x1 & E1 & ->). apply G in E2 as (x2 & E2 & ->). eapply D; eauto.
Qed.

Lemma valid_arr c h r q : roomy c h r q -> (arr_of r < length h)%nat.
Proof. intros ((W & _) & _). exact (valid_lt _ _ (proj1 W)). Qed.

Lemma rb_new_shape h c h1 r : 0 <= c -> rb_new h c = Ok (h1, r) -> h1 = h ++ [zeros (Z.to_nat c)] /\ arr_of r = length h.
Proof. intros H E. unfold rb_new, d_new in E. rewrite make_ok in E by lia. cbn [bind] in E. injection E as <- <-. split; reflexivity. Qed.
(** Opening a stream, or finding it. *)
Lemma rooms_open h s caps Q b v : rooms h s caps Q -> 0 <= b <= zlen caps ->
  let caps' := if b =? zlen caps then caps ++ [v] else caps in
  exists h1 s1 r, sb_find_or_create h s b v = Ok (h1, s1, r) /\ idx s1 b = Some r /\ rooms h1 s1 caps' Q.
Proof.
  intros Rm Hb caps'. pose proof Rm as [A B C D]. unfold sb_find_or_create, caps'. destruct (Z.eqb_spec b (zlen caps)) as [->|N].
  - replace (zlen caps <? zlen s) with false by lia.
    assert (Hc : 0 <= stream_capacity v) by (destruct v; cbn; lia).
    destruct (rb_new_inv true h (stream_capacity v) Hc) as (h1 & r & E & _). pose proof (roomy_new _ _ _ _ Hc E) as R. rewrite E. cbn [bind]. rewrite <- A.
    assert (Ei : idx (s ++ [r]) (zlen s) = Some r) by (rewrite idx_app_r, Z.sub_diag by lia; reflexivity). rewrite Ei. cbn [of_opt bind].
    exists h1, (s ++ [r]), r. split; [reflexivity|]. split; [exact Ei|].
    assert (Eh : h1 = h ++ [zeros (Z.to_nat (stream_capacity v))] /\ arr_of r = length h).
    { eapply rb_new_shape; eauto. }
    destruct Eh as [Eh Ea].
    assert (K : forall k, (k < length h)%nat -> nth_error h1 k = nth_error h k) by (intros; rewrite Eh; now apply nth_error_app1).
    assert (G : forall x rx, idx (s ++ [r]) x = Some rx -> x = zlen s /\ rx = r \/ x < zlen s /\ idx s x = Some rx).
    { intros x rx Ex. pose proof (idx_inv _ _ _ Ex) as Rx. rewrite zlen_app in Rx. change (zlen [r]) with 1 in Rx. destruct (Z.eq_dec x (zlen s)) as [->|Nx].
      - left. rewrite Ei in Ex. now injection Ex as <-.
      - right. split; [lia|]. now rewrite idx_app_l in Ex by lia. }
    constructor.
    + rewrite !zlen_app. cbn. lia.
    + intros x rx Ex. apply G in Ex as [(-> & ->)|(L & Ex)].
      * rewrite C by lia. unfold cap_of. rewrite app_nth2, A by (unfold zlen in *; lia).
        replace (Z.to_nat (zlen caps) - length caps)%nat with 0%nat by (unfold zlen; lia). exact R.
      * unfold cap_of. rewrite app_nth1. 2: { pose proof (idx_inv _ _ _ Ex). unfold zlen in *. lia. }
        eapply roomy_transport; [apply B; exact Ex|]. apply K. eapply valid_arr. exact (B _ _ Ex).
    + intros x Hx. apply C. rewrite zlen_app in Hx. change (zlen [r]) with 1 in Hx. lia.
    + intros b1 b2 r1 r2 E1 E2 Nb. apply G in E1 as [(-> & ->)|(L1 & E1)]; apply G in E2 as [(-> & ->)|(L2 & E2)]; try congruence.
      * rewrite Ea. specialize (B _ _ E2). apply valid_arr in B. lia.
      * rewrite Ea. specialize (B _ _ E1). apply valid_arr in B. lia.
      * eauto.
  - replace (b <? zlen s) with true by lia. cbn [bind]. destruct (idx_some s b) as (r & Ei); [lia|]. rewrite Ei. cbn [of_opt bind]. eauto 8.
Qed.

(** Writing a block in pieces and fetching it. *)
Lemma rooms_write1 h s caps Q b v d : rooms h s caps Q -> 0 <= b <= zlen caps ->
  let caps' := if b =? zlen caps then caps ++ [v] else caps in
  2 * (load (Q b) + zlen d) <= cap_of caps' b ->
  exists h1 s1, sb_write h s d b v = Ok (h1, s1, zlen d) /\ rooms h1 s1 caps' (setq Q b (fst (bb_spec (Q b) None (BWrite d)))).
Proof.
  intros Rm Hb caps' Ld. destruct (rooms_open h s caps Q b v Rm Hb) as (h1 & s1 & r & E & Ei & R1). unfold sb_write. rewrite E. cbn [bind]. fold caps' in R1.
  destruct (roomy_write _ _ _ _ d (rm_buf _ _ _ _ R1 _ _ Ei) Ld) as (h2 & r2 & Ew & R2 & Ea & _ & Fr). rewrite Ew. cbn [bind]. do 2 eexists. split; [reflexivity|]. eapply rooms_put; eauto.
Qed.
Lemma load_snoc q x o : load (q ++ [(x, o)]) = load q + zlen x.
Proof. rewrite load_app. cbn. lia. Qed.
Lemma rooms_more b v chunks : forall h s caps Q q x, rooms h s caps Q -> 0 <= b < zlen caps -> Q b = q ++ [(x, None)] ->
  2 * (load q + zlen x + zlen (concat chunks)) <= cap_of caps b ->
  exists h1 s1, write_chunks h s b v chunks = Ok (h1, s1) /\ rooms h1 s1 caps (setq Q b (q ++ [(x ++ concat chunks, None)])).
Proof.
  induction chunks as [|c t IH]; intros h s caps Q q x Rm Hb Eq Ld; cbn [write_chunks concat].
  - exists h, s. split; [reflexivity|]. rewrite app_nil_r. eapply rooms_ext; [|exact Rm]. intros y. unfold setq. destruct (Z.eqb_spec y b) as [->|]; auto.
  - cbn [concat] in Ld. rewrite zlen_app in Ld. pose proof (zlen_nonneg (concat t)).
    assert (Nb : (b =? zlen caps) = false) by lia.
    pose proof (rooms_write1 h s caps Q b v c Rm ltac:(lia)) as S. rewrite Nb in S. cbv zeta in S. rewrite Eq, load_snoc in S. specialize (S ltac:(lia)).
    destruct S as (h1 & s1 & E & R1). rewrite E. cbn [bind].
    assert (Sp : fst (bb_spec (q ++ [(x, None)]) None (BWrite c)) = q ++ [(x ++ c, None)]).
    { cbn [bb_spec]. unfold pending_of. rewrite last_of_snoc, removelast_snoc. reflexivity. }
    rewrite Sp in R1. destruct (IH h1 s1 caps _ q (x ++ c) R1 Hb (setq_same _ _ _)) as (h2 & s2 & E2 & R2); [rewrite zlen_app; lia|].
    exists h2, s2. split; [exact E2|]. eapply rooms_ext; [|exact R2]. intros y. unfold setq. destruct (y =? b); [|reflexivity]. now rewrite <- app_assoc.
Qed.
Lemma pending_complete q : Forall (fun g : gblock => snd g <> None) q -> pending_of q = None.
Proof.
  unfold pending_of. destruct (snoc_cases q) as [->|(f & [x o] & ->)]; [reflexivity|]. intros F. apply Forall_app in F as [_ F]. apply Forall_inv in F. cbn in F. rewrite last_of_snoc. destruct o; [reflexivity|congruence].
Qed.
Lemma rooms_block h s caps Q b v chunks : rooms h s caps Q -> 0 <= b <= zlen caps -> chunks <> [] -> Forall (fun g : gblock => snd g <> None) (Q b) ->
  let caps' := if b =? zlen caps then caps ++ [v] else caps in
  2 * (load (Q b) + zlen (concat chunks)) <= cap_of caps' b ->
  exists h1 s1 h2 s2 sl, write_chunks h s b v chunks = Ok (h1, s1) /\ sb_fetch h1 s1 b = Ok (h2, s2, Some sl) /\
    read h2 sl = Ok (concat chunks) /\ rooms h2 s2 caps' (setq Q b (Q b ++ [(concat chunks, Some sl)])).
Proof.
  intros Rm Hb Nc Fc caps' Ld. destruct chunks as [|c t]; [congruence|]. cbn [write_chunks concat] in *. rewrite zlen_app in Ld. pose proof (zlen_nonneg (concat t)).
  destruct (rooms_write1 h s caps Q b v c Rm Hb) as (h1 & s1 & E & R1); [fold caps'; lia|]. fold caps' in R1. rewrite E. cbn [bind].
  assert (Sp : fst (bb_spec (Q b) None (BWrite c)) = Q b ++ [(c, None)]) by (cbn [bb_spec]; now rewrite pending_complete).
  rewrite Sp in R1.
  assert (Hb' : 0 <= b < zlen caps') by (unfold caps'; destruct (Z.eqb_spec b (zlen caps)); [rewrite zlen_app; cbn; lia|lia]).
  destruct (rooms_more b v t h1 s1 caps' _ (Q b) c R1 Hb' (setq_same _ _ _)) as (h2 & s2 & E2 & R2); [lia|].
  exists h2, s2. unfold sb_fetch, sb_find_or_create. pose proof R2 as [A2 B2 C2 D2]. replace (b <? zlen s2) with true by lia. cbn [bind].
  destruct (idx_some s2 b) as (r & Ei); [lia|]. rewrite Ei. cbn [of_opt bind].
  pose proof (B2 _ _ Ei) as Rr. rewrite setq_same in Rr. destruct (roomy_fetch _ _ _ _ _ Rr) as (r' & sl & Ef & Rf & Ea). rewrite Ef. cbn [bind].
  exists h2, (sb_put s2 b r'), sl. split; [exact E2|]. split; [reflexivity|]. split; [eapply roomy_intact; [exact Rf|]; apply in_or_app; right; now left|].
  eapply rooms_ext; [|eapply (rooms_put h2 s2 caps' _ b r h2 r' _ R2 Ei Rf Ea); auto]. intros y. unfold setq. destruct (y =? b); reflexivity.
Qed.

(** ** Held slices *)
(** What is known of a block: dts and data of its packet, and its slice. *)
Definition ghost : Type := (Z * list Z) * gslice.
Definition gq (l : list ghost) : list gblock := map (fun g => (snd (fst g), Some (snd g))) l.
Definition on_buffer (b : Z) (l : list packet) : list packet := filter (fun p => pk_buffer p =? b) l.
Definition sync (h : heap) (s : sbuf) (k : held) (caps : list bool) (G : Z -> list ghost) : Prop :=
  rooms h s caps (fun b => gq (G b)) /\ forall b, held_of b k = G b.

Lemma take_held_first b t W : forall k P, held_of b k = P ++ W -> In t (map fst P) ->
  exists P1 sl P2 k', P = P1 ++ (t, sl) :: P2 /\ take_held b t k = Some (sl, k') /\ held_of b k' = P1 ++ P2 ++ W /\ forall b', b' <> b -> held_of b' k' = held_of b' k.
Proof.
  induction k as [|[[b1 t1] s1] k IH]; intros P E I; [destruct P; [destruct I|discriminate E]|]. unfold held_of in E. cbn [filter fst take_held] in *. destruct (Z.eqb_spec b1 b) as [->|N].
  - cbn [map fst snd] in E. destruct P as [|[t2 s2] P]; [destruct I|]. cbn [app map fst] in E, I. injection E as <- <- E. destruct (tag_dec t1 t) as [->|Nt]; cbn [andb].
    + exists [], s1, P, k. split; [reflexivity|]. split; [reflexivity|]. split; [exact E|]. intros b' N. unfold held_of. cbn [filter fst]. now replace (b =? b') with false by lia.
    + destruct I as [I|I]; [congruence|]. destruct (IH P E I) as (P1 & sl & P2 & k' & -> & -> & E1 & E2). exists ((t1, s1) :: P1), sl, P2, ((b, t1, s1) :: k').
      split; [reflexivity|]. split; [reflexivity|]. unfold held_of in *. cbn [filter fst]. rewrite Z.eqb_refl. cbn [map fst snd app]. split; [now rewrite E1|].
      intros b' N. replace (b =? b') with false by lia. now apply E2.
  - cbn [andb]. destruct (IH P E I) as (P1 & sl & P2 & k' & -> & -> & E1 & E2). exists P1, sl, P2, ((b1, t1, s1) :: k'). split; [reflexivity|]. split; [reflexivity|]. unfold held_of in *. cbn [filter fst]. split.
    + now replace (b1 =? b) with false by lia.
    + intros b' N'. destruct (b1 =? b'); cbn [map]; now rewrite (E2 b' N').
Qed.
Lemma held_of_snoc b k b1 t sl : held_of b (k ++ [(b1, t, sl)]) = if b1 =? b then held_of b k ++ [(t, sl)] else held_of b k.
Proof. unfold held_of. rewrite filter_app, map_app. cbn [filter fst]. destruct (b1 =? b); cbn [map]; [reflexivity|apply app_nil_r]. Qed.

Lemma rooms_some h s caps Q b g r : rooms h s caps Q -> Q b = g :: r -> exists rb, idx s b = Some rb.
Proof.
  intros [A B C D] E. assert (Hb : 0 <= b < zlen s).
  { destruct (Z_lt_dec b 0); [|destruct (Z_lt_dec b (zlen s)); [lia|]]; specialize (C b ltac:(lia)); rewrite E in C; discriminate C. }
  destruct (idx_some s b Hb) as (x & ->). eauto.
Qed.
Definition shows (h : heap) (g : ghost) : Prop := read h (snd g) = Ok (snd (fst g)).
Lemma rooms_shows h s caps G b : rooms h s caps (fun b => gq (G b)) -> Forall (shows h) (G b).
Proof.
  intros Rm. apply Forall_forall. intros g I. destruct (gq (G b)) as [|g0 r] eqn:Gb; [destruct (G b); [destruct I|discriminate Gb]|].
  destruct (rooms_some _ _ _ _ b _ _ Rm Gb) as (rb & Ei). eapply roomy_intact; [exact (rm_buf _ _ _ _ Rm _ _ Ei)|]. cbn beta.
  apply (in_map (fun g : ghost => (snd (fst g), Some (snd g)))) in I. exact I.
Qed.

(** The packets of one call, each followed by the release of the oldest block. They may come in any order: the memory does not change
    before the next call, so a block that is already released still shows its bytes. *)
Lemma pairs_ok h caps cur W n : forall e s k X P, (length e <= n)%nat -> rooms h s caps (fun b => gq (X b ++ W b)) -> (forall b, held_of b k = P b ++ W b) ->
  (forall b, Forall (shows h) (P b)) -> (forall b, length (X b) = length (P b)) -> paired true e = true -> accepted e = [] -> discards e = [] ->
  (forall b, Permutation (map tag (on_buffer b (delivered e))) (map fst (P b))) ->
  exists s' k' out, sys_events cur h s k e = Ok (s', k', out) /\ map fst out = delivered e /\ Forall (fun x => snd x = pk_data (fst x)) out /\ sync h s' k' caps W.
Proof.
  assert (K0 : forall s k (X P : Z -> list ghost), rooms h s caps (fun b => gq (X b ++ W b)) -> (forall b, held_of b k = P b ++ W b) -> (forall b, length (X b) = length (P b)) ->
    (forall b, Permutation (map tag (on_buffer b (delivered []))) (map fst (P b))) -> sync h s k caps W).
  { intros s k X P Rm Hl L E. assert (Pn : forall b, P b = []). { intros b. specialize (E b). cbn in E. apply Permutation_nil in E. now destruct (P b). }
    assert (Xn : forall b, X b = []). { intros b. specialize (L b). rewrite Pn in L. now destruct (X b). }
    split; [eapply rooms_ext; [|exact Rm]; intros b; cbn beta; now rewrite Xn|]. intros b. now rewrite Hl, Pn. }
  induction n as [|n IH]; intros e s k X P L Rm Hl Sh Le Pd Ac Di E.
  - destruct e; [|cbn in L; lia]. exists s, k, []. split; [reflexivity|]. split; [reflexivity|]. split; [constructor|]. eapply K0; eauto.
  - destruct e as [|[tr| | |p|i|i|p m|m i] e].
    + exists s, k, []. split; [reflexivity|]. split; [reflexivity|]. split; [constructor|]. eapply K0; eauto.
    + apply (IH e s k X P); auto. cbn in L. lia.
    + apply (IH e s k X P); auto. cbn in L. lia.
    + apply (IH e s k X P); auto. cbn in L. lia.
    + cbn [paired] in Pd. destruct e as [|[ | | | | |i| | ] e]; try discriminate Pd. apply andb_prop in Pd as [Ei Pd]. apply Z.eqb_eq in Ei. subst i.
      change (accepted e = []) in Ac. change (discards e = []) in Di. change (delivered (EvPacket p :: EvDiscardHead (pk_buffer p) :: e)) with (p :: delivered e) in *.
      set (b := pk_buffer p) in *. pose proof (E b) as Ep. cbn [on_buffer filter] in Ep. fold b in Ep. rewrite Z.eqb_refl in Ep. cbn [map] in Ep. fold (on_buffer b (delivered e)) in Ep.
      assert (It : In (tag p) (map fst (P b))) by (eapply Permutation_in; [exact Ep|now left]).
      destruct (take_held_first b (tag p) (W b) k (P b) (Hl b) It) as (P1 & sl & P2 & k' & EP & Tk & Hk1 & Hk2).
      pose proof (Sh b) as Shb. rewrite EP in Shb. apply Forall_app in Shb as [Sh1 Sh2]. apply Forall_cons_iff in Sh2 as [Sp Sh2]. unfold shows in Sp. cbn [fst snd tag] in Sp.
      assert (Lx : exists g r, X b = g :: r). { specialize (Le b). rewrite EP, app_length in Le. cbn [length] in Le. destruct (X b) as [|g r]; [cbn in Le; lia|eauto]. }
      destruct Lx as (g & r & Xb). destruct (rooms_some h s caps _ b (snd (fst g), Some (snd g)) (gq (r ++ W b)) Rm) as (rb & Ei); [now rewrite Xb|].
      pose proof (rm_buf _ _ _ _ Rm _ _ Ei) as Rr. cbn beta in Rr. rewrite Xb in Rr. cbn [gq app map] in Rr.
      destruct (roomy_pop _ _ _ _ _ Rr) as (rb' & Epop & Rr' & Ea).
      cbn [sys_events]. fold b. rewrite Tk. cbn [of_opt bind]. rewrite Sp. cbn [bind]. unfold sb_discard_head. rewrite Ei. cbn [of_opt bind]. rewrite Epop. cbn [bind].
      pose proof (rooms_put _ _ _ _ _ _ h rb' _ Rm Ei Rr' Ea (fun i _ => eq_refl)) as Rm'.
      destruct (IH e (sb_put s b rb') k' (setq X b r) (setq P b (P1 ++ P2))) as (s2 & k2 & out & E2 & O1 & O2 & Sy2); [cbn in L; lia| | | | |exact Pd|exact Ac|exact Di| |].
      * eapply rooms_ext; [|exact Rm']. intros x. unfold setq. destruct (Z.eqb_spec x b) as [->|]; reflexivity.
      * intros x. unfold setq. destruct (Z.eqb_spec x b) as [->|N]; [now rewrite Hk1, app_assoc|]. rewrite (Hk2 x N). apply Hl.
      * intros x. unfold setq. destruct (x =? b); [apply Forall_app; auto|apply Sh].
      * intros x. unfold setq. destruct (x =? b); [|apply Le]. specialize (Le b). rewrite Xb, EP, app_length in Le. rewrite app_length. cbn [length] in Le. lia.
      * intros x. unfold setq. destruct (Z.eqb_spec x b) as [->|N].
        -- rewrite EP, map_app in Ep. cbn [map fst] in Ep. apply Permutation_cons_app_inv in Ep. now rewrite map_app.
        -- specialize (E x). cbn [on_buffer filter] in E. fold b in E. now replace (b =? x) with false in E by lia.
      * rewrite E2. cbn [bind]. exists s2, k2, ((p, pk_data p) :: out). split; [reflexivity|]. cbn [map fst]. split; [now rewrite O1|]. split; [constructor; auto|]. exact Sy2.
    + discriminate Di.
    + discriminate Pd.
    + discriminate Ac.
    + apply (IH e s k X P); auto. cbn in L. lia.
Qed.

(** ** One call of the demuxer *)
Lemma with_block_same a buf data : call_block a = Some (buf, data) -> with_block a data = a.
Proof.
  destruct a; cbn [call_block with_block]; try discriminate; try (now intros [= <- <-]).
  - destruct extra as [[|x t]|]; try discriminate. now intros [= <- <-].
  - destruct extra as [|x t]; try discriminate. now intros [= <- <-].
Qed.

Lemma step_shape o d a d' e : live d -> calm d -> delivery_op (o, a) -> step o d a = Ok (d', e) ->
  match call_block a with
  | None => accepted e = [] /\ discards e = []
  | Some (buf, data) => (e = [EvDiscardBack buf] /\ dm_packets d' = dm_packets d) \/
      (exists p m r, e = EvAdd p m :: r /\ pk_buffer p = buf /\ pk_data p = data /\ origin (dm_map d') p /\ accepted r = [] /\ discards r = [])
  end.
Proof.
  intros (W & H & Or) [A Hd] D S.
  assert (Kp : forall buf id data dts pre, hook_ok pre -> hook_data pre -> packet_step o d buf id data dts pre d' e ->
     (e = [EvDiscardBack buf] /\ dm_packets d' = dm_packets d) \/
     (exists p m r, e = EvAdd p m :: r /\ pk_buffer p = buf /\ pk_data p = data /\ origin (dm_map d') p /\ accepted r = [] /\ discards r = [])).
  { intros buf id data dts pre Hp Hpd [(-> & ->)|(d1 & i & s & p & G & I & Xs & E1 & E2 & E3 & E4 & _ & _ & _ & P)]; [now left|]. right.
    assert (W1 : wf d1) by (destruct G as [->|(_ & _ & G & _ & _ & ->)]; [assumption|now apply wf_grow]).
    destruct (apply_pre_ok _ p Hp) as [Ei Eb].
    assert (Ed : pk_data (apply_pre pre p) = data) by (destruct pre; cbn in *; [rewrite Hpd|]; exact E1).
    destruct (process_packets _ _ _ _ _ P) as (_ & _ & _ & r & Er & _). pose proof (process_keeps _ _ _ _ _ P) as [_ Em].
    destruct (process_events _ _ _ _ _ P) as [Ea Eds]. rewrite Er in Ea, Eds. do 3 eexists. split; [exact Er|]. split; [now rewrite Eb|]. split; [exact Ed|]. split.
    - unfold origin. rewrite Em, Ei, Eb, E3, E4. apply map_find_in; [now apply wf_nodup|exact I].
    - split; [|exact Eds]. now injection Ea. }
  destruct a; cbn [step] in S; cbn [delivery_op snd] in D; cbn [call_block]; try contradiction; try (injection S as <- <-; now split).
  - apply new_audio_inv in S as (-> & G); auto. destruct extra as [[|x t]|]; cbn [of_nil]; try (now split). left.
    assert (Ez : (0 <? zlen (x :: t)) = true) by (apply Z.ltb_lt; rewrite zlen_cons; pose proof (zlen_nonneg t); lia). rewrite Ez. split; [reflexivity|].
    destruct G as [->|(s & _ & ->)]; reflexivity.
  - apply new_video_inv in S as (-> & G); auto. destruct extra as [|x t]; try (now split). left.
    assert (Ez : (0 <? zlen (x :: t)) = true) by (apply Z.ltb_lt; rewrite zlen_cons; pose proof (zlen_nonneg t); lia). rewrite Ez. split; [reflexivity|].
    destruct G as [->|(s & _ & ->)]; reflexivity.
  - apply audio_step in S; auto. eapply (Kp buf id data ts None); auto; exact Logic.I.
  - apply video_step in S; auto. eapply (Kp buf id data dts (dm_pre d)); auto.
  - eapply complete_events; eauto.
  - unfold try_complete_probe in S. destruct (need_more d); [injection S as <- <-; now split|eapply complete_events; eauto].
  - unfold find_buffer_index in S. destruct (marker_index _ _ _); injection S as <- <-; now split.
Qed.

(** Packets leave each list in the order in which they came. *)
Lemma split_last (l : list packet) : removelast l ++ only_last l = l.
Proof. destruct l as [|q l _] using rev_ind; [reflexivity|]. now rewrite only_last_snoc, removelast_snoc. Qed.
Lemma map_tag_durs l : map tag (durs l) = map tag l.
Proof. apply durs_map. reflexivity. Qed.
Lemma indexed_streams d evs : streams_ok d evs -> aligned evs -> indexed d.
Proof.
  intros St Al j. destruct (St Al j) as [S1 S2].
  assert (G : Forall (fun p => pk_index p = Z.of_nat j) (durs (of_index (Z.of_nat j) (accepted evs)))) by (apply (Forall_durs (fun z => z = Z.of_nat j)), of_index_idx).
  destruct (dm_completed d); [|destruct (S1 eq_refl) as (_ & ->); exact G].
  destruct (S2 eq_refl) as (-> & _). destruct (durs _) as [|q l _] using rev_ind; [constructor|]. rewrite only_last_snoc. now apply Forall_app in G as [_ G].
Qed.
Lemma origin_delivered m d evs : balanced d evs -> Forall (origin m) (accepted evs) -> Forall (origin m) (delivered evs).
Proof.
  intros [P _] F. assert (K : forall l, Forall (origin m) l <-> Forall (origin m) (map nodur l)).
  { intros l. rewrite Forall_map. split; apply Forall_impl; auto. }
  apply K. apply K in F. eapply Permutation_Forall in F; [|exact P]. now apply Forall_app in F as [F _].
Qed.
Lemma origin_incl m m' l : Forall (origin m) l -> (forall j b, map_find m j = Some b -> map_find m' j = Some b) -> Forall (origin m') l.
Proof. intros F H. eapply Forall_impl; [|exact F]. intros x. unfold origin. apply H. Qed.
Lemma map_find_ext m : forall n j b, map_find m j = Some b -> map_find (m ++ n) j = Some b.
Proof. induction m as [|[x y] t IH]; cbn; intros n j b; [discriminate|]. destruct (x =? j); auto. Qed.

Lemma waiting_list m d i b : NoDup (map fst m) -> NoDup (map snd m) -> 0 <= i -> In (i, b) m -> Forall (origin m) (List.concat (dm_packets d)) -> indexed d ->
  waiting b d = nth (Z.to_nat i) (dm_packets d) [].
Proof.
  intros N1 N2 Hi I F X. unfold waiting. rewrite (waiting_index m i b _ N1 N2 I F).
  rewrite <- (of_index_concat (dm_packets d) 0 (Z.to_nat i)); [|exact X]. f_equal. lia.
Qed.

(** The tags of one list before and after a call: those that leave are a permutation of a prefix. *)
Lemma removelast_tail (x y : list (Z * list Z)) : y <> [] -> removelast (x ++ y) = x ++ removelast y.
Proof. intros N. now apply removelast_app. Qed.
Definition last1 {A} (l : list A) : list A := match rev l with [] => [] | x :: _ => [x] end.
Lemma last1_snoc {A} (l : list A) x : last1 (l ++ [x]) = [x].
Proof. unfold last1. now rewrite rev_unit. Qed.
Lemma split_last1 {A} (l : list A) : removelast l ++ last1 l = l.
Proof. destruct l as [|q l _] using rev_ind; [reflexivity|]. now rewrite last1_snoc, removelast_snoc. Qed.
Lemma last1_only {B} (f : packet -> B) l : map f (only_last l) = last1 (map f l).
Proof. destruct l as [|q l _] using rev_ind; [reflexivity|]. rewrite only_last_snoc, map_app. cbn [map]. now rewrite last1_snoc. Qed.
Lemma last1_app {A} (x y : list A) : y <> [] -> last1 (x ++ y) = last1 y.
Proof. intros N. destruct y as [|q l _] using rev_ind; [congruence|]. now rewrite app_assoc, !last1_snoc. Qed.
Lemma map_removelast {A B} (f : A -> B) l : map f (removelast l) = removelast (map f l).
Proof. destruct l as [|q l _] using rev_ind; [reflexivity|]. rewrite map_app, removelast_snoc. cbn [map]. now rewrite removelast_snoc. Qed.

Lemma list_leave d d' evs e i : streams_ok d evs -> streams_ok d' (evs ++ e) -> aligned (evs ++ e) -> (dm_completed d = true -> dm_completed d' = true) ->
  let j := Z.of_nat i in
  exists D, map tag (nth i (dm_packets d) []) ++ map tag (of_index j (accepted e)) = D ++ map tag (nth i (dm_packets d') []) /\
    Permutation (map tag (of_index j (delivered e))) D.
Proof.
  intros St St' Al Cm j. pose proof Al as Al0. unfold aligned in Al0. apply Forall_app in Al0 as [Al1 _]. destruct (St Al1 i) as [S1 S2]. destruct (St' Al i) as [S3 S4]. fold j in S1, S2, S3, S4.
  rewrite accepted_app, delivered_app, !of_index_app in *. set (A := of_index j (accepted evs)) in *. set (A' := of_index j (accepted e)) in *. set (De := of_index j (delivered e)) in *.
  destruct (dm_completed d) eqn:C.
  - specialize (Cm eq_refl). destruct (S2 eq_refl) as (-> & P2 & _). destruct (S4 Cm) as (-> & P4 & _).
    apply (Permutation_map tag) in P2, P4. rewrite map_removelast, map_tag_durs in P2, P4. rewrite !map_app in P4. rewrite !last1_only, !map_tag_durs, map_app.
    set (x := map tag A) in *. set (y := map tag A') in *. exists (removelast (last1 x ++ y)).
    assert (G : last1 x ++ y = [] \/ last1 x ++ y <> []) by (destruct (last1 x ++ y); [now left|right; discriminate]). destruct G as [G|G].
    + apply app_eq_nil in G as [G1 G2]. assert (Ex : x = []) by (rewrite <- (split_last1 x), G1; destruct x as [|q l _] using rev_ind; [reflexivity|]; rewrite last1_snoc in G1; discriminate G1).
      rewrite G1, G2, Ex in *. split; [reflexivity|]. cbn in *. apply Permutation_sym, Permutation_nil, app_eq_nil in P4 as [_ P4]. now rewrite P4.
    + assert (E : x ++ y = removelast x ++ last1 x ++ y) by (rewrite app_assoc, split_last1; reflexivity). rewrite E. rewrite last1_app by exact G. split; [symmetry; apply split_last1|].
      rewrite E, removelast_tail in P4 by exact G. rewrite P2 in P4. now apply Permutation_app_inv_l in P4.
  - destruct (S1 eq_refl) as [E0 ->]. rewrite E0 in *. rewrite map_tag_durs. destruct (dm_completed d').
    + destruct (S4 eq_refl) as (-> & P4 & _). apply (Permutation_map tag) in P4. rewrite map_removelast, map_tag_durs in P4. rewrite last1_only, map_tag_durs, <- map_app.
      exists (removelast (map tag (A ++ A'))). split; [symmetry; apply split_last1|exact P4].
    + destruct (S3 eq_refl) as [E1 ->]. rewrite map_tag_durs, map_app. exists []. split; [reflexivity|]. unfold De. cbn [app] in E1. now rewrite E1.
Qed.

Lemma buffer_leave d d' evs e b : wf d' -> NoDup (map snd (dm_map d')) -> balanced d' (evs ++ e) -> streams_ok d evs -> streams_ok d' (evs ++ e) -> aligned (evs ++ e) ->
  (dm_completed d = true -> dm_completed d' = true) ->
  Forall (origin (dm_map d')) (List.concat (dm_packets d)) -> Forall (origin (dm_map d')) (List.concat (dm_packets d')) -> Forall (origin (dm_map d')) (accepted (evs ++ e)) ->
  exists D, map tag (waiting b d) ++ map tag (on_buffer b (accepted e)) = D ++ map tag (waiting b d') /\ Permutation (map tag (on_buffer b (delivered e))) D.
Proof.
  intros W N B St St' Al Cm O O' Oa. pose proof (origin_delivered _ _ _ B Oa) as Od. pose proof Al as Al0. unfold aligned in Al0. apply Forall_app in Al0 as [Al1 _].
  rewrite accepted_app in Oa. rewrite delivered_app in Od. apply Forall_app in Oa as [_ Oa]. apply Forall_app in Od as [_ Od]. unfold on_buffer.
  destruct (buffer_dec (dm_map d') b) as [(i & I)|No].
  - pose proof (wf_nodup d' W) as N1. assert (Hi : 0 <= i).
    { pose proof (in_map fst _ _ I) as J. apply wf_key in J; [cbn in J; lia|exact W]. }
    rewrite (waiting_list _ d i b N1 N Hi I O (indexed_streams _ _ St Al1)), (waiting_list _ d' i b N1 N Hi I O' (indexed_streams _ _ St' Al)).
    rewrite (waiting_index _ i b _ N1 N I Oa), (waiting_index _ i b _ N1 N I Od).
    pose proof (list_leave d d' evs e (Z.to_nat i) St St' Al Cm) as G. cbv zeta in G. rewrite Z2Nat.id in G by exact Hi. exact G.
  - unfold waiting. rewrite !(waiting_none _ b _ No) by assumption. exists []. split; [reflexivity|constructor].
Qed.

(** All packets ever accepted carry the buffer of their track. *)
Lemma reach_accepted name o0 h : forall d evs, Forall well_behaved ((o0, OpSetAutoFree true) :: h) -> Forall delivery_op h ->
  run (dm_new name) ((o0, OpSetAutoFree true) :: h) = Ok (d, evs) -> Forall (origin (dm_map d)) (accepted evs).
Proof.
  induction h as [|[o a] t IH] using rev_ind; intros d evs F D R.
  - cbn in R. injection R as <- <-. constructor.
  - rewrite app_comm_cons in *. apply Forall_app in F as [F Fa]. apply Forall_inv in Fa. apply Forall_app in D as [D Da]. apply Forall_inv in Da.
    rewrite run_app in R. destruct (run (dm_new name) ((o0, OpSetAutoFree true) :: t)) as [[d1 e1]| | |] eqn:R1; cbn [bind] in R; try discriminate.
    cbn [run bind] in R. destruct (step o d1 a) as [[d2 e2]| | |] eqn:S; cbn [bind] in R; try discriminate. injection R as <- <-. rewrite app_nil_r in *.
    pose proof (reach_live _ _ _ _ F R1) as Lv. pose proof (reach_calm _ _ _ _ _ D R1) as C. destruct (step_calm _ _ _ _ _ (proj1 Lv) C Da S) as [_ (m & Em)].
    rewrite accepted_app. apply Forall_app. split.
    + eapply origin_incl; [apply (IH d1 e1); auto|]. rewrite Em. intros j b. apply map_find_ext.
    + pose proof (step_shape _ _ _ _ _ Lv C Da S) as Sh. destruct (call_block a) as [[buf data]|]; [|destruct Sh as [-> _]; constructor].
      destruct Sh as [(-> & _)|(p & m' & r & -> & _ & _ & Op & Ar & _)]; [constructor|]. change (accepted (EvAdd p m' :: r)) with (p :: accepted r). rewrite Ar. repeat constructor. exact Op.
Qed.

(** ** The system *)
Definition sys_ok (y : system) (d : demuxer) (caps : list bool) : Prop :=
  sy_dm y = d /\ exists G, sync (sy_heap y) (sy_bufs y) (sy_held y) caps G /\ forall b, map fst (G b) = map tag (waiting b d).

Lemma load_ghosts l : forall ps, map fst l = map tag ps -> load (gq l) = bytes_of ps.
Proof.
  induction l as [|[[t x] s] l IH]; intros [|p ps] E; cbn [map] in E; try discriminate; [reflexivity|]. injection E as _ E1 E2. cbn [gq map load fst snd bytes_of fold_right].
  fold (gq l) (bytes_of ps). rewrite (IH ps E2), E1. cbn. reflexivity.
Qed.
Lemma stream_half_ok v : stream_capacity v = 2 * stream_half v.
Proof. destruct v; reflexivity. Qed.
Lemma gq_complete l : Forall (fun g : gblock => snd g <> None) (gq l).
Proof. apply Forall_map, Forall_forall. intros x _. discriminate. Qed.

Lemma split_at {A B} (f : A -> B) (l : list A) D w : map f l = D ++ w -> let n := (length l - length w)%nat in map f (firstn n l) = D /\ map f (skipn n l) = w.
Proof.
  intros E n. assert (L : length l = (length D + length w)%nat) by (rewrite <- app_length, <- E; symmetry; apply map_length).
  assert (En : n = length D) by (subst n; lia). rewrite <- firstn_map, <- skipn_map, E, En. rewrite firstn_app, skipn_app, Nat.sub_diag, firstn_all, skipn_all. split; [apply app_nil_r|reflexivity].
Qed.
Lemma leave_ok h s k caps cur G d' e : sync h s k caps G -> paired true e = true -> accepted e = [] -> discards e = [] ->
  (forall b, exists D, map fst (G b) = D ++ map tag (waiting b d') /\ Permutation (map tag (on_buffer b (delivered e))) D) ->
  exists s' k' out G', sys_events cur h s k e = Ok (s', k', out) /\ map fst out = delivered e /\ Forall (fun x => snd x = pk_data (fst x)) out /\ sync h s' k' caps G' /\
    forall b, map fst (G' b) = map tag (waiting b d').
Proof.
  intros [Rm Hl] Pd Ac Di E. set (n b := (length (G b) - length (map tag (waiting b d')))%nat).
  destruct (pairs_ok h caps cur (fun b => skipn (n b) (G b)) (length e) e s k (fun b => firstn (n b) (G b)) (fun b => firstn (n b) (G b))) as (s' & k' & out & E1 & O1 & O2 & Sy); auto.
  - eapply rooms_ext; [|exact Rm]. intros b. cbn beta. now rewrite firstn_skipn.
  - intros b. cbn beta. now rewrite firstn_skipn.
  - intros b. cbn beta. pose proof (rooms_shows _ _ _ _ b Rm) as F. rewrite <- (firstn_skipn (n b) (G b)) in F. now apply Forall_app in F as [F _].
  - intros b. cbn beta. destruct (E b) as (D & E1 & E2). destruct (split_at fst (G b) D _ E1) as [F1 _]. rewrite <- F1 in E2. exact E2.
  - exists s', k', out, (fun b => skipn (n b) (G b)). split; [exact E1|]. split; [exact O1|]. split; [exact O2|]. split; [exact Sy|].
    intros b. cbn beta. destruct (E b) as (D & E2 & _). destruct (split_at fst (G b) D _ E2) as [_ F2]. exact F2.
Qed.

Lemma sys_step_ok y d caps o a chunks d' e : sys_ok y d caps -> live d -> calm d -> delivery_op (o, a) -> step o d a = Ok (d', e) -> paired true e = true ->
  (forall b, exists D, map tag (waiting b d) ++ map tag (on_buffer b (accepted e)) = D ++ map tag (waiting b d') /\ Permutation (map tag (on_buffer b (delivered e))) D) ->
  supply_ok d caps a chunks ->
  exists y' out, sys_step y ((o, a), chunks) = Ok (y', out) /\ sys_ok y' d' (open_stream caps a) /\ map fst out = delivered e /\ Forall (fun x => snd x = pk_data (fst x)) out.
Proof.
  intros (Ed & G & Sy & EG) Lv C D S P Fi Su. pose proof (step_shape _ _ _ _ _ Lv C D S) as Sh. unfold supply_ok in Su. unfold sys_step, supply. subst d.
  unfold open_stream in *. destruct (call_block a) as [[buf data]|] eqn:Cb.
  - destruct Su as (Ec & Nc & Hb & Ld). destruct Sy as [Rm Hl].
    destruct (rooms_block _ _ _ _ buf (call_video a) chunks Rm Hb Nc (gq_complete _)) as (h1 & s1 & h2 & s2 & sl & E1 & E2 & E3 & R2).
    { unfold cap_of. rewrite Ec, (load_ghosts _ _ (EG buf)), stream_half_ok. lia. }
    rewrite E1. cbn [bind]. rewrite E2. cbn [bind of_opt]. rewrite E3. cbn [bind]. rewrite Ec in *. rewrite (with_block_same _ _ _ Cb), S. cbn [bind].
    set (caps' := if buf =? zlen caps then caps ++ [call_video a] else caps) in *.
    destruct Sh as [(-> & Ek)|(p & m & r & -> & Eb & Edt & _ & Ar & Dr)].
    + cbn [sys_events]. assert (Hs : 0 <= buf < zlen s2).
      { rewrite (rm_len _ _ _ _ R2). unfold caps'. destruct (Z.eqb_spec buf (zlen caps)); [rewrite zlen_app; cbn; lia|lia]. }
      destruct (idx_some s2 buf Hs) as (rb & Ei). unfold sb_discard_back. rewrite Ei. cbn [of_opt bind]. pose proof (rm_buf _ _ _ _ R2 _ _ Ei) as Rr. rewrite setq_same in Rr.
      destruct (roomy_pop_back _ _ _ _ _ Rr) as (rb' & Ep & Rr' & Ea). rewrite Ep. cbn [bind]. do 2 eexists. split; [reflexivity|]. split; [|split; [reflexivity|constructor]].
      split; [reflexivity|]. exists G. cbn [sy_heap sy_bufs sy_held]. split.
      * split; [|exact Hl]. eapply rooms_ext; [|exact (rooms_put _ _ _ _ _ _ h2 rb' _ R2 Ei Rr' Ea (fun i _ => eq_refl))].
        intros b. unfold setq. destruct (Z.eqb_spec b buf) as [->|]; reflexivity.
      * intros b. rewrite EG. unfold waiting. now rewrite Ek.
    + cbn [sys_events of_opt bind].
      destruct (leave_ok h2 s2 (sy_held y ++ [(pk_buffer p, tag p, sl)]) caps' (Some sl) (setq G buf (G buf ++ [(tag p, sl)])) d' r)
        as (s3 & k3 & out & G3 & E4 & O1 & O2 & Sy3 & O3); auto.
      * split.
        -- eapply rooms_ext; [|exact R2]. intros b. unfold setq. destruct (b =? buf); [|reflexivity]. unfold gq. rewrite map_app. cbn [map fst snd tag]. now rewrite Edt.
        -- intros b. rewrite held_of_snoc, Eb, Hl. unfold setq. rewrite (Z.eqb_sym buf b). destruct (Z.eqb_spec b buf) as [->|]; reflexivity.
      * intros b. destruct (Fi b) as (Db & F1 & F2). exists Db. change (delivered (EvAdd p m :: r)) with (delivered r) in F2. split; [|exact F2]. rewrite <- F1.
        change (accepted (EvAdd p m :: r)) with (p :: accepted r). rewrite Ar.
        unfold setq. cbn [on_buffer filter]. rewrite Eb, (Z.eqb_sym buf b). destruct (Z.eqb_spec b buf) as [->|]; [|now rewrite app_nil_r].
        rewrite map_app, EG. reflexivity.
      * rewrite E4. cbn [bind]. do 2 eexists. split; [reflexivity|]. split; [|split; [exact O1|exact O2]]. split; [reflexivity|]. exists G3. auto.
  - destruct Sh as [Ae De]. cbn [bind]. rewrite S. cbn [bind].
    destruct (leave_ok (sy_heap y) (sy_bufs y) (sy_held y) caps None G d' e Sy P Ae De) as (s3 & k3 & out & G3 & E4 & O1 & O2 & Sy3 & O3); auto.
    + intros b. destruct (Fi b) as (Db & F1 & F2). exists Db. split; [|exact F2]. rewrite EG, <- F1, Ae. cbn [on_buffer filter map]. now rewrite app_nil_r.
    + rewrite E4. cbn [bind]. do 2 eexists. split; [reflexivity|]. split; [|split; [exact O1|exact O2]]. split; [reflexivity|]. exists G3. auto.
Qed.

Lemma sys_run_snoc l c : forall y, sys_run y (l ++ [c]) = ('(y1, o1) <- sys_run y l;; '(y2, o2) <- sys_step y1 c;; Ok (y2, o1 ++ o2)).
Proof.
  induction l as [|x t IH]; intros y; cbn [app sys_run bind].
  - destruct (sys_step y c) as [[y1 o1]| | |]; cbn [bind]; [now rewrite app_nil_r|reflexivity..].
  - destruct (sys_step y x) as [[y1 o1]| | |]; cbn [bind]; try reflexivity. rewrite IH. destruct (sys_run y1 t) as [[y2 o2]| | |]; cbn [bind]; try reflexivity.
    destruct (sys_step y2 c) as [[y3 o3]| | |]; cbn [bind]; try reflexivity. now rewrite app_assoc.
Qed.
Definition opened (caps : list bool) (l : list call) : list bool := fold_left (fun c x => open_stream c (snd (fst x))) l caps.
Lemma supplied_snoc l o a chunks : forall d caps, supplied d caps (l ++ [((o, a), chunks)]) -> supplied d caps l /\
  (forall d1 e1, run d (map fst l) = Ok (d1, e1) -> supply_ok d1 (opened caps l) a chunks).
Proof.
  induction l as [|[[o1 a1] c1] t IH]; intros d caps Hs; cbn [app supplied map fst run opened fold_left snd] in *.
  - destruct Hs as [Hs _]. split; [exact Logic.I|]. now intros d1 e1 [= <- <-].
  - destruct Hs as [H1 H2]. destruct (step o1 d a1) as [[d1 e1]| | |]; cbn [bind]; try (split; [auto|discriminate]). apply IH in H2 as [H2 H3]. split; [auto|].
    intros d2 e2 R. destruct (run d1 (map fst t)) as [[d3 e3]| | |]; cbn [bind] in R; try discriminate. injection R as <- _. exact (H3 _ _ eq_refl).
Qed.

Lemma sys_new_ok name : sys_ok (sys_new name) (dm_new name) [].
Proof.
  split; [reflexivity|]. exists (fun _ => []). split; [|reflexivity]. split; [|reflexivity]. cbn [sys_new sy_heap sy_bufs]. constructor; try reflexivity.
  - intros b r E. apply idx_inv in E. cbn in E. lia.
  - intros b1 b2 r1 r2 E. apply idx_inv in E. cbn in E. lia.
Qed.

Lemma reach_system name o0 c0 l : forall d evs, let h := map fst l in
  Forall well_behaved ((o0, OpSetAutoFree true) :: h) -> Forall delivery_op h -> run (dm_new name) ((o0, OpSetAutoFree true) :: h) = Ok (d, evs) ->
  aligned evs -> NoDup (map snd (dm_map d)) ->
  supplied (dm_new name) [] (((o0, OpSetAutoFree true), c0) :: l) ->
  exists y out, sys_run (sys_new name) (((o0, OpSetAutoFree true), c0) :: l) = Ok (y, out) /\ sys_ok y d (opened [] l) /\
    map fst out = delivered evs /\ Forall (fun x => snd x = pk_data (fst x)) out.
Proof.
  induction l as [|[[o a] chunks] t IH] using rev_ind; intros d evs h F D R Al N Su.
  - cbn in R. injection R as <- <-. do 2 eexists. split; [reflexivity|]. split; [|split; [reflexivity|constructor]].
    pose proof (sys_new_ok name) as (_ & G & K). split; [reflexivity|]. exists G. exact K.
  - subst h. rewrite map_app in F, D, R. cbn [map fst] in F, D, R. rewrite app_comm_cons in *. apply Forall_app in F as [F Fa]. apply Forall_inv in Fa. apply Forall_app in D as [D Da]. apply Forall_inv in Da.
    pose proof R as R0. rewrite run_app in R. destruct (run (dm_new name) ((o0, OpSetAutoFree true) :: map fst t)) as [[d1 e1]| | |] eqn:R1; cbn [bind] in R; try discriminate.
    cbn [run bind] in R. destruct (step o d1 a) as [[d2 e2]| | |] eqn:S; cbn [bind] in R; try discriminate. injection R as <- <-. rewrite app_nil_r in *.
    pose proof (reach_live _ _ _ _ F R1) as Lv. destruct (reach_balanced name _ d1 e1 (Forall_impl sorting (fun x => @proj1 _ _) F) R1) as (W & _ & B & St).
    assert (F' : Forall well_behaved ((o0, OpSetAutoFree true) :: map fst t ++ [(o, a)])) by (rewrite app_comm_cons; apply Forall_app; split; auto).
    rewrite <- app_comm_cons in R0. pose proof (reach_live _ _ _ _ F' R0) as (W2 & _ & Or2).
    destruct (reach_balanced name _ d2 (e1 ++ e2) (Forall_impl sorting (fun x => @proj1 _ _) F') R0) as (_ & _ & B2 & St2).
    assert (Oa : Forall (origin (dm_map d2)) (accepted (e1 ++ e2))) by (eapply reach_accepted; [exact F'| |exact R0]; apply Forall_app; auto).
    pose proof Al as Al'. unfold aligned in Al'. apply Forall_app in Al' as [Al1 _].
    pose proof (reach_calm _ _ _ _ _ D R1) as C. destruct (step_calm _ _ _ _ _ W C Da S) as [_ (m & Em)].
    assert (N1 : NoDup (map snd (dm_map d1))) by (rewrite Em, map_app in N; now apply NoDup_app_l in N).
    apply supplied_snoc in Su as [Su1 Su2]. specialize (Su2 d1 e1 R1).
    destruct (IH d1 e1 F D R1 Al1 N1 Su1) as (y & out & E & Ok1 & O1 & O2). rewrite sys_run_snoc, E. cbn [bind].
    assert (Or1 : Forall (origin (dm_map d2)) (List.concat (dm_packets d1))).
    { eapply origin_incl; [apply Lv|]. rewrite Em. intros j b. apply map_find_ext. }
    assert (Pr : paired true e2 = true).
    { destruct Fa as [O _]. destruct Lv as (L1 & L2 & L3). destruct (step_origin _ _ _ _ _ O L1 L2 L3 S) as [_ P]. rewrite (proj1 C) in P. apply P. clear -Da. destruct a; cbn in *; auto. }
    destruct (sys_step_ok y d1 (opened [] t) o a chunks d2 e2 Ok1 Lv C Da S Pr) as (y' & out' & E' & Ok2 & O3 & O4).
    + intros b. eapply buffer_leave; eauto. intros Cd. now apply (step_ext _ _ _ _ _ W S).
    + exact Su2.
    + rewrite E'. cbn [bind]. exists y', (out ++ out'). split; [reflexivity|]. split.
      * unfold opened. rewrite fold_left_app. exact Ok2.
      * split; [now rewrite map_app, delivered_app, O1, O3|]. apply Forall_app. auto.
Qed.

Lemma sys_held_ok y d caps b : sys_ok y d caps -> Forall2 (fun x p => fst x = tag p /\ read (sy_heap y) (snd x) = Ok (pk_data p)) (held_of b (sy_held y)) (waiting b d).
Proof.
  intros (_ & G & [Rm Hl] & E). rewrite Hl. specialize (E b). pose proof (rooms_shows _ _ _ _ b Rm) as Rd.
  revert E Rd. generalize (G b) (waiting b d). induction l as [|[[t x] s] l IH]; intros [|p ps] E Rd; cbn [map] in E; try discriminate; [constructor|].
  injection E as E1 E2 E3. apply Forall_cons_iff in Rd as [R1 R2]. unfold shows in R1. cbn [fst snd] in *. constructor; [cbn; unfold tag; rewrite <- E1, <- E2; auto|]. now apply IH.
Qed.

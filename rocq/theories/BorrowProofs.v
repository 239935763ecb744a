From Verif Require Import Base CollectionsSpec BlockModel HeapProofs PacketModel DemuxModel DemuxProofs DeliverySpec DeliveryProofs SystemSpec SystemProofs PipeModel PipeSpec PipeProofs BorrowSpec.
From Coq Require Import String List Permutation.
Import ListNotations.
Local Open Scope list_scope.

(** ** Blocks over a slice *)
Lemma over_nil l : over l [] = l.
Proof. now destruct l. Qed.
Lemma over_length d : forall l, length (over l d) = length l.
Proof. induction d as [|y d IH]; intros [|x l]; cbn; auto. Qed.
Lemma overlay_over d : forall l, overlay l 0 d = over l d.
Proof. reflexivity. Qed.
Lemma over_over a b : forall l, overlay (over l a) (length a) b = over l (a ++ b).
Proof.
  induction a as [|y a IH]; intros l; cbn [length app overlay]; [now rewrite over_nil|]. destruct l as [|x l]; [reflexivity|]. cbn [over overlay]. now rewrite IH.
Qed.
Lemma overlay_app n : forall l a b, overlay (overlay l n a) (n + length a) b = overlay l n (a ++ b).
Proof.
  induction n as [|n IH]; intros l a b; [apply over_over|]. destruct l as [|x l]; [reflexivity|]. cbn [overlay Nat.add]. now rewrite IH.
Qed.
Lemma overlay_nil n : forall l, overlay l n [] = l.
Proof. induction n as [|n IH]; intros [|x l]; cbn [overlay]; auto using over_nil. now rewrite IH. Qed.
(** A block at least as long as the slice replaces it. *)
Lemma over_long l : forall d, (length l <= length d)%nat -> over l d = firstn (length l) d.
Proof. induction l as [|x l IH]; intros [|y d] L; cbn in *; try reflexivity; try lia. f_equal. apply IH. lia. Qed.
Lemma over_short l : forall d, (length d <= length l)%nat -> over l d = d ++ skipn (length d) l.
Proof. induction l as [|x l IH]; intros [|y d] L; cbn in *; try reflexivity; try lia. f_equal. apply IH. lia. Qed.

Lemma firstn_exact {A} (x y : list A) n : length x = n -> firstn n (x ++ y) = x.
Proof. intros <-. now rewrite firstn_app, firstn_all, Nat.sub_diag, firstn_O, app_nil_r. Qed.
Lemma live_unique h p a b : PipeProofs.live h p a -> PipeProofs.live h p b -> a = b.
Proof. intros (E & _) (E' & _). congruence. Qed.

Lemma lend_chunks_ok chunks : forall h p a, PipeProofs.live h p a -> hp_size p <= zlen a ->
  exists h' p' a', lend_chunks h p chunks = Ok (h', p') /\ PipeProofs.live h' p' a' /\ hp_size p' = hp_size p + zlen (concat chunks) /\ hp_size p' <= zlen a' /\
    zlen a' = grown (zlen a) (hp_size p) chunks /\ firstn (Z.to_nat (hp_size p')) a' = firstn (Z.to_nat (hp_size p)) a ++ concat chunks /\
    (forall t, frozen h p t -> read h' t = read h t /\ frozen h' p' t) /\
    (forall t l, prefix_of p t -> read h t = Ok l ->
       if hp_size p + zlen (concat chunks) <=? zlen a
       then read h' t = Ok (overlay l (Z.to_nat (hp_size p)) (concat chunks)) /\ prefix_of p' t
       else read h' t = Ok (overlay l (Z.to_nat (hp_size p)) (landed (zlen a) (hp_size p) chunks)) /\ frozen h' p' t).
Proof.
  induction chunks as [|d chunks IH]; intros h p a L Hz.
  - exists h, p, a. cbn [lend_chunks concat grown landed]. change (zlen (@nil Z)) with 0. rewrite app_nil_r, Z.add_0_r. replace (hp_size p <=? zlen a) with true by lia.
    split; [reflexivity|]. split; [exact L|]. repeat (split; [reflexivity || lia|]). split; [tauto|]. intros t l T R. now rewrite overlay_nil.
  - pose proof L as (_ & _ & _ & Hs). pose proof (zlen_nonneg d) as Hd. pose proof (hp_write_total _ _ _ d L) as T. replace (zlen a <? hp_size p) with false in T by lia. destruct T as (h1 & p1 & n & W).
    destruct (hp_write_cases _ _ _ _ _ _ _ L W) as (En & Sz & C).
    assert (PC : pp_call h p (PWrite d) = Ok (h1, p1, PNum n)) by (cbn [pp_call]; now rewrite W).
    destruct (pp_call_live _ _ _ _ _ _ _ L PC) as (a1 & L1 & G1 & _ & F1 & P1). cbn [geom] in G1. injection G1 as G1 _.
    assert (A1 : hp_size p1 <= zlen a1 /\ firstn (Z.to_nat (hp_size p1)) a1 = firstn (Z.to_nat (hp_size p)) a ++ d).
    { rewrite Sz, En. destruct C as [(C & _ & _ & L' & Hf & _)|(C & _ & _ & _ & L' & _)]; rewrite C in G1; (split; [lia|]); rewrite (live_unique _ _ _ _ L1 L').
      - rewrite app_assoc, firstn_exact by (rewrite app_length, firstn_length; unfold zlen in *; lia). reflexivity.
      - rewrite app_assoc, firstn_exact by (rewrite app_length, firstn_length; unfold zlen in *; lia). reflexivity. }
    destruct A1 as [A1 A2]. destruct (IH h1 p1 a1 L1 A1) as (h' & p' & a' & E & L' & S' & B' & G' & Fn & F' & P').
    exists h', p', a'. cbn [lend_chunks]. rewrite W. cbn [bind]. split; [exact E|]. split; [exact L'|]. cbn [concat]. rewrite zlen_app.
    split; [lia|]. split; [exact B'|]. split; [cbn [grown]; rewrite G', G1, Sz, En; reflexivity|]. split; [rewrite Fn, A2, <- app_assoc; reflexivity|].
    split; [intros t Ft; destruct (F1 t Ft) as [R1 Ft1]; destruct (F' t Ft1) as [R2 Ft2]; split; [congruence|exact Ft2]|].
    intros t l Pt Rt. specialize (P1 t Pt). cbn [landed]. pose proof (zlen_nonneg (concat chunks)) as Hc.
    destruct (zlen a - hp_size p <? zlen d) eqn:Cd.
    + replace (hp_size p + (zlen d + zlen (concat chunks)) <=? zlen a) with false by lia. destruct P1 as [R1 Ft1]. destruct (F' t Ft1) as [R2 Ft2]. rewrite overlay_nil. split; [congruence|exact Ft2].
    + destruct P1 as (l0 & R0 & R1 & Pt1). assert (l0 = l) by congruence. subst l0. specialize (P' t _ Pt1 R1). rewrite Sz, En, G1 in P'.
      replace (Z.to_nat (hp_size p + zlen d)) with (Z.to_nat (hp_size p) + length d)%nat in P' by (unfold zlen; lia). rewrite !overlay_app in P'.
      replace (hp_size p + (zlen d + zlen (concat chunks))) with (hp_size p + zlen d + zlen (concat chunks)) by lia. exact P'.
Qed.

Lemma lend_ok h p a o x chunks : PipeProofs.live h p a -> hp_size p = 0 -> honest ((o, x), chunks) ->
  exists h' p' a' cur, lend h p x chunks = Ok (h', p', x, cur) /\ PipeProofs.live h' p' a' /\ hp_size p' = 0 /\
    (forall t, frozen h p t -> read h' t = read h t /\ frozen h' p' t) /\
    match call_block x with
    | None => cur = None /\ h' = h /\ p' = p /\ a' = a
    | Some (_, data) => exists sl, cur = Some sl /\ prefix_of p' sl /\ read h' sl = Ok data /\ zlen a' = grown (zlen a) 0 chunks /\
        forall t l, prefix_of p t -> read h t = Ok l ->
          if zlen data <=? zlen a then read h' t = Ok (over l data) /\ prefix_of p' t else read h' t = Ok (over l (landed (zlen a) 0 chunks)) /\ frozen h' p' t
    end.
Proof.
  intros L Z0 Hn. unfold lend, honest in *. cbn [fst snd] in Hn. destruct (call_block x) as [[b data]|] eqn:Cb.
  2:{ exists h, p, a, None. auto 10. }
  destruct (lend_chunks_ok chunks h p a L) as (h1 & p1 & a1 & E & L1 & S1 & B1 & G1 & Fn & F1 & P1); [pose proof (zlen_nonneg a); lia|].
  rewrite E, Hn, Z0 in *. cbn [Z.to_nat firstn app] in *. rewrite Z.add_0_l in *. cbn [bind]. pose proof L1 as (Ea & O & La & Hs).
  unfold hp_fetch. rewrite reslice_ok by lia. cbn [bind].
  set (sl := mkSlice (s_arr (hp_data p1)) (s_off (hp_data p1) + 0) (hp_size p1 - 0)). set (p2 := mkHP (hp_data p1) 0).
  assert (L2 : PipeProofs.live h1 p2 a1) by (unfold p2, PipeProofs.live; cbn [hp_data hp_size]; auto with zarith).
  assert (T : prefix_of p2 sl) by (unfold p2, sl, prefix_of; cbn [hp_data s_arr s_off s_len]; lia).
  pose proof (read_prefix _ _ _ _ L2 T) as R. cbn [s_len sl] in R. rewrite Z.sub_0_r, Fn in R. rewrite R. cbn [bind].
  exists h1, p2, a1, (Some sl). split; [now rewrite (with_block_same _ _ _ Cb)|]. split; [exact L2|]. split; [reflexivity|]. split; [exact F1|].
  exists sl. split; [reflexivity|]. split; [exact T|]. split; [exact R|]. split; [exact G1|]. exact P1.
Qed.

(** ** The slices held *)
Definition key (x : Z * (Z * list Z) * gslice) : Z * (Z * list Z) := fst x.
Definition pkey (q : packet) : Z * (Z * list Z) := (pk_buffer q, tag q).
Lemma take_held_in b t k : In (b, t) (map key k) -> exists sl k', take_held b t k = Some (sl, k') /\ Permutation k ((b, t, sl) :: k').
Proof.
  induction k as [|[[b1 t1] s1] k IH]; intros I; [destruct I|]. cbn [take_held]. destruct ((b1 =? b) && (if tag_dec t1 t then true else false)) eqn:M.
  - apply andb_true_iff in M as [M1 M2]. destruct (tag_dec t1 t) as [->|]; [|discriminate]. apply Z.eqb_eq in M1. subst b1. exists s1, k. auto.
  - destruct I as [I|I].
    + cbn in I. injection I as -> ->. rewrite Z.eqb_refl in M. destruct (tag_dec t t); [discriminate|congruence].
    + destruct (IH I) as (sl & k' & -> & P). exists sl, ((b1, t1, s1) :: k'). split; [reflexivity|]. rewrite P. apply perm_swap.
Qed.

Lemma lend_events_ok cur h p W e : forall k, accepted e = [] -> Permutation (map key k) (map pkey (delivered e) ++ W) -> Forall (fun x => exists l, read h (snd x) = Ok l) k ->
  exists k' out, lend_events cur h p k e = Ok (p, k', out) /\ map fst out = delivered e /\ Permutation (map key k') W /\ incl k' k /\
    Forall (fun x => exists sl, In (pkey (fst x), sl) k /\ read h sl = Ok (snd x)) out.
Proof.
  induction e as [|x e IH]; intros k A P F.
  - exists k, []. cbn [lend_events]. split; [reflexivity|]. split; [reflexivity|]. split; [exact P|]. split; [apply incl_refl|constructor].
  - assert (Skip : accepted e = [] -> Permutation (map key k) (map pkey (delivered e) ++ W) -> exists k' out, lend_events cur h p k e = Ok (p, k', out) /\ map fst out = delivered e /\ Permutation (map key k') W /\ incl k' k /\
      Forall (fun x => exists sl, In (pkey (fst x), sl) k /\ read h sl = Ok (snd x)) out) by (intros; now apply IH).
    destruct x; cbn [lend_events]; cbn [accepted delivered flat_map app] in *; fold (accepted e) (delivered e) in *; try (now apply Skip); try discriminate A.
    cbn [map app] in P. assert (I : In (pk_buffer p0, tag p0) (map key k)) by (apply (Permutation_in _ (Permutation_sym P)); now left).
    destruct (take_held_in _ _ _ I) as (sl & k1 & -> & P1). cbn [of_opt bind].
    assert (Isl : In (pk_buffer p0, tag p0, sl) k) by (apply (Permutation_in _ (Permutation_sym P1)); now left).
    assert (Inc : incl k1 k) by (intros z Hz; apply (Permutation_in _ (Permutation_sym P1)); now right).
    assert (R : exists l, read h sl = Ok l) by (rewrite Forall_forall in F; now apply (F _ Isl)). destruct R as (l & R). rewrite R. cbn [bind].
    apply (Permutation_map key) in P1. rewrite P1 in P. cbn [map key fst] in P. apply Permutation_cons_inv in P.
    destruct (IH k1 A P) as (k' & out & E & O1 & O2 & O3 & O4); [apply Forall_forall; intros z Hz; rewrite Forall_forall in F; apply F, Inc, Hz|].
    rewrite E. cbn [bind]. exists k', ((p0, l) :: out). split; [reflexivity|]. split; [cbn [map fst]; now rewrite O1|]. split; [exact O2|]. split; [eapply incl_tran; eassumption|].
    constructor; [exists sl; split; [exact Isl|exact R]|]. eapply Forall_impl; [|exact O4]. intros z (s & Is & Rs). exists s. split; [now apply Inc|exact Rs].
Qed.

(** ** The demuxer *)
Lemma lend_shape o d a d' e : DemuxProofs.live d -> hook_data (dm_pre d) -> plain_hook (o, a) -> step o d a = Ok (d', e) ->
  hook_data (dm_pre d') /\
  match call_block a with
  | None => accepted e = []
  | Some (buf, data) => accepted e = [] \/ exists p m r, e = EvAdd p m :: r /\ pk_buffer p = buf /\ pk_data p = data /\ accepted r = []
  end.
Proof.
  intros (W & H & Or) Hd D S.
  assert (Kp : forall buf id data dts pre, hook_ok pre -> hook_data pre -> packet_step o d buf id data dts pre d' e -> hook_data (dm_pre d') /\
     (accepted e = [] \/ exists p m r, e = EvAdd p m :: r /\ pk_buffer p = buf /\ pk_data p = data /\ accepted r = [])).
  { intros buf id data dts pre Hp Hpd [(-> & ->)|(d1 & i & s & p & G & I & Xs & E1 & E2 & E3 & E4 & _ & _ & _ & P)]; [now split; [|left]|].
    split; [rewrite (process_pre _ _ _ _ _ P); destruct G as [->|(_ & _ & _ & _ & _ & ->)]; assumption|]. right.
    destruct (apply_pre_ok _ p Hp) as [Ei Eb].
    assert (Ed : pk_data (apply_pre pre p) = data) by (destruct pre; cbn in *; [rewrite Hpd|]; exact E1).
    destruct (process_packets _ _ _ _ _ P) as (_ & _ & _ & r & Er & _). destruct (process_events _ _ _ _ _ P) as [Ea _]. rewrite Er in Ea.
    do 3 eexists. split; [exact Er|]. split; [now rewrite Eb|]. split; [exact Ed|]. now injection Ea. }
  assert (Kc : forall x ev, on_probe_complete o d = Ok (x, ev) -> hook_data (dm_pre x)).
  { intros x ev C. apply complete_cases in C as [(_ & -> & _)|[(_ & _ & -> & _)|(_ & _ & -> & _)]]; assumption. }
  destruct a; cbn [step] in S; cbn [plain_hook snd] in D; cbn [call_block]; try (injection S as <- <-; split; [assumption|reflexivity]).
  - apply new_audio_inv in S as (-> & G); auto. split; [destruct G as [->|(s & _ & ->)]; assumption|]. destruct extra as [[|x t]|]; cbn [of_nil]; [reflexivity| |reflexivity].
    left. now destruct (_ <? _).
  - apply new_video_inv in S as (-> & G); auto. split; [destruct G as [->|(s & _ & ->)]; assumption|]. destruct extra as [|x t]; [reflexivity|]. left. now destruct (_ <? _).
  - apply audio_step in S; auto. eapply (Kp buf id data ts None); auto; exact Logic.I.
  - apply video_step in S; auto. eapply (Kp buf id data dts (dm_pre d)); auto.
  - split; [eapply Kc; eauto|eapply complete_events; eauto].
  - unfold try_complete_probe in S. destruct (need_more d); [injection S as <- <-; now split|split; [eapply Kc; eauto|eapply complete_events; eauto]].
  - unfold find_buffer_index in S. destruct (marker_index _ _ _); injection S as <- <-; now split.
Qed.

Lemma blocks_app a b : blocks (a ++ b) = blocks a ++ blocks b.
Proof. apply flat_map_app. Qed.
Lemma room_snoc l c : room (l ++ [c]) = match call_block (snd (fst c)) with Some _ => grown (room l) 0 (snd c) | None => room l end.
Proof. unfold room. rewrite blocks_app, fold_left_app. cbn [blocks flat_map app]. rewrite app_nil_r. now destruct (call_block _). Qed.
Lemma grown_fits chunks : forall c n, n + zlen (concat chunks) <= c -> grown c n chunks = c.
Proof.
  induction chunks as [|d t IH]; intros c n H; cbn [grown concat] in *; [reflexivity|]. rewrite zlen_app in H. pose proof (zlen_nonneg (concat t)). pose proof (zlen_nonneg d).
  replace (c - n <? zlen d) with false by lia. apply IH. lia.
Qed.
Definition all_fit (c : Z) (bs : list (list (list Z))) : bool := forallb (fun b => zlen (concat b) <=? c) bs.
Lemma fold_fits c bs : all_fit c bs = true -> fold_left (fun c b => grown c 0 b) bs c = c.
Proof.
  induction bs as [|b t IH]; cbn [all_fit forallb fold_left]; [reflexivity|]. intros H. apply andb_true_iff in H as [H1 H2]. rewrite grown_fits by lia. now apply IH.
Qed.
Lemma room_fits l1 c l2 : all_fit (room (l1 ++ [c])) (blocks l2) = true -> room (l1 ++ c :: l2) = room (l1 ++ [c]).
Proof. intros H. change (c :: l2) with ([c] ++ l2). rewrite app_assoc. unfold room at 1. rewrite blocks_app, fold_left_app. now apply fold_fits. Qed.
Lemma shown_snoc c b bs : forall l, shown c l (bs ++ [b]) =
  if all_fit c bs then over (shown c l bs) (if zlen (concat b) <=? c then concat b else landed c 0 b) else shown c l bs.
Proof.
  induction bs as [|x t IH]; intros l; cbn [app shown all_fit forallb]; [now destruct (_ <=? _)|]. destruct (zlen (concat x) <=? c); cbn [andb]; [apply IH|reflexivity].
Qed.
Lemma all_fit_snoc c b bs : all_fit c (bs ++ [b]) = all_fit c bs && (zlen (concat b) <=? c).
Proof. unfold all_fit. rewrite forallb_app. cbn [forallb]. now rewrite andb_true_r. Qed.

(** One held slice. *)
Definition entry (name : string) (l : list call) (h : heap) (p : hpipe) (x : Z * (Z * list Z) * gslice) : Prop :=
  exists l1 c l2 q0, l = l1 ++ c :: l2 /\ made name l1 c q0 /\ key x = pkey q0 /\
    read h (snd x) = Ok (shown (room (l1 ++ [c])) (pk_data q0) (blocks l2)) /\
    if all_fit (room (l1 ++ [c])) (blocks l2) then prefix_of p (snd x) else frozen h p (snd x).

Lemma entry_step name l c h p a h' p' x : entry name l h p x -> PipeProofs.live h p a -> zlen a = room l -> honest c ->
  (forall t, frozen h p t -> read h' t = read h t /\ frozen h' p' t) ->
  match call_block (snd (fst c)) with
  | None => h' = h /\ p' = p
  | Some (_, data) => forall t l, prefix_of p t -> read h t = Ok l ->
      if zlen data <=? zlen a then read h' t = Ok (over l data) /\ prefix_of p' t else read h' t = Ok (over l (landed (zlen a) 0 (snd c))) /\ frozen h' p' t
  end -> entry name (l ++ [c]) h' p' x.
Proof.
  intros (l1 & c1 & l2 & q0 & -> & M & K & R & P) L Z Hn F B. exists l1, c1, (l2 ++ [c]), q0. split; [now rewrite <- app_assoc|]. split; [exact M|]. split; [exact K|].
  rewrite blocks_app. cbn [blocks flat_map]. rewrite app_nil_r. unfold honest in Hn. destruct (call_block (snd (fst c))) as [[b data]|]; [|destruct B as [-> ->]; rewrite app_nil_r; auto].
  rewrite shown_snoc, all_fit_snoc, Hn. destruct (all_fit (room (l1 ++ [c1])) (blocks l2)) eqn:A; cbn [andb].
  - rewrite (room_fits _ _ _ A) in Z. specialize (B _ _ P R). rewrite Z in B. destruct (zlen data <=? room (l1 ++ [c1])); exact B.
  - destruct (F _ P) as [-> F']. auto.
Qed.

Record lent (name : string) (l : list call) (y : lender) (d : demuxer) : Prop := mkLent {
  lt_dm : ln_dm y = d;
  lt_size : hp_size (ln_pipe y) = 0;
  lt_live : exists a, PipeProofs.live (ln_heap y) (ln_pipe y) a /\ zlen a = room l;
  lt_keys : Permutation (map key (ln_held y)) (map pkey (List.concat (dm_packets d)));
  lt_held : Forall (entry name l (ln_heap y) (ln_pipe y)) (ln_held y) }.

Lemma lend_new_ok name : exists y, lend_new name = Ok y /\ lent name [] y (dm_new name).
Proof.
  unfold lend_new. destruct (hp_new []) as [[h p]| | |] eqn:E; try discriminate E. cbn [bind]. eexists. split; [reflexivity|]. pose proof (live_new _ _ _ E) as L.
  unfold hp_new in E. rewrite make_ok in E by lia. cbn [bind] in E. injection E as <- <-. constructor; cbn [ln_dm ln_pipe ln_heap ln_held]; try reflexivity.
  - exists []. split; [exact L|reflexivity].
  - constructor.
Qed.

Lemma pkey_nodur l : map pkey (map nodur l) = map pkey l.
Proof. rewrite map_map. apply map_ext. reflexivity. Qed.
Lemma lend_balance d1 e1 d2 e2 : balanced d1 e1 -> balanced d2 (e1 ++ e2) ->
  Permutation (map pkey (List.concat (dm_packets d1)) ++ map pkey (accepted e2)) (map pkey (delivered e2) ++ map pkey (List.concat (dm_packets d2))).
Proof.
  intros [B1 _] [B2 _]. apply (Permutation_map pkey) in B1, B2. rewrite !map_app, !pkey_nodur in B1, B2. rewrite accepted_app, delivered_app, !map_app in B2.
  rewrite B1 in B2. rewrite <- !app_assoc in B2. now apply Permutation_app_inv_l in B2.
Qed.

Lemma lend_step_ok name l c y d e0 d' e : lent name l y d -> run (dm_new name) (map fst l) = Ok (d, e0) -> DemuxProofs.live d -> hook_data (dm_pre d) -> plain_hook (fst c) -> honest c ->
  balanced d e0 -> balanced d' (e0 ++ e) -> step (fst (fst c)) d (snd (fst c)) = Ok (d', e) ->
  exists y' out, lend_step y c = Ok (y', out) /\ lent name (l ++ [c]) y' d' /\ map fst out = delivered e /\ Forall (fun x => seen_after name (l ++ [c]) (fst x) (snd x)) out.
Proof.
  destruct c as [[o x] chunks]. intros [D Z0 (a & La & Za) K H] Rn Lv Hd Hp Hn B1 B2 S. cbn [fst snd] in *.
  destruct (lend_ok _ _ _ o x chunks La Z0 Hn) as (h' & p' & a' & cur & E & L' & Z' & F' & C').
  destruct (lend_shape _ _ _ _ _ Lv Hd Hp S) as [_ Sh]. pose proof (lend_balance _ _ _ _ B1 B2) as Bal.
  assert (H' : Forall (entry name (l ++ [((o, x), chunks)]) h' p') (ln_held y)).
  { eapply Forall_impl; [|exact H]. intros z Ez. eapply entry_step; eauto. cbn [fst snd]. destruct (call_block x) as [[b data]|]; [|tauto]. now destruct C' as (sl & _ & _ & _ & _ & C'). }
  assert (Zr : zlen a' = room (l ++ [((o, x), chunks)])).
  { rewrite room_snoc. cbn [fst snd]. destruct (call_block x) as [[b data]|]; [destruct C' as (sl & _ & _ & _ & G & _)|destruct C' as (_ & _ & _ & G)]; rewrite <- Za; congruence. }
  unfold lend_step. rewrite E. cbn [bind]. rewrite D, S. cbn [bind].
  assert (Fin : forall k e', accepted e' = [] -> Permutation (map key k) (map pkey (delivered e') ++ map pkey (List.concat (dm_packets d'))) -> Forall (entry name (l ++ [((o, x), chunks)]) h' p') k ->
    exists y' out, ('(p2, k2, out) <- lend_events cur h' p' k e';; Ok (mkLend h' p2 k2 d', out)) = Ok (y', out) /\ lent name (l ++ [((o, x), chunks)]) y' d' /\ map fst out = delivered e' /\
      Forall (fun z => seen_after name (l ++ [((o, x), chunks)]) (fst z) (snd z)) out).
  { intros k e' A P Fk. destruct (lend_events_ok cur h' p' _ e' k A P) as (k' & out & E' & O1 & O2 & O3 & O4).
    { eapply Forall_impl; [|exact Fk]. intros z (l1 & c1 & l2 & q0 & _ & _ & _ & Rz & _). eauto. }
    rewrite E'. cbn [bind]. do 2 eexists. split; [reflexivity|]. split; [|split; [exact O1|]].
    - constructor; cbn [ln_dm ln_pipe ln_heap ln_held]; auto; [exists a'; auto|]. apply Forall_forall. intros z Iz. rewrite Forall_forall in Fk. apply Fk, O3, Iz.
    - eapply Forall_impl; [|exact O4]. intros z (sl & Is & Rs). rewrite Forall_forall in Fk. destruct (Fk _ Is) as (l1 & c1 & l2 & q0 & El & M & Kq & Rz & _).
      cbn [snd key fst] in Rz, Kq. injection Kq as Kb Kt Kd. exists l1, c1, l2, q0. split; [exact El|]. split; [exact M|]. split; [exact Kb|]. split; [unfold tag; congruence|]. rewrite Kd. congruence. }
  assert (Pl : accepted e = [] -> exists y' out, ('(p2, k2, out) <- lend_events cur h' p' (ln_held y) e;; Ok (mkLend h' p2 k2 d', out)) = Ok (y', out) /\ lent name (l ++ [((o, x), chunks)]) y' d' /\ map fst out = delivered e /\
      Forall (fun z => seen_after name (l ++ [((o, x), chunks)]) (fst z) (snd z)) out).
  { intros A. apply Fin; [exact A| |exact H']. rewrite K. rewrite A in Bal. cbn [map] in Bal. now rewrite app_nil_r in Bal. }
  destruct (call_block x) as [[b data]|] eqn:Cb; [|now apply Pl]. destruct Sh as [A|(q & m & r & -> & Qb & Qd & A)]; [now apply Pl|].
  destruct C' as (sl & -> & Ps & Rs & G & _). cbn [lend_events of_opt bind]. change (delivered (EvAdd q m :: r)) with (delivered r).
  change (accepted (EvAdd q m :: r)) with (q :: accepted r) in Bal. rewrite A in Bal. change (delivered (EvAdd q m :: r)) with (delivered r) in Bal.
  apply Fin; [exact A| |].
  - rewrite map_app, K. exact Bal.
  - apply Forall_app. split; [exact H'|]. constructor; [|constructor]. exists l, ((o, x), chunks), [], q. split; [reflexivity|]. split.
    + exists d, e0, d', m, r. split; [exact Rn|]. split; [exact S|]. cbn [fst snd]. now rewrite Cb, Qb, Qd.
    + split; [reflexivity|]. cbn [snd blocks flat_map shown all_fit forallb]. rewrite Qd. auto.
Qed.

Lemma lend_run_snoc l c : forall y, lend_run y (l ++ [c]) = ('(y1, o1) <- lend_run y l;; '(y2, o2) <- lend_step y1 c;; Ok (y2, o1 ++ o2)).
Proof.
  induction l as [|x t IH]; intros y; cbn [app lend_run bind].
  - destruct (lend_step y c) as [[y1 o1]| | |]; cbn [bind]; [now rewrite app_nil_r|reflexivity..].
  - destruct (lend_step y x) as [[y1 o1]| | |]; cbn [bind]; try reflexivity. rewrite IH. destruct (lend_run y1 t) as [[y2 o2]| | |]; cbn [bind]; try reflexivity.
    destruct (lend_step y2 c) as [[y3 o3]| | |]; cbn [bind]; try reflexivity. now rewrite app_assoc.
Qed.

Lemma lend_reach name l : forall d evs, Forall well_behaved (map fst l) -> Forall plain_hook (map fst l) -> Forall honest l -> run (dm_new name) (map fst l) = Ok (d, evs) ->
  exists y0 y out, lend_new name = Ok y0 /\ lend_run y0 l = Ok (y, out) /\ lent name l y d /\ hook_data (dm_pre d) /\ map fst out = delivered evs.
Proof.
  induction l as [|c t IH] using rev_ind; intros d evs F P Hn R.
  - destruct (lend_new_ok name) as (y & E & L). cbn in R. injection R as <- <-. exists y, y, []. cbn. repeat (split; auto).
  - rewrite map_app in F, P, R. cbn [map] in F, P, R. apply Forall_app in F as [F Fc]. apply Forall_app in P as [P Pc]. apply Forall_app in Hn as [Hn Hc].
    apply Forall_inv in Fc, Pc, Hc. pose proof R as R0. rewrite run_app in R. destruct (run (dm_new name) (map fst t)) as [[d1 e1]| | |] eqn:R1; cbn [bind] in R; try discriminate R.
    destruct c as [[o x] chunks]. cbn [run fst] in R. destruct (step o d1 x) as [[d2 e2]| | |] eqn:S; cbn [bind] in R; try discriminate R. injection R as <- <-. rewrite app_nil_r in *.
    destruct (IH _ _ F P Hn eq_refl) as (y0 & y & out & N & E & L & Hd & O). 
    assert (F' : Forall well_behaved (map fst t ++ [(o, x)])) by (apply Forall_app; auto).
    destruct (reach_balanced name _ d1 e1 (Forall_impl sorting (fun x => @proj1 _ _) F) R1) as (_ & _ & B & _).
    destruct (reach_balanced name _ d2 (e1 ++ e2) (Forall_impl sorting (fun x => @proj1 _ _) F') R0) as (_ & _ & B2 & _).
    pose proof (reach_live _ _ _ _ F R1) as Lv.
    destruct (lend_step_ok name t (o, x, chunks) y d1 e1 d2 e2 L R1 Lv Hd Pc Hc B B2 S) as (y' & out' & E' & L' & O' & _).
    exists y0, y', (out ++ out'). split; [exact N|]. rewrite lend_run_snoc, E. cbn [bind]. rewrite E'. cbn [bind]. split; [reflexivity|]. split; [exact L'|].
    split; [exact (proj1 (lend_shape _ _ _ _ _ Lv Hd Pc S))|]. now rewrite map_app, delivered_app, O, O'.
Qed.
(** The last call. *)
Lemma lend_last name l c d evs d' e : Forall well_behaved (map fst (l ++ [c])) -> Forall plain_hook (map fst (l ++ [c])) -> Forall honest (l ++ [c]) ->
  run (dm_new name) (map fst l) = Ok (d, evs) -> step (fst (fst c)) d (snd (fst c)) = Ok (d', e) ->
  exists y0 y out1 y' out2, lend_new name = Ok y0 /\ lend_run y0 l = Ok (y, out1) /\ lend_step y c = Ok (y', out2) /\ ln_dm y' = d' /\
    map fst out2 = delivered e /\ Forall (fun x => seen_after name (l ++ [c]) (fst x) (snd x)) out2.
Proof.
  intros F P Hn R S. pose proof F as F0. rewrite map_app in F, P, F0. cbn [map] in F, P, F0. apply Forall_app in F as [F Fc]. apply Forall_app in P as [P Pc]. apply Forall_app in Hn as [Hn Hc]. apply Forall_inv in Fc, Pc, Hc.
  destruct (lend_reach name l d evs F P Hn R) as (y0 & y & out & N & E & L & Hd & O). destruct c as [[o x] chunks]. cbn [fst snd] in *.
  assert (R2 : run (dm_new name) (map fst l ++ [(o, x)]) = Ok (d', evs ++ e)) by (rewrite run_app, R; cbn [bind run]; rewrite S; cbn [bind]; now rewrite app_nil_r).
  destruct (reach_balanced name _ d evs (Forall_impl sorting (fun x => @proj1 _ _) F) R) as (_ & _ & B & _).
  destruct (reach_balanced name _ d' (evs ++ e) (Forall_impl sorting (fun x => @proj1 _ _) F0) R2) as (_ & _ & B2 & _).
  destruct (lend_step_ok name l (o, x, chunks) y d evs d' e L R (reach_live _ _ _ _ F R) Hd Pc Hc B B2 S) as (y' & out' & E' & L' & O' & O2).
  exists y0, y, out, y', out'. repeat (split; auto). exact (lt_dm _ _ _ _ L').
Qed.

(** ** What is shown *)
Lemma shown_length c bs : forall l, length (shown c l bs) = length l.
Proof. induction bs as [|b t IH]; intros l; cbn [shown]; [reflexivity|]. destruct (_ <=? _); [now rewrite IH, over_length|apply over_length]. Qed.
(** Blocks of one size. *)
Definition sized (n : Z) (b : list (list Z)) : Prop := exists d, b = [d] /\ zlen d = n.
Lemma shown_sized n c bs : forall l, n <= c -> zlen l = n -> Forall (sized n) bs -> shown c l bs = last (map (@concat Z) bs) l.
Proof.
  induction bs as [|b t IH]; intros l Hc Hl F; [reflexivity|]. apply Forall_cons_iff in F as [(d & -> & Hd) F].
  assert (Ec : concat [d] = d) by (cbn [concat]; apply app_nil_r). cbn [shown map]. rewrite Ec, over_long by (unfold zlen in *; lia). replace (zlen d <=? c) with true by lia.
  replace (length l) with (length d) by (unfold zlen in *; lia). rewrite firstn_all, IH by auto. destruct t as [|x t]; [reflexivity|]. cbn [map]. clear. generalize (map (concat (A:=Z)) t). revert x. 
  intros x m. change (last (concat x :: m) d = last (d :: concat x :: m) l). revert x. induction m as [|z m IHm]; intros x; [reflexivity|]. cbn [last] in *. destruct m; [reflexivity|]. apply (IHm [z]).
Qed.
Lemma grown_nonneg chunks : forall c n, 0 <= c -> 0 <= n -> 0 <= grown c n chunks.
Proof. induction chunks as [|d t IH]; intros c n Hc Hn; cbn [grown]; [lia|]. pose proof (zlen_nonneg d). apply IH; [destruct (_ <? _); lia|lia]. Qed.
Lemma fold_nonneg bs : forall c, 0 <= c -> 0 <= fold_left (fun c b => grown c 0 b) bs c.
Proof. induction bs as [|b t IH]; intros c Hc; cbn [fold_left]; [lia|]. apply IH, grown_nonneg; lia. Qed.
Lemma room_nonneg l : 0 <= room l.
Proof. apply fold_nonneg. lia. Qed.
Lemma seen_sized name l n q bytes : Forall honest l -> Forall (sized n) (blocks l) -> seen_after name l q bytes -> bytes = last (map (@concat Z) (blocks l)) [].
Proof.
  intros Hn F (l1 & c & l2 & q0 & -> & (d0 & e0 & d1 & m & r & _ & _ & Cb) & _ & Et & ->). apply Forall_app in Hn as [_ Hn]. apply Forall_inv in Hn. unfold honest in Hn. rewrite Cb in Hn.
  rewrite blocks_app in *. change (c :: l2) with ([c] ++ l2) in *. rewrite blocks_app in *. cbn [blocks flat_map] in *. rewrite Cb in *. cbn [app] in *. apply Forall_app in F as [_ F]. apply Forall_cons_iff in F as [F1 F2].
  assert (Ed : pk_data q = pk_data q0) by (unfold tag in Et; congruence). rewrite Ed, <- Hn. pose proof (room_nonneg l1) as Hr.
  destruct F1 as (d & Es & Zd). pose proof (zlen_nonneg d). rewrite room_snoc, Cb, Es. cbn [grown]. rewrite Z.sub_0_r, Z.add_0_l.
  rewrite (shown_sized n) by (try assumption; try (cbn [concat]; rewrite app_nil_r; assumption); destruct (_ <? _) eqn:C; lia).
  rewrite map_app. cbn [map]. generalize (map (concat (A:=Z)) (blocks l1)). intros a. generalize (map (concat (A:=Z)) (blocks l2)). intros b. generalize (concat [d]). clear.
  intros x. induction a as [|y a IH]; cbn [app]; [|rewrite IH; destruct (a ++ x :: b) eqn:E; [destruct a; discriminate|reflexivity]].
  revert x. induction b as [|z b IH]; intros x; [reflexivity|]. cbn [last] in *. destruct b; [reflexivity|]. apply (IH x).
Qed.

(** Every move more than doubles the array. *)
Lemma piece_growth chunks : forall c n, 0 <= n -> 0 <= c -> (c + 2) * 2 ^ Z.of_nat (piece_moves c n chunks) <= grown c n chunks + 2.
Proof.
  induction chunks as [|d t IH]; intros c n Hn Hc; cbn [piece_moves grown]; [rewrite Z.pow_0_r; lia|]. pose proof (zlen_nonneg d). destruct (c - n <? zlen d) eqn:C; [|apply IH; lia].
  rewrite Nat2Z.inj_succ, Z.pow_succ_r by lia. specialize (IH ((n + zlen d) * 2) (n + zlen d)). assert (0 < 2 ^ Z.of_nat (piece_moves ((n + zlen d) * 2) (n + zlen d) t)) by (apply Z.pow_pos_nonneg; lia). nia.
Qed.
Lemma block_growth bs : forall c, 0 <= c -> (c + 2) * 2 ^ Z.of_nat (moves c bs) <= fold_left (fun c b => grown c 0 b) bs c + 2.
Proof.
  induction bs as [|b t IH]; intros c Hc; cbn [moves fold_left]; [rewrite Z.pow_0_r; lia|]. rewrite Nat2Z.inj_add, Z.pow_add_r by lia.
  pose proof (piece_growth b c 0 ltac:(lia) Hc) as P. specialize (IH (grown c 0 b) (grown_nonneg b c 0 Hc ltac:(lia))).
  assert (0 < 2 ^ Z.of_nat (moves (grown c 0 b) t)) by (apply Z.pow_pos_nonneg; lia). nia.
Qed.
Lemma piece_bound M chunks : forall c n, 0 <= n -> c <= 2 * M -> n + zlen (concat chunks) <= M -> grown c n chunks <= 2 * M.
Proof.
  induction chunks as [|d t IH]; intros c n Hn Hc Hm; cbn [grown concat] in *; [lia|]. rewrite zlen_app in Hm. pose proof (zlen_nonneg d). pose proof (zlen_nonneg (concat t)). apply IH; [lia| |lia]. destruct (_ <? _); lia.
Qed.
Lemma block_bound M bs : forall c, c <= 2 * M -> Forall (fun b => zlen (concat b) <= M) bs -> fold_left (fun c b => grown c 0 b) bs c <= 2 * M.
Proof.
  induction bs as [|b t IH]; intros c Hc F; cbn [fold_left]; [exact Hc|]. apply Forall_cons_iff in F as [Fb F]. apply IH; [|exact F]. apply piece_bound; lia.
Qed.

(** ** The arrays in memory *)
Lemma lend_chunks_arrays chunks : forall h p a h' p', PipeProofs.live h p a -> hp_size p <= zlen a -> lend_chunks h p chunks = Ok (h', p') ->
  length h' = (length h + piece_moves (zlen a) (hp_size p) chunks)%nat.
Proof.
  induction chunks as [|d t IH]; intros h p a h' p' L Hz E; cbn [lend_chunks piece_moves] in *; [injection E as <- <-; lia|].
  destruct (hp_write h p d) as [[[h1 p1] n]| | |] eqn:W; cbn [bind] in E; try discriminate E. pose proof L as (_ & _ & _ & Hs). pose proof (zlen_nonneg d) as Hd.
  destruct (hp_write_cases _ _ _ _ _ _ _ L W) as (En & Sz & [(C & _ & Lh & L1 & Hf & _)|(C & _ & _ & Lh & L1 & _)]); rewrite C.
  - assert (Ez : zlen (firstn (Z.to_nat (hp_size p)) a ++ d ++ skipn (Z.to_nat (hp_size p) + length d) a) = zlen a) by (unfold zlen in *; rewrite !app_length, firstn_length, skipn_length; lia).
    rewrite (IH _ _ _ _ _ L1 ltac:(lia) E), Ez, Sz, En. lia.
  - assert (Ez : zlen (firstn (Z.to_nat (hp_size p)) a ++ d ++ zeros (Z.to_nat (hp_size p + zlen d))) = (hp_size p + zlen d) * 2)
      by (unfold zlen, zeros in *; rewrite !app_length, firstn_length, repeat_length; lia).
    rewrite (IH _ _ _ _ _ L1 ltac:(lia) E), Ez, Sz, En. lia.
Qed.
Lemma moves_snoc b bs : forall c, moves c (bs ++ [b]) = (moves c bs + piece_moves (fold_left (fun c b => grown c 0 b) bs c) 0 b)%nat.
Proof. induction bs as [|x t IH]; intros c; cbn [app moves fold_left]; [lia|]. rewrite IH. lia. Qed.
Lemma lend_step_arrays y c y' out a l : lend_step y c = Ok (y', out) -> PipeProofs.live (ln_heap y) (ln_pipe y) a -> zlen a = room l -> hp_size (ln_pipe y) = 0 ->
  zlen (ln_heap y) = 1 + Z.of_nat (moves 0 (blocks l)) -> zlen (ln_heap y') = 1 + Z.of_nat (moves 0 (blocks (l ++ [c]))).
Proof.
  destruct c as [[o x] chunks]. intros E L Za Z0 H. unfold lend_step in E. destruct (lend (ln_heap y) (ln_pipe y) x chunks) as [[[[h1 p1] a1] cur]| | |] eqn:D; cbn [bind] in E; try discriminate E.
  destruct (step o (ln_dm y) a1) as [[d1 e]| | |]; cbn [bind] in E; try discriminate E. destruct (lend_events cur h1 p1 (ln_held y) e) as [[[p2 k2] o2]| | |]; cbn [bind] in E; try discriminate E.
  injection E as <- <-. cbn [ln_heap]. rewrite blocks_app. cbn [blocks flat_map fst snd]. rewrite app_nil_r. unfold lend in D. destruct (call_block x) as [[b data]|].
  - destruct (lend_chunks (ln_heap y) (ln_pipe y) chunks) as [[h2 p3]| | |] eqn:C; cbn [bind] in D; try discriminate D. destruct (hp_fetch p3) as [[p4 sl]| | |]; cbn [bind] in D; try discriminate D.
    destruct (read h2 sl) as [bytes| | |]; cbn [bind] in D; try discriminate D. assert (h2 = h1) by congruence. subst h2.
    pose proof (lend_chunks_arrays chunks _ _ _ _ _ L ltac:(pose proof (zlen_nonneg a); lia) C) as A. rewrite moves_snoc, <- (eq_refl : room l = fold_left (fun c b => grown c 0 b) (blocks l) 0), <- Za. rewrite Z0 in A. unfold zlen in *. lia.
  - rewrite app_nil_r. assert (ln_heap y = h1) by congruence. congruence.
Qed.
Lemma lend_arrays name l : forall d evs, Forall well_behaved (map fst l) -> Forall plain_hook (map fst l) -> Forall honest l -> run (dm_new name) (map fst l) = Ok (d, evs) ->
  exists y0 y out, lend_new name = Ok y0 /\ lend_run y0 l = Ok (y, out) /\ zlen (ln_heap y0) = 1 /\ zlen (ln_heap y) = 1 + Z.of_nat (moves 0 (blocks l)).
Proof.
  induction l as [|c t IH] using rev_ind; intros d evs F P Hn R.
  - unfold lend_new, hp_new. rewrite make_ok by lia. cbn [bind]. do 3 eexists. split; [reflexivity|]. split; [reflexivity|]. now split.
  - destruct (lend_reach name (t ++ [c]) d evs F P Hn R) as (y0 & y & out & N & E & _). rewrite map_app in F, P, R. cbn [map] in F, P, R. apply Forall_app in F as [F _]. apply Forall_app in P as [P _]. apply Forall_app in Hn as [Hn _].
    rewrite run_app in R. destruct (run (dm_new name) (map fst t)) as [[d1 e1]| | |] eqn:R1; cbn [bind] in R; try discriminate R.
    destruct (IH _ _ F P Hn eq_refl) as (z0 & z & o1 & N1 & E1 & A0 & A). destruct (lend_reach name t d1 e1 F P Hn R1) as (w0 & w & o2 & N2 & E2 & L & _).
    assert (z0 = y0) by congruence. assert (w0 = y0) by congruence. subst z0 w0. assert (w = z) by congruence. subst w.
    exists y0, y, out. split; [exact N|]. split; [exact E|]. split; [exact A0|]. rewrite lend_run_snoc, E1 in E. cbn [bind] in E. destruct (lend_step z c) as [[y2 o3]| | |] eqn:S; cbn [bind] in E; try discriminate E.
    assert (y2 = y) by congruence. subst y2. destruct L as [_ Z0 (a & La & Za) _ _]. exact (lend_step_arrays _ _ _ _ _ _ S La Za Z0 A).
Qed.

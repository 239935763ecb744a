(** * DetermProofs: what a session does is fixed by the calls. *)
From Coq Require Import String List Permutation Sorted.
From Verif Require Import Base CollectionsSpec NaluModel RecordModel AacModel FloatModel PacketModel DemuxModel DemuxProofs BlockQueueProofs DemuxPtrProofs SafeProofs DetermSpec.
Import ListNotations.
Local Open Scope list_scope.

Lemma untyped_eq p q : untyped p = untyped q ->
  pk_data p = pk_data q /\ pk_dts p = pk_dts q /\ pk_duration p = pk_duration q /\ pk_index p = pk_index q /\ pk_timebase p = pk_timebase q /\ pk_codec p = pk_codec q.
Proof.
  intros E. split; [exact (f_equal pk_data E)|]. split; [exact (f_equal pk_dts E)|]. split; [exact (f_equal pk_duration E)|]. split; [exact (f_equal pk_index E)|]. split; [exact (f_equal pk_timebase E)|exact (f_equal pk_codec E)].
Qed.
Lemma untyped_duration p q v : untyped p = untyped q -> untyped (set_duration p v) = untyped (set_duration q v).
Proof. intros E. exact (f_equal (fun x => set_duration x v) E). Qed.
Lemma cons_eq {A} (x y : A) a b : x :: a = y :: b -> x = y /\ a = b.
Proof. intros E. split; [exact (f_equal (hd x) E)|exact (f_equal (@tl A) E)]. Qed.
Lemma ms_same o o' p q : or_ms o = or_ms o' -> untyped p = untyped q -> pk_ms o p = pk_ms o' q.
Proof. intros O E. apply untyped_eq in E as (_ & _ & E1 & _ & E2 & _). unfold pk_ms. now rewrite O, E1, E2. Qed.
Lemma total_same o o' : or_ms o = or_ms o' -> forall l l', map untyped l = map untyped l' -> total_ms o l = total_ms o' l'.
Proof.
  intros O. unfold total_ms. generalize 0. intros a l. revert a. induction l as [|p t IH]; intros a [|q t'] E; try discriminate; [reflexivity|]. cbn [map fold_left] in *. apply cons_eq in E as [E1 E]. rewrite (ms_same _ _ _ _ O E1). now apply IH.
Qed.

(** Lists that are the same under [f]. *)
Lemma idx_rel {A B} (f : A -> B) l l' i : map f l = map f l' -> rel_res (fun a b => f a = f b) (of_opt (idx l i)) (of_opt (idx l' i)).
Proof.
  intros E. pose proof (idx_map f l i) as X. pose proof (idx_map f l' i) as Y. rewrite E, Y in X. destruct (idx l i), (idx l' i); cbn in *; try discriminate; [now injection X|exact I].
Qed.
Lemma map_set_nth {A B} (f : A -> B) v : forall l n, map f (set_nth n v l) = set_nth n (f v) (map f l).
Proof. induction l as [|x t IH]; intros [|n]; cbn; auto. now rewrite IH. Qed.
Lemma map_zlen {A B} (f : A -> B) l l' : map f l = map f l' -> zlen l = zlen l'.
Proof. intros E. unfold zlen. f_equal. rewrite <- (map_length f l), E. apply map_length. Qed.
Lemma upd_rel {A B} (f : A -> B) l l' i v v' : map f l = map f l' -> f v = f v' -> rel_res (fun a b => map f a = map f b) (of_opt (upd l i v)) (of_opt (upd l' i v')).
Proof. intros E V. unfold upd. rewrite (map_zlen f l l' E). destruct (_ && _); cbn; [|exact I]. now rewrite !map_set_nth, E, V. Qed.
Lemma first_rel c : forall l l', map (map untyped) l = map (map untyped) l' -> option_map untyped (first_packet_of c l) = option_map untyped (first_packet_of c l').
Proof.
  induction l as [|a t IH]; intros [|b t'] E; try discriminate; [reflexivity|]. cbn [map] in E. apply cons_eq in E as [E1 E]. destruct a as [|p a], b as [|q b]; try discriminate; cbn [first_packet_of]; [now apply IH|].
  cbn [map] in E1. apply cons_eq in E1 as [E1 _]. pose proof (untyped_eq _ _ E1) as (_ & _ & _ & _ & _ & Ec). rewrite Ec. destruct (_ =? _); [cbn; now rewrite E1|now apply IH].
Qed.
Lemma prepare_rel o o' l l' ts : or_ms o = or_ms o' -> map (map untyped) l = map (map untyped) l' -> prepare_tracks o l ts = prepare_tracks o' l' ts.
Proof.
  intros O E. unfold prepare_tracks.
  assert (P : calculate_pcm_frequency o l ts = calculate_pcm_frequency o' l' ts).
  { unfold calculate_pcm_frequency. pose proof (first_rel AVCodecIdPCMS16LE _ _ E) as F. destruct (first_packet_of _ l) as [p|], (first_packet_of _ l') as [q|]; cbn in F; try discriminate; [|reflexivity].
    assert (U : untyped p = untyped q) by (apply (f_equal (fun x => match x with Some y => y | None => p end)) in F; exact F). rewrite (ms_same _ _ _ _ O U). apply untyped_eq in U as (-> & _). reflexivity. }
  rewrite P. unfold calculate_g726_bit_rate. pose proof (first_rel AVCodecIdADPCMG726 _ _ E) as F. destruct (first_packet_of _ l) as [p|], (first_packet_of _ l') as [q|]; cbn in F; try discriminate; [|reflexivity].
  assert (U : untyped p = untyped q) by (apply (f_equal (fun x => match x with Some y => y | None => p end)) in F; exact F). rewrite (ms_same _ _ _ _ O U). apply untyped_eq in U as (-> & _). reflexivity.
Qed.

(** *** Events *)
Lemma same_demuxer_refl d : same_demuxer d d.
Proof. split; [now destruct d|reflexivity]. Qed.
Lemma same_events_refl e : same_events e e.
Proof. split; [reflexivity|apply Permutation_refl]. Qed.
Lemma same_events_app a a' b b' : same_events a a' -> same_events b b' -> same_events (a ++ b) (a' ++ b').
Proof. intros [A P] [B Q]. unfold same_events, other. rewrite !filter_app, !map_app. split; [f_equal; assumption|now apply Permutation_app]. Qed.
Lemma forward_rel d d' p p' : same_demuxer d d' -> untyped p = untyped p' -> rel_res (fun e e' => map untyped_ev e = map untyped_ev e' /\ other e = [] /\ other e' = []) (forward_packet d p) (forward_packet d' p').
Proof.
  intros [D _] E. rewrite D. unfold forward_packet. change (dm_handler (with_packets d ?x)) with (dm_handler d). change (dm_autofree (with_packets d ?x)) with (dm_autofree d). change (dm_map (with_packets d ?x)) with (dm_map d).
  pose proof (untyped_eq _ _ E) as (_ & _ & _ & -> & _). destruct (negb (dm_handler d)); [exact I|]. destruct (dm_autofree d); [destruct (map_find _ _); [|exact I]|]; cbn [rel_res map untyped_ev]; rewrite E; repeat split.
Qed.
(** Delivering packets in another order. *)
Definition loose (e e' : list event) : Prop := Permutation (map untyped_ev e) (map untyped_ev e') /\ other e = [] /\ other e' = [].
Lemma loose_events e e' : loose e e' -> same_events e e'.
Proof. intros (P & A & B). split; [now rewrite A, B|exact P]. Qed.
Lemma forward_each d d' : same_demuxer d d' -> forall l l', map untyped l = map untyped l' -> rel_res loose (forward_all d l) (forward_all d' l').
Proof.
  intros D. induction l as [|p t IH]; intros [|q t'] E; try discriminate; cbn [forward_all]; [repeat split; constructor|]. cbn [map] in E. apply cons_eq in E as [E1 E].
  eapply rel_bind; [exact (forward_rel d d' p q D E1)|]. intros a b (A1 & A2 & A3). eapply rel_bind; [now apply IH|]. intros x y (X1 & X2 & X3). cbn [rel_res]. unfold loose, other in *. rewrite !filter_app, !map_app, A1, A2, A3, X2, X3. repeat split. now apply Permutation_app_head.
Qed.
Lemma bind_assoc {A B C} (x : res A) (f : A -> res B) (g : B -> res C) : bind (bind x f) g = bind x (fun a => bind (f a) g).
Proof. destruct x; reflexivity. Qed.
(** forward_packet returns a value or panics. *)
Lemma forward_two d p : (exists e, forward_packet d p = Ok e) \/ forward_packet d p = Panic.
Proof. unfold forward_packet. destruct (negb _); [now right|]. destruct (dm_autofree d); [destruct (map_find _ _)|]; eauto. Qed.
Lemma forward_all_two d l : (exists e, forward_all d l = Ok e) \/ forward_all d l = Panic.
Proof.
  induction l as [|p t IH]; cbn [forward_all]; [eauto|]. destruct (forward_two d p) as [(e & ->)| ->]; [|now right]. cbn [bind]. destruct IH as [(e' & ->)| ->]; [left; eexists; reflexivity|now right].
Qed.
Lemma loose_trans a b c : loose a b -> loose b c -> loose a c.
Proof. intros (P & A & B) (Q & C & D). repeat split; auto. eapply Permutation_trans; eauto. Qed.
Lemma rel_trans {A} (R : A -> A -> Prop) x y z : (forall a b c, R a b -> R b c -> R a c) -> rel_res R x y -> rel_res R y z -> rel_res R x z.
Proof. intros T. destruct x, y, z; cbn; try contradiction; eauto. Qed.
Lemma forward_loose d l e : forward_all d l = Ok e -> loose e e.
Proof.
  intros F. pose proof (forward_each d d (same_demuxer_refl d) l l eq_refl) as X. rewrite F in X. exact X.
Qed.
Lemma forward_perm d : forall l l', Permutation l l' -> rel_res loose (forward_all d l) (forward_all d l').
Proof.
  induction 1 as [|p l l' P IH|p q l|l1 l2 l3 P1 IH1 P2 IH2].
  - repeat split; constructor.
  - cbn [forward_all]. destruct (forward_all d [p]) as [a| | |] eqn:F; cbn [forward_all] in F; destruct (forward_two d p) as [(e & Ef)|Ef]; rewrite Ef in *; cbn [bind] in *; try discriminate; try exact I. injection F as <-.
    eapply rel_bind; [exact IH|]. intros x y X. cbn [rel_res]. assert (L : loose e e) by (apply (forward_loose d [p]); cbn [forward_all]; rewrite Ef; cbn [bind]; now rewrite app_nil_r).
    destruct X as (X1 & X2 & X3), L as (L1 & L2 & _). unfold loose, other in *. rewrite !filter_app, !map_app, L2, X2, X3. repeat split. now apply Permutation_app_head.
  - cbn [forward_all]. destruct (forward_two d p) as [(e & Ef)|Ef], (forward_two d q) as [(e' & Ef')|Ef']; rewrite Ef, Ef'; cbn [bind]; try exact I. destruct (forward_all_two d l) as [(x & Fx)|Fx]; rewrite Fx; cbn [bind rel_res]; [|exact I].
    assert (L : loose e e) by (apply (forward_loose d [p]); cbn [forward_all]; rewrite Ef; cbn [bind]; now rewrite app_nil_r). assert (L' : loose e' e') by (apply (forward_loose d [q]); cbn [forward_all]; rewrite Ef'; cbn [bind]; now rewrite app_nil_r).
    pose proof (forward_loose d l x Fx) as X. destruct X as (_ & X2 & _), L as (_ & L2 & _), L' as (_ & L2' & _). unfold loose, other in *. rewrite !filter_app, !map_app, L2, L2', X2. repeat split. rewrite !app_assoc. apply Permutation_app_tail. apply Permutation_app_comm.
  - eapply rel_trans; [exact loose_trans|exact IH1|exact IH2].
Qed.
(** Two lists with the same elements up to [f]: one is a permutation of a list that is the same element by element. *)
Lemma perm_map {A B} (f : A -> B) l l' : Permutation (map f l) (map f l') -> exists m, Permutation l m /\ map f m = map f l'.
Proof. intros P. apply Permutation_sym, Permutation_map_inv in P as (m & E & P). exists m. split; [exact P|now symmetry]. Qed.

(** *** Steps *)
Definition same_out (x y : demuxer * list event) : Prop := same_demuxer (fst x) (fst y) /\ same_events (snd x) (snd y).
Lemma only_rel l l' : map untyped l = map untyped l' -> map untyped (only_last l) = map untyped (only_last l').
Proof.
  assert (G : forall m p, map untyped [last m p] = [last (map untyped m) (untyped p)]) by (induction m as [|x [|y m] IH]; intros p; [reflexivity|reflexivity|exact (IH p)]).
  destruct l as [|p t], l' as [|q t']; intros E; try discriminate; [reflexivity|]. cbn [map] in E. apply cons_eq in E as [E1 E]. unfold only_last. now rewrite !G, E1, E.
Qed.
Lemma complete_rel o o' d d' : oracle_ok o -> oracle_ok o' -> or_ms o = or_ms o' -> same_demuxer d d' -> rel_res same_out (on_probe_complete o d) (on_probe_complete o' d').
Proof.
  intros O O' M D. pose proof D as [Ed Ep]. unfold on_probe_complete. rewrite Ed. cbn [dm_completed dm_tracks dm_handler dm_packets dm_map with_packets with_completed with_tracks].
  destruct (dm_completed d); [split; [rewrite <- Ed; exact D|apply same_events_refl]|]. destruct (dm_tracks d) as [|s ts] eqn:T.
  { destruct (dm_handler d); [|exact I]. split; [split; [reflexivity|exact Ep]|apply same_events_refl]. }
  cbv zeta. rewrite <- T. rewrite (prepare_rel o o' _ _ (dm_tracks d) M Ep). destruct (negb (dm_handler d)); [exact I|].
  set (tr := prepare_tracks o' (dm_packets d') (dm_tracks d)). set (d3 := with_packets (with_tracks (with_completed d) tr (dm_map d)) (map only_last (dm_packets d))).
  match goal with |- rel_res _ _ (bind (forward_all ?x _) _) => set (d3' := x) end.
  assert (D3 : same_demuxer d3 d3').
  { split; [reflexivity|]. cbn [d3 d3' dm_packets with_packets]. rewrite !map_map. clear -Ep. revert Ep. generalize (dm_packets d) (dm_packets d'). induction l as [|a t IH]; intros [|b t'] E; try discriminate; [reflexivity|]. cbn [map] in *. apply cons_eq in E as [E1 E]. now rewrite (only_rel _ _ E1), (IH _ E). }
  eapply rel_bind with (R := loose).
  - assert (C : map untyped (List.concat (map all_but_last (dm_packets d))) = map untyped (List.concat (map all_but_last (dm_packets d')))).
    { rewrite !concat_map, !map_map. f_equal. clear -Ep. revert Ep. generalize (dm_packets d) (dm_packets d'). induction l as [|a t IH]; intros [|b t'] E; try discriminate; [reflexivity|]. cbn [map] in *. apply cons_eq in E as [E1 E]. unfold all_but_last at 1 3. rewrite !map_removelast, E1, (IH _ E). reflexivity. }
    destruct (O (List.concat (map all_but_last (dm_packets d)))) as [P _]. destruct (O' (List.concat (map all_but_last (dm_packets d')))) as [P' _].
    assert (Q : Permutation (map untyped (or_sort o (List.concat (map all_but_last (dm_packets d))))) (map untyped (or_sort o' (List.concat (map all_but_last (dm_packets d')))))).
    { eapply Permutation_trans; [apply Permutation_map, Permutation_sym, P|]. rewrite C. now apply Permutation_map. }
    apply perm_map in Q as (m & Q1 & Q2). eapply rel_trans; [exact loose_trans|apply forward_perm, Q1|now apply forward_each].
  - intros e e' L. split; [exact D3|]. cbn [snd]. apply same_events_app; [apply same_events_refl|]. apply (same_events_app [EvTrackComplete] [EvTrackComplete]); [apply same_events_refl|now apply loose_events].
Qed.
Lemma add_event p p' n : untyped p = untyped p' -> same_events [EvAdd p n] [EvAdd p' n].
Proof. intros E. unfold same_events. cbn. rewrite E. split; [reflexivity|apply Permutation_refl]. Qed.
Lemma map_firstn_skip {A B} (f : A -> B) n l l' : map f l = map f l' -> map f (firstn n l) = map f (firstn n l') /\ map f (skipn n l) = map f (skipn n l').
Proof. intros E. rewrite <- !firstn_map, <- !skipn_map, E. auto. Qed.
Lemma process_rel o o' d d' p p' : oracle_ok o -> oracle_ok o' -> or_ms o = or_ms o' -> same_demuxer d d' -> untyped p = untyped p' -> rel_res same_out (process_buffered_packet o d p) (process_buffered_packet o' d' p').
Proof.
  intros O O' M D E. pose proof D as [Ed Ep]. pose proof (untyped_eq _ _ E) as (_ & Edt & _ & Ei & _). unfold process_buffered_packet. rewrite <- Ei, <- (map_zlen _ _ _ Ep). set (n := zlen (dm_packets d)). cbv zeta.
  set (ps := if pk_index p <? n then dm_packets d else dm_packets d ++ [[]]). set (ps' := if pk_index p <? n then dm_packets d' else dm_packets d' ++ [[]]). set (k := if pk_index p <? n then pk_index p else n).
  assert (Eps : map (map untyped) ps = map (map untyped) ps') by (subst ps ps'; destruct (_ <? _); [exact Ep|now rewrite !map_app, Ep]).
  eapply rel_bind; [exact (idx_rel (map untyped) _ _ _ Eps)|]. intros l l' El. cbn beta in El. assert (El1 : map untyped (l ++ [p]) = map untyped (l' ++ [p'])) by (rewrite !map_app, El; cbn; now rewrite E).
  rewrite <- (map_zlen _ _ _ El1). set (prev := zlen (l ++ [p]) - 2).
  assert (W : forall q q', map (map untyped) q = map (map untyped) q' -> same_demuxer (with_packets d q) (with_packets d' q')) by (intros q q' Q; rewrite Ed; split; [reflexivity|exact Q]).
  destruct (prev <? 0).
  { eapply rel_bind; [exact (upd_rel (map untyped) _ _ _ _ _ Eps El1)|]. intros a b A. split; [now apply W|now apply add_event]. }
  eapply rel_bind; [exact (idx_rel untyped _ _ _ El1)|]. intros q q' Q. cbn beta in Q. pose proof (untyped_eq _ _ Q) as (_ & Qd & _). rewrite <- Edt, <- Qd.
  pose proof (untyped_duration _ _ (i64 (pk_dts p - pk_dts q)) Q) as Q1. eapply rel_bind; [exact (upd_rel untyped _ _ _ _ _ El1 Q1)|]. intros l2 l2' E2. cbn beta in E2.
  assert (Cd : dm_completed d' = dm_completed d) by now rewrite Ed. rewrite Cd. destruct (dm_completed d).
  - eapply rel_bind; [apply (upd_rel (map untyped)); [exact Eps|]|].
    { rewrite !map_app. destruct (map_firstn_skip untyped (Z.to_nat prev) _ _ E2) as [-> _]. destruct (map_firstn_skip untyped (S (Z.to_nat prev)) _ _ E2) as [_ ->]. reflexivity. }
    intros a b A. eapply rel_bind; [apply forward_rel; [now apply W|exact Q1]|]. intros e e' (F1 & F2 & F3). split; [now apply W|]. cbn [snd]. apply (same_events_app [_] [_]); [now apply add_event|]. apply loose_events. repeat split; auto. rewrite F1. apply Permutation_refl.
  - eapply rel_bind; [exact (upd_rel (map untyped) _ _ _ _ _ Eps E2)|]. intros a b A. cbn beta in A. rewrite (total_same o o' M _ _ (proj1 (map_firstn_skip untyped (Z.to_nat (prev + 1)) _ _ E2))).
    assert (Pb : dm_probe d' = dm_probe d) by now rewrite Ed. cbn [dm_probe with_packets]. rewrite Pb. destruct (_ <=? _); [|split; [now apply W|now apply add_event]].
    eapply rel_bind; [apply complete_rel; auto; now apply W|]. intros [d2 e] [d2' e'] [S2 S3]. split; [exact S2|]. cbn [snd]. apply (same_events_app [_] [_]); [now apply add_event|exact S3].
Qed.
Lemma one_left {A} (f : A -> Z) l b : NoDup (map f l) -> (length (filter (fun e => (f e =? b)%Z) l) <= 1)%nat.
Proof.
  induction l as [|x t IH]; intros N; [cbn; lia|]. cbn [map] in N. inversion N as [|? ? N1 N2]; subst. cbn [filter]. destruct (Z.eqb_spec (f x) b) as [E|E]; [|now apply IH]. cbn [length].
  destruct (filter (fun e => f e =? b) t) as [|y r] eqn:F; [cbn; lia|]. exfalso. apply N1. assert (I : In y (y :: r)) by now left. rewrite <- F in I. apply filter_In in I as [I Y]. apply Z.eqb_eq in Y. rewrite E, <- Y. now apply in_map.
Qed.
Lemma find_rel o o' d d' buf : same_demuxer d d' -> NoDup (map snd (dm_map d)) -> find_track o' d' buf = find_track o d buf.
Proof.
  intros [Ed _] N. rewrite Ed. unfold find_track. cbn [dm_map dm_tracks with_packets]. pose proof (one_left snd (dm_map d) buf N) as L. destruct (filter _ (dm_map d)) as [|x [|y r]]; [now destruct (_ mod _)%nat, (_ mod _)%nat| |cbn in L; lia].
  cbn [length]. now rewrite !Nat.mod_1_r.
Qed.
Definition same_track_out (x y : demuxer * option stream) : Prop := same_demuxer (fst x) (fst y) /\ snd x = snd y.
Lemma add_track_rel d d' s buf : same_demuxer d d' -> same_track_out (add_track d s buf) (add_track d' s buf).
Proof. intros [Ed Ep]. rewrite Ed. unfold add_track. cbn [dm_completed dm_tracks dm_map with_packets]. destruct (dm_completed d); split; try reflexivity; split; try reflexivity; exact Ep. Qed.
Lemma keep_rel d d' t : same_demuxer d d' -> same_track_out (d, t) (d', t).
Proof. intros D. split; [exact D|reflexivity]. Qed.
Lemma audio_track_rel d d' buf id tb extra c : same_demuxer d d' -> rel_res same_track_out (create_audio_track d buf id tb extra c) (create_audio_track d' buf id tb extra c).
Proof.
  intros D. assert (T : dm_tracks d' = dm_tracks d) by (destruct D as [Ed _]; now rewrite Ed). unfold create_audio_track. cbv zeta. rewrite T.
  destruct ((id =? AVCodecIdAAC) && negb (ac_has_adts c)); [|now apply add_track_rel]. destruct extra as [e|]; [|exact I]. destruct (parse_asc e); try exact I; [now apply add_track_rel|now apply keep_rel].
Qed.
Lemma video_track_rel o o' d d' buf id tb extra : or_grow o = or_grow o' -> same_demuxer d d' -> rel_res same_track_out (create_video_track o d buf id tb extra) (create_video_track o' d' buf id tb extra).
Proof.
  intros G D. assert (T : dm_tracks d' = dm_tracks d /\ dm_name d' = dm_name d) by (destruct D as [Ed _]; rewrite Ed; split; reflexivity). destruct T as [T N]. unfold create_video_track. rewrite T, N, G.
  destruct (generate_video_codec_data _ _ _ _); try exact I; [now apply add_track_rel|now apply keep_rel].
Qed.
Lemma step_rel o o' d d' a : oracle_ok o -> oracle_ok o' -> or_ms o = or_ms o' -> or_grow o = or_grow o' -> same_demuxer d d' -> NoDup (map snd (dm_map d)) -> rel_res same_out (step o d a) (step o' d' a).
Proof.
  intros O O' M G D N. pose proof D as [Ed Ep].
  assert (F : dm_tracks d' = dm_tracks d /\ dm_name d' = dm_name d /\ dm_completed d' = dm_completed d /\ dm_pre d' = dm_pre d) by (rewrite Ed; repeat split). destruct F as (Ft & Fn & Fc & Fp).
  destruct a; cbn [step].
  - unfold on_new_audio_track. rewrite Ft, Fn. eapply rel_bind with (R := same_track_out).
    + destruct (tm_find_type _ _); [destruct (_ =? _)%string; [now apply audio_track_rel|now apply keep_rel]|now apply audio_track_rel].
    + intros [d1 t1] [d2 t2] [D1 _]. split; [exact D1|apply same_events_refl].
  - unfold on_new_video_track. rewrite Ft, Fn. eapply rel_bind with (R := same_track_out).
    + destruct (tm_find_type _ _); [destruct (_ =? _)%string; [now apply video_track_rel|now apply keep_rel]|now apply video_track_rel].
    + intros [d1 t1] [d2 t2] [D1 _]. split; [exact D1|apply same_events_refl].
  - unfold on_audio_packet. rewrite (find_rel o o' d d' buf D N), Fc, Fn. destruct (find_track o d buf) as [track| | |]; cbn [bind]; try exact I. eapply rel_bind with (R := same_track_out).
    + destruct track as [t|]; [now apply keep_rel|]. destruct (dm_completed d); [now apply keep_rel|]. destruct (extract_audio_extra_data id data) as [[[extra x] config]| | |]; try exact I; [|now apply keep_rel].
      destruct (get_timebase (dm_name d)); cbn [bind]; try exact I. now apply audio_track_rel.
    + intros [d1 t1] [d2 t2] [D1 E1]. cbn [fst snd] in *. subst t2. destruct t1 as [s|]; [|split; [exact D1|apply same_events_refl]]. apply process_rel; auto. unfold pool_packet. destruct (or_recycled o), (or_recycled o'); reflexivity.
  - unfold on_video_packet. rewrite (find_rel o o' d d' buf D N), Fc, Fn, Ft. destruct (find_track o d buf) as [track| | |]; cbn [bind]; try exact I. eapply rel_bind with (R := same_track_out).
    + destruct track as [t|]; [now apply keep_rel|]. destruct (_ && _); [|now apply keep_rel]. destruct (if key then _ else _) as [extra| | |]; cbn [bind]; try exact I.
      destruct (match extra with Some e => _ | None => _ end) as [[e|]| | |]; cbn [bind]; try exact I; [|now apply keep_rel]. destruct (get_timebase (dm_name d)); cbn [bind]; try exact I. now apply video_track_rel.
    + intros [d1 t1] [d2 t2] [D1 E1]. cbn [fst snd] in *. subst t2. destruct t1 as [s|]; [|split; [exact D1|apply same_events_refl]].
      assert (Q : dm_name d2 = dm_name d1 /\ dm_pre d2 = dm_pre d1) by (destruct D1 as [E1 _]; rewrite E1; split; reflexivity). destruct Q as [-> ->]. apply process_rel; auto.
      replace (init_video (pool_packet o')) with (init_video (pool_packet o)); [reflexivity|]. unfold pool_packet. destruct (or_recycled o), (or_recycled o'); reflexivity.
  - now apply complete_rel.
  - unfold try_complete_probe. replace (need_more d') with (need_more d); [destruct (need_more d); [split; [exact D|apply same_events_refl]|now apply complete_rel]|].
    unfold need_more. rewrite Ft. generalize (dm_tracks d). induction l as [|s t IH]; [reflexivity|]. cbn [existsb]. rewrite IH. f_equal. f_equal. pose proof (idx_rel (map untyped) _ _ (st_index s) Ep) as X. destruct (idx (dm_packets d) _) as [x|], (idx (dm_packets d') _) as [y|]; cbn in X; try contradiction; [|reflexivity].
    now rewrite (map_zlen _ _ _ X).
  - split; [|apply same_events_refl]. rewrite Ed. split; [reflexivity|exact Ep].
  - split; [|apply same_events_refl]. rewrite Ed. split; [reflexivity|exact Ep].
  - split; [|apply same_events_refl]. rewrite Ed. split; [reflexivity|exact Ep].
  - split; [|apply same_events_refl]. rewrite Ed. split; [reflexivity|exact Ep].
  - split; [|apply same_events_refl]. rewrite Ed. split; [reflexivity|exact Ep].
  - rewrite Ed. unfold find_buffer_index. cbn [dm_ordered with_packets]. destruct (marker_index _ _ _); split; try apply same_events_refl; [rewrite <- Ed; exact D|split; [reflexivity|exact Ep]].
  - split; [exact D|apply same_events_refl].
  - split; [exact D|apply same_events_refl].
Qed.
Lemma run_rel h : forall h' d d', Forall sorting h -> Forall sorting h' -> Forall2 same_call h h' -> same_demuxer d d' ->
  (forall h1 h2 dx e, h = h1 ++ h2 -> run d h1 = Ok (dx, e) -> NoDup (map snd (dm_map dx))) -> rel_res same_out (run d h) (run d' h').
Proof.
  induction h as [|[o a] t IH]; intros h' d d' F F' C D N; inversion C as [|x y ? t' Sc Ct]; subst; [split; [exact D|apply same_events_refl]|].
  destruct y as [o' a']. destruct Sc as (Ea & M & G). cbn [fst snd] in *. subst a'. inversion F as [|? ? So F1]; subst. inversion F' as [|? ? So' F1']; subst. cbn [run].
  assert (N0 : NoDup (map snd (dm_map d))) by exact (N [] _ d [] eq_refl eq_refl).
  pose proof (step_rel o o' d d' a So So' M G D N0) as S. destruct (step o d a) as [[d1 e1]| | |] eqn:S1, (step o' d' a) as [[d2 e2]| | |]; cbn in S; try contradiction; try exact I. destruct S as [D1 E1]. cbn [fst snd bind] in *.
  eapply rel_bind; [apply (IH t' d1 d2 F1 F1' Ct D1)|].
  - intros h1 h2 dx e -> R. apply (N ((o, a) :: h1) h2 dx (e1 ++ e) eq_refl). cbn [run]. rewrite S1. cbn [bind]. now rewrite R.
  - intros [d3 e3] [d4 e4] [D3 E3]. split; [exact D3|]. now apply same_events_app.
Qed.
Lemma accepted_other l : map untyped (accepted l) = map untyped (accepted (other l)).
Proof. induction l as [|[] t IH]; cbn; try exact IH; try (f_equal; exact IH). Qed.
Lemma accepted_untyped l : map untyped (accepted l) = accepted (map untyped_ev l).
Proof. induction l as [|[] t IH]; cbn; try exact IH; f_equal; exact IH. Qed.
Lemma delivered_untyped l : map untyped (delivered l) = delivered (map untyped_ev l).
Proof. induction l as [|[] t IH]; cbn; try exact IH; f_equal; exact IH. Qed.
Lemma same_accepted e e' : same_events e e' -> map untyped (accepted e) = map untyped (accepted e').
Proof. intros [E _]. now rewrite (accepted_other e), (accepted_other e'), !accepted_untyped, E. Qed.
Lemma same_delivered e e' : same_events e e' -> Permutation (map untyped (delivered e)) (map untyped (delivered e')).
Proof. intros [_ P]. rewrite !delivered_untyped. unfold delivered. now apply Permutation_flat_map. Qed.
Lemma index_untyped i l : map untyped (of_index i l) = of_index i (map untyped l).
Proof. induction l as [|p t IH]; [reflexivity|]. unfold of_index in *. cbn [map filter]. change (pk_index (untyped p)) with (pk_index p). destruct (pk_index p =? i); cbn [map]; now rewrite IH. Qed.
Lemma durs_untyped : forall l, map untyped (durs l) = durs (map untyped l).
Proof.
  induction l as [|p [|q t] IH]; [reflexivity|reflexivity|]. change (durs (p :: q :: t)) with (set_duration p (i64 (pk_dts q - pk_dts p)) :: durs (q :: t)). cbn [map] in *. rewrite IH. reflexivity.
Qed.
Lemma ascending_untyped l l' : map untyped l = map untyped l' -> ascending l -> ascending l'.
Proof.
  intros E A. assert (K : map pk_dts l = map pk_dts l') by (assert (M : forall l, map pk_dts (map untyped l) = map pk_dts l) by (intros; now rewrite map_map); now rewrite <- (M l), E, M).
  clear E. revert l' K. induction A as [|x l A IH Fa]; intros [|y l'] K; try discriminate; [constructor|]. cbn [map] in K. apply cons_eq in K as [K1 K]. constructor; [now apply IH|].
  apply Forall_forall. intros z I. unfold dts_lt. rewrite <- K1. apply (in_map pk_dts) in I. rewrite <- K in I. apply in_map_iff in I as (w & <- & I). rewrite Forall_forall in Fa. exact (Fa _ I).
Qed.
Lemma aligned_adds l : aligned l <-> Forall (fun x => 0 <= fst x <= snd x) (flat_map (fun e => match e with EvAdd p n => [(pk_index p, n)] | _ => [] end) l).
Proof.
  induction l as [|e t IH]; [split; constructor|]. unfold aligned in *. rewrite Forall_cons_iff, IH. destruct e; cbn [flat_map app]; try tauto. rewrite Forall_cons_iff. cbn [fst snd]. tauto.
Qed.
Lemma adds_same e e' : same_events e e' -> flat_map (fun e => match e with EvAdd p n => [(pk_index p, n)] | _ => [] end) e = flat_map (fun e => match e with EvAdd p n => [(pk_index p, n)] | _ => [] end) e'.
Proof.
  set (f := fun e : event => match e with EvAdd p n => [(pk_index p, n)] | _ => [] end). intros [E _].
  assert (K : forall l, flat_map f l = flat_map f (map untyped_ev (other l))) by (induction l as [|[] t IH]; cbn; try exact IH; f_equal; exact IH).
  now rewrite K, E, <- K.
Qed.
Lemma aligned_same e e' : same_events e e' -> aligned e -> aligned e'.
Proof. intros S A. apply aligned_adds. rewrite <- (adds_same _ _ S). now apply aligned_adds. Qed.
(** What one call delivers is in ascending order. *)
Lemma step_sorted o d a d' e : wf d -> oracle_ok o -> step o d a = Ok (d', e) -> Sorted dts_le (delivered e).
Proof.
  intros W O S.
  assert (K : forall d1 e1, on_probe_complete o d1 = Ok (d', e1) -> Sorted dts_le (delivered e1)).
  { intros d1 e1 P. apply complete_cases in P as [(_ & _ & ->)|[(_ & _ & _ & ->)|(_ & _ & _ & e' & F & ->)]]; [constructor|constructor|].
    apply forward_all_events in F as (_ & F & _). rewrite !delivered_app, delivered_new_tracks, F. cbn. apply O. }
  destruct (step_cases _ _ _ _ _ W S) as [(_ & Q & _)|[(buf & s & _ & _ & _ & _ & Q)|[(buf & id & data & dts & _ & P)|(_ & P)]]]; [| | |eapply K; eauto].
  1,2: apply quiet_facts in Q as (_ & _ & ->); constructor.
  destruct P as [(_ & ->)|(d1 & i & s & p & G & _ & _ & _ & _ & _ & _ & _ & _ & _ & P)]; [constructor|].
  apply process_cases in P as (k & l & _ & _ & [(_ & _ & ->)|[(l' & q & e' & _ & _ & _ & F & ->)|(e' & _ & _ & _ & P & ->)]]); [constructor| |].
  - apply forward_packet_events in F as (_ & F & _). unfold delivered in *. cbn [flat_map app]. rewrite F. repeat constructor.
  - unfold delivered in *. cbn [flat_map app]. eapply K. exact P.
Qed.
Lemma sorted_same l l' : Permutation l l' -> StronglySorted Z.le l -> StronglySorted Z.le l' -> l = l'.
Proof.
  revert l'. induction l as [|x t IH]; intros l' P S S'; [now apply Permutation_nil in P|].
  destruct l' as [|y t']; [apply Permutation_sym, Permutation_nil in P; discriminate|]. inversion S as [|? ? S1 F1]; subst. inversion S' as [|? ? S2 F2]; subst. rewrite Forall_forall in F1, F2.
  assert (x = y).
  { assert (A : In x (y :: t')) by (eapply Permutation_in; [exact P|now left]). assert (B : In y (x :: t)) by (eapply Permutation_in; [apply Permutation_sym; exact P|now left]).
    destruct A as [A|A]; [now symmetry|]. destruct B as [B|B]; [assumption|]. specialize (F1 _ B). specialize (F2 _ A). lia. }
  subst y. f_equal. apply IH; auto. eapply Permutation_cons_inv, P.
Qed.
Lemma times_same l l' : Permutation (map untyped l) (map untyped l') -> Sorted dts_le l -> Sorted dts_le l' -> map pk_dts l = map pk_dts l'.
Proof.
  intros P S S'. assert (M : forall l, map pk_dts (map untyped l) = map pk_dts l) by (intros; now rewrite map_map).
  assert (T : forall l, Sorted dts_le l -> StronglySorted Z.le (map pk_dts l)).
  { intros m Sm. apply Sorted_StronglySorted in Sm; [|intros a b c; unfold dts_le; lia]. induction Sm as [|x t _ IH Fa]; [constructor|]. cbn [map]. constructor; [exact IH|]. apply Forall_map. exact Fa. }
  apply sorted_same; auto. rewrite <- (M l), <- (M l'). now apply Permutation_map.
Qed.
Lemma run_times h : forall h' d d' dx e dy e', wf d -> wf d' -> Forall sorting h -> Forall sorting h' -> Forall2 same_call h h' -> same_demuxer d d' ->
  (forall h1 h2 dx e, h = h1 ++ h2 -> run d h1 = Ok (dx, e) -> NoDup (map snd (dm_map dx))) -> run d h = Ok (dx, e) -> run d' h' = Ok (dy, e') -> map pk_dts (delivered e) = map pk_dts (delivered e').
Proof.
  induction h as [|[o a] t IH]; intros h' d d' dx e dy e' W W' F F' C D N R R'; inversion C as [|x y ? t' Sc Ct]; subst; cbn [run] in R, R'.
  - injection R as <- <-. injection R' as <- <-. reflexivity.
  - destruct y as [o' a']. destruct Sc as (Ea & M & G). cbn [fst snd] in *. subst a'. inversion F as [|? ? So F1]; subst. inversion F' as [|? ? So' F1']; subst. cbn [run] in R'.
    assert (N0 : NoDup (map snd (dm_map d))) by exact (N [] _ d [] eq_refl eq_refl).
    pose proof (step_rel o o' d d' a So So' M G D N0) as S. destruct (step o d a) as [[d1 e1]| | |] eqn:S1; cbn [bind] in R; try discriminate. destruct (step o' d' a) as [[d2 e2]| | |] eqn:S2; cbn [bind] in R'; try discriminate. destruct S as [D1 E1]. cbn [fst snd] in *.
    destruct (run d1 t) as [[d3 e3]| | |] eqn:R1; cbn [bind] in R; try discriminate. destruct (run d2 t') as [[d4 e4]| | |] eqn:R2; cbn [bind] in R'; try discriminate. injection R as <- <-. injection R' as <- <-.
    rewrite !delivered_app, !map_app. f_equal.
    + apply times_same; [now apply same_delivered|exact (step_sorted o d a d1 e1 W So S1)|exact (step_sorted o' d' a d2 e2 W' So' S2)].
    + refine (IH t' d1 d2 d3 e3 d4 e4 (step_wf o d a d1 e1 W S1) (step_wf o' d' a d2 e2 W' S2) F1 F1' Ct D1 _ R1 R2).
      intros h1 h2 dz ez Et Rz. apply (N ((o, a) :: h1) h2 dz (e1 ++ ez)); [now rewrite Et|]. cbn [run]. rewrite S1. cbn [bind]. now rewrite Rz.
Qed.

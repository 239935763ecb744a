(** * RecordingProofs: the files hold what the handler on by-value packets writes. *)
From Coq Require Import String List Permutation.
From Verif Require Import Base CollectionsSpec BlockModel BlockSpec PacketModel DemuxModel DemuxProofs DeliverySpec DeliveryProofs HandlerModel HandlerSpec HandlerProofs
  SystemSpec SystemProofs SystemGrowSpec SystemGrowProofs RecordingModel.
Import ListNotations.
Local Open Scope list_scope.

Lemma with_data_same p : with_data p (pk_data p) = p.
Proof. now destruct p. Qed.

Lemma rec_events_same path cur h l : forall s k f s1 k1 out, sys_events cur h s k l = Ok (s1, k1, out) -> Forall (fun x => snd x = pk_data (fst x)) out ->
  rec_events path cur h s k f l = (f1 <- fh_session path f l;; Ok (s1, k1, f1)).
Proof.
  induction l as [|e t IH]; intros s k f s1 k1 out E F; cbn [sys_events rec_events fh_session] in *.
  - injection E as <- <- <-. reflexivity.
  - destruct e; cbn [fh_event bind] in *; try (eapply IH; eassumption).
    all: try (destruct (fh_new_track path f _) as [f1| | |]; cbn [bind]; [eapply IH; eassumption|reflexivity..]).
    all: try (destruct cur; cbn [of_opt bind] in *; [eapply IH; eassumption|discriminate]).
    all: try (destruct (sb_discard_head s _); cbn [bind] in *; try discriminate; eapply IH; eassumption).
    all: try (destruct (sb_discard_back s _); cbn [bind] in *; try discriminate; eapply IH; eassumption).
    destruct (take_held _ _ k) as [[sl k2]|]; cbn [of_opt bind] in *; [|discriminate].
    destruct (read h sl) as [b| | |]; cbn [bind] in *; try discriminate.
    destruct (sys_events cur h s k2 t) as [[[s2 k3] o2]| | |] eqn:E2; cbn [bind] in *; try discriminate. injection E as <- <- <-.
    apply Forall_cons_iff in F as [F1 F2]. cbn [fst snd] in F1. subst b. rewrite with_data_same.
    destruct (fh_on_packet f p) as [[f1 p1]| | |]; cbn [bind]; [|reflexivity..]. eapply IH; eassumption.
Qed.

Lemma supply_fit y d a o chunks : sys_synced y d -> call_fits y ((o, a), chunks) -> exists h s cur, supply (sy_heap y) (sy_bufs y) a chunks = Ok (h, s, a, cur).
Proof.
  intros (_ & G & [(own & Rm) _] & _) Su. unfold call_fits in Su. cbn [fst snd] in Su. unfold supply.
  destruct (call_block a) as [[buf data]|] eqn:Cb; [|eauto]. destruct Su as (Ec & Nc & Hb & Cf).
  destruct (rings_block _ _ _ _ buf (call_video a) chunks Rm Hb Nc (gq_complete _) Cf) as (h1 & s1 & s2 & own2 & sl & rb & E1 & E2 & E3 & _).
  rewrite E1. cbn [bind]. rewrite E2. cbn [bind of_opt]. rewrite E3. cbn [bind]. rewrite Ec, (with_block_same _ _ _ Cb). eauto.
Qed.

Lemma rec_step_same path y f d o a chunks d' e y' out : sys_synced y d -> call_fits y ((o, a), chunks) -> step o d a = Ok (d', e) ->
  sys_step y ((o, a), chunks) = Ok (y', out) -> Forall (fun x => snd x = pk_data (fst x)) out ->
  rec_step path y f ((o, a), chunks) = (f1 <- fh_session path f e;; Ok (y', f1)).
Proof.
  intros Sy Fi S E F. destruct (supply_fit _ _ _ _ _ Sy Fi) as (h & s & cur & Es). unfold sys_step, rec_step in *. rewrite Es in *. cbn [bind] in *.
  destruct Sy as (Ed & _). rewrite Ed, S in *. cbn [bind] in *. destruct (sys_events cur h s (sy_held y) e) as [[[s2 k2] o2]| | |] eqn:E2; cbn [bind] in *; try discriminate.
  injection E as <- <-. rewrite (rec_events_same _ _ _ _ _ _ f _ _ _ E2 F). destruct (fh_session path f e); reflexivity.
Qed.

Lemma rec_run_snoc path l c : forall y f, rec_run path y f (l ++ [c]) = ('(y1, f1) <- rec_run path y f l;; rec_step path y1 f1 c).
Proof.
  induction l as [|x t IH]; intros y f; cbn [app rec_run bind].
  - destruct (rec_step path y f c) as [[y1 f1]| | |]; reflexivity.
  - destruct (rec_step path y f x) as [[y1 f1]| | |]; cbn [bind]; [apply IH|reflexivity..].
Qed.
Lemma fh_session_app path a b : forall f, fh_session path f (a ++ b) = (f1 <- fh_session path f a;; fh_session path f1 b).
Proof. induction a as [|e t IH]; intros f; cbn [app fh_session bind]; [reflexivity|]. destruct (fh_event path f e); cbn [bind]; [apply IH|reflexivity..]. Qed.

Lemma reach_rec path f0 name o0 c0 l : forall d evs, let h := map fst l in
  Forall well_behaved ((o0, OpSetAutoFree true) :: h) -> Forall delivery_op h -> run (dm_new name) ((o0, OpSetAutoFree true) :: h) = Ok (d, evs) ->
  aligned evs -> NoDup (map snd (dm_map d)) ->
  sys_fits (sys_new name) (((o0, OpSetAutoFree true), c0) :: l) ->
  exists y out, sys_run (sys_new name) (((o0, OpSetAutoFree true), c0) :: l) = Ok (y, out) /\ sys_synced y d /\ Forall (fun x => snd x = pk_data (fst x)) out /\
    rec_run path (sys_new name) f0 (((o0, OpSetAutoFree true), c0) :: l) = (f <- fh_session path f0 evs;; Ok (y, f)).
Proof.
  induction l as [|[[o a] chunks] t IH] using rev_ind; intros d evs h F D R Al N Su.
  - cbn in R. injection R as <- <-. destruct (reach_fit name o0 c0 [] (with_autofree (dm_new name) true) []) as (y & out & E & Sy & _ & Fo); auto.
    exists y, out. split; [exact E|]. split; [exact Sy|]. split; [exact Fo|]. cbn in E. injection E as <- _. reflexivity.
  - pose proof (reach_fit name o0 c0 _ d evs F D R Al N Su) as (y2 & out2 & E2 & Sy2 & _ & Fo2). exists y2, out2. split; [exact E2|]. split; [exact Sy2|]. split; [exact Fo2|].
    subst h. rewrite map_app in F, D, R. cbn [map fst] in F, D, R. rewrite app_comm_cons in *. apply Forall_app in F as [F Fa]. apply Forall_app in D as [D Da]. apply Forall_inv in Da.
    rewrite run_app in R. destruct (run (dm_new name) ((o0, OpSetAutoFree true) :: map fst t)) as [[d1 e1]| | |] eqn:R1; cbn [bind] in R; try discriminate.
    cbn [run bind] in R. destruct (step o d1 a) as [[d2 e2]| | |] eqn:S; cbn [bind] in R; try discriminate. injection R as <- <-. rewrite app_nil_r in *.
    pose proof (reach_live _ _ _ _ F R1) as Lv. pose proof (reach_calm _ _ _ _ _ D R1) as C. destruct (step_calm _ _ _ _ _ (proj1 Lv) C Da S) as [_ (m & Em)].
    assert (N1 : NoDup (map snd (dm_map d1))) by (rewrite Em, map_app in N; now apply NoDup_app_l in N).
    unfold aligned in Al. apply Forall_app in Al as [Al1 _]. apply sys_fits_snoc in Su as [Su1 Su2].
    destruct (IH d1 e1 F D R1 Al1 N1 Su1) as (y & out & E & Sy & Fo & Er). specialize (Su2 _ _ E). rewrite sys_run_snoc, E in E2. cbn [bind] in E2.
    destruct (sys_step y ((o, a), chunks)) as [[y' out']| | |] eqn:E3; cbn [bind] in E2; try discriminate. injection E2 as <- <-. apply Forall_app in Fo2 as [_ Fo2].
    rewrite rec_run_snoc, Er, fh_session_app. destruct (fh_session path f0 e1) as [f1| | |]; cbn [bind]; [|reflexivity..]. eapply rec_step_same; eauto.
Qed.

(** ** Tracks that are not video *)
Lemma written_plain tracks j : forall ps ws, Forall2 (writes_of tracks) ps ws -> Forall (fun p => pk_media p <> AVMediaTypeVideo) (of_index (Z.of_nat j) ps) ->
  written ps ws j = concat (map pk_data (of_index (Z.of_nat j) ps)).
Proof.
  unfold written, of_index. induction 1 as [|p w ps ws Hw _ IH]; intros F; [reflexivity|]. cbn [combine filter fst] in *. rewrite (Z.eqb_sym (Z.of_nat j)).
  destruct (pk_index p =? Z.of_nat j); [|now apply IH]. apply Forall_cons_iff in F as [Fp F]. cbn [map snd concat]. rewrite concat_app, IH by exact F. f_equal.
  destruct Hw as (d & A & ->). unfold access_unit in A. replace (AVMediaTypeVideo =? pk_media p) with false in * by lia. cbn [andb concat]. now rewrite app_nil_r.
Qed.
Lemma durs_data l : map pk_data (durs l) = map pk_data l /\ map pk_media (durs l) = map pk_media l.
Proof. induction l as [|p [|q t] [IH1 IH2]]; [split; reflexivity..|]. change (durs (p :: q :: t)) with (set_duration p (i64 (pk_dts q - pk_dts p)) :: durs (q :: t)). cbn [map]. rewrite IH1, IH2. split; reflexivity. Qed.
Lemma map_removelast {A B} (f : A -> B) l : map f (removelast l) = removelast (map f l).
Proof. induction l as [|a [|b t] IH]; [reflexivity..|]. cbn [removelast map] in *. now rewrite IH. Qed.

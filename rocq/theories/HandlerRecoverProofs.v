(** * Proofs about the file handler whose panics are recovered. *)
From Coq Require Import String.
From Verif Require UtilModel.
From Verif Require Import Base RingProofs AacModel PacketModel PacketProofs DemuxModel DemuxProofs HandlerModel HandlerSpec HandlerProofs HandlerFaultModel HandlerFaultProofs HandlerRecoverSpec HandlerRecoverModel.
From Coq Require Import List.
Import ListNotations.
Local Open Scope list_scope.

(** ** The invariant: as [fh_ok], but tracks may be without a file *)
Definition fr_ok (h : file_handler) : Prop := NoDup (map fst (fh_files h)) /\ Forall (fun f => 0 <= snd f <= zlen (fh_disk h (fst f))) (fh_files h).

Lemma fr_advanced h W h' : fr_ok h -> advanced h W h' -> fr_ok h'.
Proof.
  intros (N & F) Ad. pose proof (advanced_names _ _ _ Ad) as En. destruct Ad as (T & L' & A & _). split; [now rewrite En|].
  apply Forall_forall. intros [n pos'] I. apply In_nth_error in I as [j J]. assert (Hj : (j < length (fh_files h))%nat) by (rewrite <- L'; apply nth_error_Some; congruence).
  destruct (nth_error (fh_files h) j) as [[n0 pos]|] eqn:E; [|apply nth_error_None in E; lia]. destruct (A j n0 pos E) as [E1 E2]. rewrite E1 in J. injection J as <- <-. cbn [fst snd].
  rewrite E2. rewrite Forall_forall in F. apply nth_error_In in E. apply F in E. cbn [fst snd] in E. pose proof (overwrite_len (fh_disk h n0) pos (W j) E). pose proof (zlen_nonneg (W j)). lia.
Qed.
Lemma fr_trans h W h1 V h2 : fr_ok h -> advanced h W h1 -> advanced h1 V h2 -> advanced h (fun j => W j ++ V j) h2.
Proof.
  intros (_ & F) A1 A2. pose proof (advanced_names _ _ _ A1) as En. destruct A1 as (T1 & L1 & A1 & O1), A2 as (T2 & L2 & A2 & O2). split; [congruence|]. split; [congruence|]. split.
  - intros j n pos E. destruct (A1 j n pos E) as [E1 D1]. destruct (A2 j n _ E1) as [E2 D2]. rewrite E2, D2, D1, zlen_app. split; [f_equal; f_equal; lia|].
    apply overwrite_app. rewrite Forall_forall in F. apply nth_error_In in E. now apply F in E.
  - intros n I. rewrite O2, O1; auto. now rewrite En.
Qed.
Lemma fr_refl h : fr_ok h -> advanced h (fun _ => []) h.
Proof.
  intros (_ & F). split; [reflexivity|]. split; [reflexivity|]. split; [|reflexivity]. intros j n pos E. change (zlen (@nil Z)) with 0. rewrite Z.add_0_r, overwrite_nil; auto.
  rewrite Forall_forall in F. apply nth_error_In in E. now apply F in E.
Qed.
Lemma only_nil i j : only i [] j = [].
Proof. unfold only. now destruct (_ =? _). Qed.
Lemma fr_write h i d h' : fr_ok h -> fh_write h i d = Ok h' -> advanced h (only i d) h'.
Proof.
  intros (N & F). unfold fh_write. destruct (idx (fh_files h) i) as [[n pos]|] eqn:E; cbn [of_opt bind]; [|discriminate].
  pose proof (idx_inv _ _ _ E) as B. rewrite upd_eq by exact B. cbn [of_opt bind]. intros [= <-]. rewrite idx_nth in E by lia.
  split; [reflexivity|]. cbn [fh_files fh_disk]. split; [apply set_nth_length|]. rewrite Forall_forall in F. split.
  - intros j m q J. unfold only. destruct (Z.of_nat j =? i) eqn:Ej.
    + replace (Z.to_nat i) with j in * by lia. rewrite set_nth_same by (apply nth_error_Some; congruence). rewrite E in J. injection J as <- <-. split; [reflexivity|].
      unfold disk_set. now rewrite String.eqb_refl.
    + rewrite set_nth_other by lia. rewrite J. change (zlen (@nil Z)) with 0. rewrite Z.add_0_r. split; [reflexivity|]. rewrite overwrite_nil by (apply nth_error_In in J; apply F in J; cbn in J; lia).
      unfold disk_set. destruct (String.eqb_spec m n) as [->|]; [|reflexivity]. exfalso.
      assert (j = Z.to_nat i); [|lia]. rewrite NoDup_nth_error in N. apply N; [rewrite map_length; apply nth_error_Some; congruence|].
      change n with (fst (n, q)) in J at 1. rewrite (map_nth_error fst _ _ J), (map_nth_error fst _ _ E). reflexivity.
  - intros m I. unfold disk_set. destruct (String.eqb_spec m n) as [->|]; [|reflexivity]. exfalso. apply I. apply nth_error_In in E. change n with (fst (n, pos)). now apply in_map.
Qed.

(** ** Writing *)
Fixpoint fx_writes (flt : faults) (i : Z) (w : list (list Z)) : fx unit :=
  match w with [] => fx_of (Ok tt) | d :: r => fx_bind (fx_write flt i d) (fun _ => fx_writes flt i r) end.
Lemma fx_writes_store flt i w : forall h k, fr_ok h -> 0 <= i < zlen (fh_files h) -> let '(h', k', r) := fx_writes flt i w h k in
  exists c b, store flt k w = (c, k', b) /\ r = (if b then Ok tt else Panic) /\ advanced h (only i c) h'.
Proof.
  induction w as [|d w IH]; intros h k H B; cbn [fx_writes store fx_of].
  - exists [], true. split; [reflexivity|]. split; [reflexivity|]. eapply advanced_ext; [|now apply fr_refl]. intros j. now rewrite only_nil.
  - unfold fx_bind, fx_write. destruct (flt k) as [n|] eqn:Ef.
    + destruct (fh_write_total h i (firstn (Z.to_nat n) d) B) as [h1 E1]. rewrite E1. exists (firstn (Z.to_nat n) d), false. split; [reflexivity|]. split; [reflexivity|]. now apply fr_write.
    + destruct (fh_write_total h i d B) as [h1 E1]. rewrite E1. apply fr_write in E1; [|exact H]. assert (L : length (fh_files h1) = length (fh_files h)) by apply E1.
      specialize (IH h1 (S k) (fr_advanced _ _ _ H E1)). unfold zlen in IH at 1. rewrite L in IH. specialize (IH B).
      destruct (fx_writes flt i w h1 (S k)) as [[h2 k2] r2]. destruct IH as (c & b & Es & Er & A). rewrite Es. exists (d ++ c), b. split; [reflexivity|]. split; [exact Er|].
      eapply advanced_ext; [|eapply fr_trans; eauto]. intros j. unfold only. now destruct (_ =? _).
Qed.
Lemma fx_write_out flt i d h k : ~ (0 <= i < zlen (fh_files h)) -> fx_write flt i d h k = (h, k, Panic).
Proof. intros B. unfold fx_write, fh_write. destruct (idx (fh_files h) i) as [f|] eqn:E; [apply idx_inv in E; lia|]. cbn [of_opt bind]. now destruct (flt k). Qed.

(** ** One packet *)
Lemma writes_nonempty ts p w : writes_of ts p w -> w <> [].
Proof.
  intros (d & _ & ->). destruct ((AVMediaTypeVideo =? pk_media p) && pk_key p && (PacketTypeAVCC =? pk_type p)); [|discriminate].
  destruct (idx ts (pk_index p)) as [s|]; [destruct (st_params s)|]; discriminate.
Qed.
Lemma fx_writes_nonempty flt i w h k : w <> [] -> ~ (0 <= i < zlen (fh_files h)) -> fx_writes flt i w h k = (h, k, Panic).
Proof. intros N B. destruct w as [|d w]; [congruence|]. cbn [fx_writes]. unfold fx_bind. now rewrite fx_write_out. Qed.
Lemma fx_bind_of {A} (m : fx A) h k : forall (f : A -> fx A), (forall a, f a = fx_of (Ok a)) -> fx_bind m f h k = m h k.
Proof. intros f E. unfold fx_bind. destruct (m h k) as [[h1 k1] [a| | |]]; auto. now rewrite E. Qed.
(** A packet is dropped before any write, or its writes are done in order. *)
Lemma fx_packet_writes flt p h k :
  (exists m w, UtilModel.media_string (pk_media p) = Ok m /\ writes_of (fh_tracks h) p w /\ fx_on_packet flt p h k = fx_writes flt (pk_index p) w h k) \/
  (exists r, (forall w, ~ ((exists m, UtilModel.media_string (pk_media p) = Ok m) /\ writes_of (fh_tracks h) p w)) /\ r <> Ok tt /\ fx_on_packet flt p h k = (h, k, r)).
Proof.
  assert (Sw : forall i d h0 k0, fx_write flt i d h0 k0 = fx_writes flt i [d] h0 k0).
  { intros i d h0 k0. cbn [fx_writes]. symmetry. apply fx_bind_of. now intros []. }
  remember (fx_on_packet flt p h k) as R eqn:ER. unfold fx_on_packet in ER. unfold fx_bind at 1 in ER. unfold fx_of at 1 in ER. destruct (UtilModel.media_string (pk_media p)) as [m| | |];
    try (right; eexists; split; [intros w [[m M] _]; discriminate|split; [|exact ER]; discriminate]).
  destruct (AVMediaTypeVideo =? pk_media p) eqn:Ev.
  - unfold fx_bind at 1 in ER. unfold tm_get in ER. destruct (idx (fh_tracks h) (pk_index p)) as [s|] eqn:Es; cbn [of_opt] in ER.
    2:{ right. exists Panic. split; [|split; [discriminate|exact ER]]. intros w (_ & d & A & _). unfold access_unit in A. rewrite Ev in A. destruct A as (s & p1 & X & _). congruence. }
    unfold fx_bind at 1 in ER. unfold fx_of at 1 in ER. destruct (avcc_packet_to_annexb s p) as [[p1 d]| | |] eqn:Ed;
      try (right; eexists; split; [intros w (_ & d & A & _); unfold access_unit in A; rewrite Ev in A; destruct A as (s' & p1 & X & Y); rewrite Es in X; injection X as <-; rewrite Ed in Y; discriminate|split; [|exact ER]; discriminate]).
    left. destruct (conv_same _ _ _ _ Ed) as (Ek & Ety & Ei). rewrite Ei, Ek, Ety in ER. exists m.
    exists (match (if pk_key p && (PacketTypeAVCC =? pk_type p) then Some s else None) with Some s => match st_params s with Some c => [cd_annexb c; d] | None => [d] end | None => [d] end).
    split; [reflexivity|]. split.
    + exists d. split; [unfold access_unit; rewrite Ev; exists s, p1; auto|]. rewrite Ev. cbn [andb]. destruct (pk_key p && _); [now rewrite Es|reflexivity].
    + subst R. destruct (pk_key p && _); [destruct (st_params s) as [c|]|].
      * cbn [fx_writes]. unfold fx_bind at 1. unfold fx_bind at 1. destruct (fx_write flt (pk_index p) (cd_annexb c) h k) as [[h1 k1] [[]| | |]]; auto. rewrite Sw. reflexivity.
      * unfold fx_bind at 1. unfold fx_of at 1. apply Sw.
      * unfold fx_bind at 1. unfold fx_of at 1. apply Sw.
  - left. exists m, [pk_data p]. split; [reflexivity|]. split; [|rewrite ER; apply Sw]. exists (pk_data p). unfold access_unit. rewrite Ev. auto.
Qed.

Lemma rx_packets path flt ps : forall h k, fr_ok h -> let '(h', k', rs) := rx_session path flt (map EvPacket ps) h k in
  exists cs, stored flt (fh_tracks h) (zlen (fh_files h)) k ps cs rs k' /\ advanced h (landed ps cs) h'.
Proof.
  induction ps as [|p ps IH]; intros h k H; cbn [map rx_session].
  - exists []. split; [constructor|]. now apply fr_refl.
  - cbn [fx_event]. destruct (fx_packet_writes flt p h k) as [(m & w & M & W & ->)|(r & N & Nr & ->)].
    + destruct (Z_lt_dec (-1) (pk_index p)) as [B0|B0]; [destruct (Z_lt_dec (pk_index p) (zlen (fh_files h))) as [B1|B1]|].
      1:{ assert (B : 0 <= pk_index p < zlen (fh_files h)) by lia. pose proof (fx_writes_store flt (pk_index p) w h k H B) as S. destruct (fx_writes flt (pk_index p) w h k) as [[h1 k1] r1].
          destruct S as (c & b & Es & -> & A). specialize (IH h1 k1 (fr_advanced _ _ _ H A)). destruct (rx_session path flt (map EvPacket ps) h1 k1) as [[h2 k2] rs]. destruct IH as (cs & St & A').
          assert (T : fh_tracks h1 = fh_tracks h) by apply A. assert (L : zlen (fh_files h1) = zlen (fh_files h)) by (unfold zlen; f_equal; apply A). rewrite T, L in St.
          exists (c :: cs). split; [econstructor; eauto; split; [|split]; eauto|]. eapply advanced_ext; [|eapply fr_trans; eauto].
          intros j. unfold only, landed. cbn [combine filter fst]. destruct (Z.of_nat j =? pk_index p); reflexivity. }
      all: assert (B : ~ (0 <= pk_index p < zlen (fh_files h))) by lia; rewrite (fx_writes_nonempty flt (pk_index p) w h k (writes_nonempty _ _ _ W) B);
        specialize (IH h k H); destruct (rx_session path flt (map EvPacket ps) h k) as [[h2 k2] rs]; destruct IH as (cs & St & A');
        exists ([] :: cs); (split; [apply stored_miss; [intros v (_ & _ & X); lia|discriminate|exact St]|]); (eapply advanced_ext; [|exact A']);
        intros j; unfold landed; cbn [combine filter fst]; destruct (Z.of_nat j =? pk_index p); reflexivity.
    + specialize (IH h k H). destruct (rx_session path flt (map EvPacket ps) h k) as [[h2 k2] rs]. destruct IH as (cs & St & A').
      exists ([] :: cs). split; [apply stored_miss; [intros w (X & Y & _); apply (N w); auto|exact Nr|exact St]|]. eapply advanced_ext; [|exact A'].
      intros j. unfold landed. cbn [combine filter fst]. destruct (Z.of_nat j =? pk_index p); reflexivity.
Qed.

(** ** Opening *)
Definition open_result (o : option Z) : res unit := match o with None => Ok tt | Some _ => Panic end.
Lemma rx_opens path flt ts : forall h k, Forall (fun s => exists m, UtilModel.media_string (st_media s) = Ok m) ts ->
  exists ns, Forall2 (fun s n => file_name path s = Ok n) (surviving flt k ts) ns /\
    rx_session path flt (map EvNewTrack ts) h k =
      ({| fh_tracks := fh_tracks h ++ ts; fh_files := fh_files h ++ map (fun n => (n, 0)) ns; fh_disk := fh_disk h |}, (k + length ts)%nat, map (fun j => open_result (flt j)) (seq k (length ts))).
Proof.
  induction ts as [|s ts IH]; intros h k F.
  - exists []. split; [constructor|]. cbn. rewrite !app_nil_r, Nat.add_0_r. now destruct h.
  - apply Forall_cons_iff in F as [[m M] F]. cbn [surviving map rx_session fx_event length seq]. unfold fx_new_track.
    assert (exists n, file_name path s = Ok n) as [n En] by (unfold file_name; rewrite M; cbn [bind]; eauto). rewrite En. destruct (flt k) as [z|] eqn:Ef.
    + destruct (IH {| fh_tracks := tm_add (fh_tracks h) s; fh_files := fh_files h; fh_disk := fh_disk h |} (S k) F) as (ns & Fn & Er). exists ns. split; [exact Fn|]. rewrite Er.
      cbn [fh_tracks fh_files fh_disk open_result]. unfold tm_add. rewrite <- app_assoc. cbn [app]. do 2 f_equal. lia.
    + destruct (IH {| fh_tracks := tm_add (fh_tracks h) s; fh_files := fh_files h ++ [(n, 0)]; fh_disk := fh_disk h |} (S k) F) as (ns & Fn & Er). exists (n :: ns). split; [constructor; auto|].
      cbn [fh_tracks fh_files fh_disk]. rewrite Er. cbn [fh_tracks fh_files fh_disk open_result map]. unfold tm_add. rewrite <- !app_assoc. cbn [app]. do 2 f_equal. lia.
Qed.
Lemma rx_app path flt a : forall b h k, rx_session path flt (a ++ b) h k =
  (let '(h1, k1, r1) := rx_session path flt a h k in let '(h2, k2, r2) := rx_session path flt b h1 k1 in (h2, k2, r1 ++ r2)).
Proof.
  induction a as [|e a IH]; intros b h k; cbn [app rx_session]; [now destruct (rx_session path flt b h k) as [[h2 k2] r2]|].
  destruct (fx_event path flt e h k) as [[h1 k1] r1]. rewrite IH. destruct (rx_session path flt a h1 k1) as [[h2 k2] r2]. destruct (rx_session path flt b h2 k2) as [[h3 k3] r3]. reflexivity.
Qed.
Lemma surviving_sub {A} flt (ts : list A) : forall k x, In x (surviving flt k ts) -> In x ts.
Proof. induction ts as [|s ts IH]; intros k x; cbn [surviving]; [intros []|]. destruct (flt k); cbn [In]; [intros I; right; eauto|intros [->|I]; eauto]. Qed.
Lemma surviving_map {A B} (f : A -> B) flt ts : forall k, surviving flt k (map f ts) = map f (surviving flt k ts).
Proof. induction ts as [|s ts IH]; intros k; cbn [map surviving]; [reflexivity|]. destruct (flt k); cbn [map]; now rewrite IH. Qed.
Lemma surviving_nodup {A} flt (ts : list A) : forall k, NoDup ts -> NoDup (surviving flt k ts).
Proof.
  induction ts as [|s ts IH]; intros k N; cbn [surviving]; [constructor|]. apply NoDup_cons_iff in N as [N1 N2]. destruct (flt k); auto. constructor; auto. intros I. apply N1. eapply surviving_sub; eauto.
Qed.
Lemma surviving_all {A} flt (ts : list A) : forall k, (forall j, (k <= j < k + length ts)%nat -> flt j = None) -> surviving flt k ts = ts.
Proof. induction ts as [|s ts IH]; intros k C; cbn [surviving]; [reflexivity|]. cbn [length] in C. rewrite (C k) by lia. f_equal. apply IH. intros j J. apply C. lia. Qed.
Lemma surviving_one {A} flt (ts : list A) : forall k t, (k <= t < k + length ts)%nat -> (forall j, (k <= j < k + length ts)%nat -> flt j = None <-> j <> t) ->
  surviving flt k ts = firstn (t - k) ts ++ skipn (S (t - k)) ts.
Proof.
  induction ts as [|s ts IH]; intros k t B C; cbn [length] in *; [lia|]. cbn [surviving]. destruct (Nat.eq_dec t k) as [->|Ne].
  - destruct (flt k) eqn:Ef; [|exfalso; apply (C k); [lia|exact Ef|reflexivity]]. rewrite Nat.sub_diag. cbn [firstn skipn app]. apply surviving_all. intros j J. apply C; lia.
  - rewrite (proj2 (C k ltac:(lia))) by lia. rewrite (IH (S k) t) by (try lia; intros j J; apply C; lia). replace (t - k)%nat with (S (t - S k)) by lia. reflexivity.
Qed.

Lemma rx_files path flt k0 ts tc ps : tc = [] \/ tc = [EvTrackComplete] -> Forall (fun s => exists m, UtilModel.media_string (st_media s) = Ok m) ts -> NoDup (map st_index ts) ->
  let '(h', k', rs) := rx_session path flt (map EvNewTrack ts ++ tc ++ map EvPacket ps) (fh_start k0) 0 in
  exists ns cs prs, Forall2 (fun s n => file_name path s = Ok n) (surviving flt 0 ts) ns /\
    rs = map (fun j => open_result (flt j)) (seq 0 (length ts)) ++ map (fun _ => Ok tt) tc ++ prs /\
    stored flt ts (zlen ns) (length ts) ps cs prs k' /\ fh_tracks h' = ts /\ map fst (fh_files h') = ns /\
    (forall j n, nth_error ns j = Some n -> nth_error (fh_files h') j = Some (n, zlen (landed ps cs j)) /\ fh_disk h' n = landed ps cs j ++ skipn (length (landed ps cs j)) (k0 n)) /\
    (forall n, ~ In n ns -> fh_disk h' n = k0 n).
Proof.
  intros Tc M N. rewrite rx_app. destruct (rx_opens path flt ts (fh_start k0) 0 M) as (ns & Fn & ->). cbn [fh_start fh_tracks fh_files fh_disk app Nat.add]. rewrite rx_app.
  assert (Etc : forall h1 k1, rx_session path flt tc h1 k1 = (h1, k1, map (fun _ => Ok tt) tc)) by (destruct Tc as [->| ->]; reflexivity). rewrite Etc.
  set (h1 := {| fh_tracks := ts; fh_files := map (fun n => (n, 0)) ns; fh_disk := k0 |}).
  assert (Nn : NoDup ns).
  { eapply names_nodup; [exact Fn|]. rewrite <- surviving_map. now apply surviving_nodup. }
  assert (Em : map fst (fh_files h1) = ns) by (cbn [h1 fh_files]; rewrite map_map; cbn [fst]; apply map_id).
  assert (H : fr_ok h1).
  { split; [now rewrite Em|]. cbn [h1 fh_files fh_disk]. apply Forall_map, Forall_forall. intros n _. cbn [fst snd]. pose proof (zlen_nonneg (k0 n)). lia. }
  pose proof (rx_packets path flt ps h1 (length ts) H) as P. destruct (rx_session path flt (map EvPacket ps) h1 (length ts)) as [[h' k'] rs]. destruct P as (cs & St & A).
  exists ns, cs, rs. split; [exact Fn|]. split; [reflexivity|]. assert (Lf : zlen (fh_files h1) = zlen ns) by (unfold zlen; cbn [h1 fh_files]; now rewrite map_length).
  rewrite Lf in St. split; [exact St|]. split; [apply A|]. split; [rewrite (advanced_names _ _ _ A); exact Em|]. destruct A as (_ & _ & A & O). split.
  - intros j n J. destruct (A j n 0) as [A1 A2]; [cbn [h1 fh_files]; now rewrite (map_nth_error _ _ _ J)|]. split; [exact A1|]. rewrite A2. unfold overwrite. cbn [h1 fh_disk Z.to_nat firstn app]. rewrite Z.add_0_l. unfold zlen. now rewrite Nat2Z.id.
  - intros n I. apply O. now rewrite Em.
Qed.

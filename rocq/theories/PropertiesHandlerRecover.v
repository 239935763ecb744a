(** * PropertiesHandlerRecover: C159, the file handler whose panics are recovered. *)
From Coq Require Import String.
From Verif Require Import Base AacModel UtilModel NaluSpec PacketModel PacketProofs PropertiesPacket DemuxModel DemuxProofs PropertiesDemux HandlerModel HandlerSpec HandlerProofs PropertiesHandler HandlerFaultModel HandlerFaultProofs PropertiesHandlerFault.
From Verif Require Import HandlerRecoverSpec HandlerRecoverModel HandlerRecoverProofs.
From Coq Require Import List.
Import ListNotations.
Open Scope Z_scope.
Local Open Scope list_scope.

(* ---------------------------------------------------------------------------------------- *)
(** ** C159: each callback of the file handler runs behind a recover, on a file system that may fail at any call. *)
(** Without a failing callback it is the session of C87. *)
Theorem C159_agrees : forall path flt evs h k h' k' rs, rx_session path flt evs h k = (h', k', rs) -> Forall (fun r => r = Ok tt) rs -> fh_session path h evs = Ok h'.
Proof.
  intros path flt evs. induction evs as [|e evs IH]; intros h k h' k' rs E F; cbn [rx_session fh_session] in *; [now injection E as <- _ _|].
  pose proof (fx_event_spec path flt e h k) as S. destruct (fx_event path flt e h k) as [[h1 k1] r]. destruct (rx_session path flt evs h1 k1) as [[h2 k2] rs2] eqn:E2. injection E as <- <- <-. apply Forall_cons_iff in F as [-> F].
  destruct S as (_ & [(_ & -> & _)|(N & _)]); [|now destruct (N tt)]. cbn [bind]. eauto.
Qed.
(** Up to the first failing callback it is the session of C117. *)
Theorem C159_first : forall path flt evs h k h' k' rs, rx_session path flt evs h k = (h', k', rs) ->
  let '(h1, k1, r) := fx_session path flt evs h k in
  match r with
  | Ok _ => h1 = h' /\ k1 = k' /\ Forall (fun r => r = Ok tt) rs
  | _ => exists a b rs1 rs2 h2 k2, evs = a ++ b /\ rx_session path flt a h k = (h1, k1, rs1 ++ [r]) /\ Forall (fun r => r = Ok tt) rs1 /\ rx_session path flt b h1 k1 = (h2, k2, rs2) /\ h2 = h' /\ k2 = k' /\ rs = rs1 ++ [r] ++ rs2
  end.
Proof.
  intros path flt evs. induction evs as [|e evs IH]; intros h k h' k' rs E; cbn [rx_session fx_session] in *; [injection E as <- <- <-; cbn; auto|].
  unfold fx_bind. destruct (fx_event path flt e h k) as [[h1 k1] r] eqn:Ee. destruct (rx_session path flt evs h1 k1) as [[h2 k2] rs2] eqn:E2. injection E as <- <- <-.
  assert (Stop : forall r0, r = r0 -> exists a b rs1 rs3 h3 k3, e :: evs = a ++ b /\ rx_session path flt a h k = (h1, k1, rs1 ++ [r0]) /\ Forall (fun r => r = Ok tt) rs1 /\ rx_session path flt b h1 k1 = (h3, k3, rs3) /\ h3 = h2 /\ k3 = k2 /\ r :: rs2 = rs1 ++ [r0] ++ rs3).
  { intros r0 <-. exists [e], evs, [], rs2, h2, k2. cbn [rx_session app]. rewrite Ee. auto 10. }
  destruct r as [[]| | |]; try (apply Stop; reflexivity). clear Stop.
  specialize (IH _ _ _ _ _ E2). destruct (fx_session path flt evs h1 k1) as [[h3 k3] r3]. destruct r3 as [[]| | |]; [destruct IH as (-> & -> & F); auto| | |];
    (destruct IH as (a & b & rs1 & rs3 & h4 & k4 & -> & Ea & F & Eb & -> & -> & ->); exists (e :: a), b, (Ok tt :: rs1), rs3, h2, k2; cbn [rx_session app]; rewrite Ee, Ea; auto 10).
Qed.

(** The whole session. The j-th call opens the file of track j; the files of the tracks whose opening succeeded, in order, are the open files. The packets then make
    their writes one after the other: the bytes of a packet that can be written are stored up to the first failing write of this packet, no packet changes what an other one stores,
    and the file at position j holds what was stored for the packets of index j, in order, over its old contents. All other files are as they were. *)
Theorem C159_exact : forall path flt k name h d evs h' k' rs, run (dm_new name) h = Ok (d, evs) -> dm_completed d = true -> dm_tracks d <> [] ->
  rx_session path flt (handler_events evs) (fh_start k) 0%nat = (h', k', rs) ->
  exists ns cs prs, Forall2 (fun s n => file_name path s = Ok n) (surviving flt 0 (dm_tracks d)) ns /\
    rs = map (fun j => open_result (flt j)) (seq 0 (length (dm_tracks d))) ++ [Ok tt] ++ prs /\
    stored flt (dm_tracks d) (zlen ns) (length (dm_tracks d)) (delivered evs) cs prs k' /\
    (forall j n, nth_error ns j = Some n -> let W := landed (delivered evs) cs j in fh_disk h' n = W ++ skipn (length W) (k n)) /\
    (forall n, ~ In n ns -> fh_disk h' n = k n).
Proof.
  intros path flt k name h d evs h' k' rs R C T E. pose proof (reach_order _ _ _ _ R) as O. pose proof (run_wf _ _ _ _ (wf_new name) R) as W. pose proof (reach_av _ _ _ _ R) as A.
  unfold call_order in O. rewrite C in O. destruct O as [[X _]|[_ [ps O]]]; [congruence|]. rewrite <- delivered_handler. rewrite O in *.
  assert (Ed : delivered (map EvNewTrack (dm_tracks d) ++ [EvTrackComplete] ++ map EvPacket ps) = ps) by (now rewrite !delivered_app, delivered_new_tracks, delivered_packets). rewrite Ed.
  assert (M : Forall (fun s => exists m, media_string (st_media s) = Ok m) (dm_tracks d)) by (eapply Forall_impl; [|exact A]; intros s X; now apply av_media).
  pose proof (rx_files path flt k (dm_tracks d) [EvTrackComplete] ps (or_intror eq_refl) M (wf_indices _ W)) as F. rewrite E in F. destruct F as (ns & cs & prs & F1 & F2 & F3 & _ & _ & F4 & F5).
  exists ns, cs, prs. split; [exact F1|]. split; [exact F2|]. split; [exact F3|]. split; [|exact F5]. intros j n J. now apply F4.
Qed.
(** Nothing else happens: without a completed probe, or without tracks, nothing is opened or written. *)
Theorem C159_idle : forall path flt k name h d evs h' k' rs, run (dm_new name) h = Ok (d, evs) -> dm_completed d = false \/ dm_tracks d = [] ->
  rx_session path flt (handler_events evs) (fh_start k) 0%nat = (h', k', rs) -> h' = fh_start k /\ k' = 0%nat /\ Forall (fun r => r = Ok tt) rs.
Proof.
  intros path flt k name h d evs h' k' rs R C E. pose proof (reach_order _ _ _ _ R) as O. unfold call_order in O. destruct (dm_completed d).
  - destruct O as [[_ O]|[T _]]; [|destruct C; congruence]. rewrite O in E. cbn in E. injection E as <- <- <-. auto.
  - rewrite O in E. cbn in E. injection E as <- <- <-. auto.
Qed.

(** What is stored when no write fails: every packet that can be written, whole; the others store nothing and change nothing. *)
Theorem C159_no_write_fault : forall flt tracks files k ps cs rs k', stored flt tracks files k ps cs rs k' -> (forall j, (k <= j)%nat -> flt j = None) ->
  Forall2 (fun p c => (exists w, writable tracks files p w /\ c = List.concat w) \/ ((forall w, ~ writable tracks files p w) /\ c = [])) ps cs /\
  Forall2 (fun p r => r = Ok tt <-> exists w, writable tracks files p w) ps rs.
Proof.
  assert (St : forall flt w k, (forall j, (k <= j)%nat -> flt j = None) -> store flt k w = (List.concat w, (k + length w)%nat, true)).
  { intros flt w. induction w as [|d w IH]; intros k C; cbn [store List.concat length]; [now rewrite Nat.add_0_r|]. rewrite (C k) by lia. rewrite IH by (intros; apply C; lia). do 2 f_equal. lia. }
  intros flt tracks files k ps cs rs k' S. induction S as [k|k p w c k1 b ps cs rs k2 Hw Es _ IH|k p r ps cs rs k2 N Nr _ IH]; intros C; [split; constructor| |].
  - rewrite St in Es by exact C. injection Es as <- <- <-. destruct IH as [I1 I2]; [intros j J; apply C; lia|]. split; constructor; auto; [left; eauto|]. split; eauto.
  - destruct (IH C) as [I1 I2]. split; constructor; auto. split; [intros X; congruence|]. intros [w X]. now apply N in X.
Qed.
(** In general: a packet that can be written stores a beginning of its bytes, all of them exactly if its callback returns. *)
Theorem C159_stored : forall flt tracks files k ps cs rs k', stored flt tracks files k ps cs rs k' ->
  (k <= k')%nat /\ length cs = length ps /\ length rs = length ps /\
  forall i p c r, nth_error ps i = Some p -> nth_error cs i = Some c -> nth_error rs i = Some r ->
    (exists w rest, writable tracks files p w /\ List.concat w = c ++ rest /\ (r = Ok tt -> rest = []) /\ (r = Ok tt \/ r = Panic)) \/ ((forall w, ~ writable tracks files p w) /\ c = [] /\ r <> Ok tt).
Proof.
  assert (St : forall flt w k c k1 b, store flt k w = (c, k1, b) -> (k <= k1)%nat /\ exists rest, List.concat w = c ++ rest /\ (b = true -> rest = [])).
  { intros flt w. induction w as [|d w IH]; intros k c k1 b E; cbn [store List.concat] in *; [injection E as <- <- <-; split; [lia|]; exists []; auto|].
    destruct (flt k) as [n|].
    - injection E as <- <- <-. split; [lia|]. exists (skipn (Z.to_nat n) d ++ List.concat w). split; [now rewrite app_assoc, firstn_skipn|discriminate].
    - destruct (store flt (S k) w) as [[c0 k0] b0] eqn:E0. injection E as <- <- <-. apply IH in E0 as (L & rest & Er & Eb). split; [lia|]. exists rest. split; [now rewrite Er, app_assoc|exact Eb]. }
  intros flt tracks files k ps cs rs k' S. induction S as [k|k p w c k1 b ps cs rs k2 Hw Es _ IH|k p r ps cs rs k2 N Nr _ IH].
  - split; [lia|]. split; [reflexivity|]. split; [reflexivity|]. intros [|i]; discriminate.
  - apply St in Es as (L & rest & Er & Eb). destruct IH as (L2 & I1 & I2 & I3). split; [lia|]. split; [cbn; now rewrite I1|]. split; [cbn; now rewrite I2|]. intros [|i] q x r Q X Y; cbn in Q, X, Y; [|eauto].
    injection Q as <-. injection X as <-. injection Y as <-. left. exists w, rest. split; [exact Hw|]. split; [exact Er|]. split; [intros Z; apply Eb; destruct b; [reflexivity|discriminate]|]. destruct b; auto.
  - destruct IH as (L2 & I1 & I2 & I3). split; [lia|]. split; [cbn; now rewrite I1|]. split; [cbn; now rewrite I2|]. intros [|i] q x r0 Q X Y; cbn in Q, X, Y; [|eauto].
    injection Q as <-. injection X as <-. injection Y as <-. right. auto.
Qed.

(** All files could be opened: position and track are the same. *)
Theorem C159_all_opened : forall A flt (ts : list A), (forall j, (j < length ts)%nat -> flt j = None) -> surviving flt 0 ts = ts.
Proof. intros A flt ts C. apply surviving_all. intros j J. apply C. lia. Qed.
(** One file could not be opened: every later track takes the file of the track behind it, so the packets of track i >= t are in the file named after track i + 1,
    converted with their own stream, and those of the last track fail. *)
Theorem C159_shifted : forall path flt k name h d evs h' k' rs t, run (dm_new name) h = Ok (d, evs) -> dm_completed d = true -> (t < length (dm_tracks d))%nat ->
  (forall j, (j < length (dm_tracks d))%nat -> flt j = None <-> j <> t) ->
  rx_session path flt (handler_events evs) (fh_start k) 0%nat = (h', k', rs) ->
  exists cs prs, stored flt (dm_tracks d) (zlen (dm_tracks d) - 1) (length (dm_tracks d)) (delivered evs) cs prs k' /\
    forall i s n, nth_error (dm_tracks d) i = Some s -> file_name path s = Ok n ->
      ((i < t)%nat -> let W := landed (delivered evs) cs i in fh_disk h' n = W ++ skipn (length W) (k n)) /\
      (i = t -> fh_disk h' n = k n) /\
      ((t < i)%nat -> let W := landed (delivered evs) cs (i - 1) in fh_disk h' n = W ++ skipn (length W) (k n)).
Proof.
  intros path flt k name h d evs h' k' rs t R C Lt Fl E. pose proof (run_wf _ _ _ _ (wf_new name) R) as W. assert (T : dm_tracks d <> []) by (intros X; rewrite X in Lt; cbn in Lt; lia).
  destruct (C159_exact _ _ _ _ _ _ _ _ _ _ R C T E) as (ns & cs & prs & Fn & _ & St & D & O).
  rewrite (surviving_one flt (dm_tracks d) 0 t) in Fn by (try lia; intros j J; apply Fl; lia). rewrite Nat.sub_0_r in Fn.
  assert (L : zlen ns = zlen (dm_tracks d) - 1) by (pose proof (Forall2_len _ _ _ Fn) as L; rewrite app_length, firstn_length, skipn_length in L; unfold zlen; lia).
  rewrite L in St. exists cs, prs. split; [exact St|].
  assert (K : forall i j s n, nth_error (dm_tracks d) i = Some s -> file_name path s = Ok n -> nth_error (firstn t (dm_tracks d) ++ skipn (S t) (dm_tracks d)) j = Some s -> nth_error ns j = Some n).
  { intros i j s n _ En J. destruct (Forall2_nth_l _ _ _ Fn _ _ J) as (n' & J' & En'). congruence. }
  assert (Lf : length (firstn t (dm_tracks d)) = t) by (rewrite firstn_length; lia).
  intros i s n I En. split; [|split].
  - intros Li. apply D. apply (K i i s n I En). rewrite nth_error_app1 by lia. rewrite <- I. rewrite <- (firstn_skipn t (dm_tracks d)) at 2. rewrite nth_error_app1 by lia. reflexivity.
  - intros ->. apply O. intros X. destruct (Forall2_in_r _ _ _ _ Fn X) as (s' & J & En'). destruct (file_name_inj _ _ _ _ En En') as (_ & Ei & _).
    assert (exists i', i' <> t /\ nth_error (dm_tracks d) i' = Some s') as (i' & Ni & I').
    { apply in_app_or in J as [J|J]; apply In_nth_error in J as [j J].
      - assert (j < t)%nat by (rewrite <- Lf; apply nth_error_Some; congruence). exists j. split; [lia|]. rewrite <- (firstn_skipn t (dm_tracks d)), nth_error_app1 by lia. exact J.
      - exists (S t + j)%nat. split; [lia|]. rewrite <- J. rewrite <- (firstn_skipn (S t) (dm_tracks d)) at 1. rewrite nth_error_app2; rewrite firstn_length, Nat.min_l by lia; [f_equal; lia|lia]. }
    pose proof (wf_indices _ W) as N. rewrite NoDup_nth_error in N. apply Ni. symmetry. apply N; [rewrite map_length; exact Lt|]. rewrite (map_nth_error _ _ _ I), (map_nth_error _ _ _ I'). congruence.
  - intros Li. apply D. apply (K i (i - 1)%nat s n I En). rewrite nth_error_app2 by lia. rewrite Lf, <- I. rewrite <- (firstn_skipn (S t) (dm_tracks d)) at 2. rewrite nth_error_app2; rewrite firstn_length, Nat.min_l by lia; [f_equal; lia|lia].
Qed.

(** Two audio tracks. If the first file cannot be opened, the packets of the first track are in the file named after the second, and those of the second are lost.
    If instead the fifth call, the write of the third packet, fails after one byte, only the rest of this packet is missing. *)
Definition two_tracks : list (oracle * op) := calls [OpSetHandler; OpAudio 0 G711A [1; 2; 3] 0; OpAudio 1 G711A [11; 12] 0; OpAudio 0 G711A [4; 5; 6] 18000; OpAudio 1 G711A [13] 18000; OpProbeComplete;
  OpAudio 0 G711A [7] 27000; OpAudio 1 G711A [14; 15] 27000; OpAudio 0 G711A [8] 37000; OpAudio 1 G711A [16] 37000].
Definition fault_at (i : nat) (n : Z) : faults := fun j => if (j =? i)%nat then Some n else None.
Definition left_behind (flt : faults) : option (nat * list (res unit) * list string * list Z * list Z) :=
  match run (dm_new "ps") two_tracks with
  | Ok (_, evs) => let '(h, k, rs) := rx_session "t" flt (handler_events evs) (fh_start empty_disk) 0%nat in
      Some (k, rs, map fst (fh_files h), fh_disk h "t.audio.0.PCMA"%string, fh_disk h "t.audio.1.PCMA"%string)
  | _ => None
  end.
Example C159_example :
  left_behind (fun _ => None) = Some (8%nat, [Ok tt; Ok tt; Ok tt; Ok tt; Ok tt; Ok tt; Ok tt; Ok tt; Ok tt], ["t.audio.0.PCMA"; "t.audio.1.PCMA"]%string, [1; 2; 3; 4; 5; 6; 7], [11; 12; 13; 14; 15]) /\
  left_behind (fault_at 4 1) = Some (8%nat, [Ok tt; Ok tt; Ok tt; Ok tt; Ok tt; Panic; Ok tt; Ok tt; Ok tt], ["t.audio.0.PCMA"; "t.audio.1.PCMA"]%string, [1; 2; 3; 4; 7], [11; 12; 13; 14; 15]).
Proof. split; vm_compute; reflexivity. Qed.
Example C159_shifted_example :
  left_behind (fault_at 0 0) = Some (5%nat, [Panic; Ok tt; Ok tt; Ok tt; Panic; Ok tt; Panic; Ok tt; Panic], ["t.audio.1.PCMA"]%string, [], [1; 2; 3; 4; 5; 6; 7]).
Proof. vm_compute. reflexivity. Qed.
Print Assumptions C159_agrees.
Print Assumptions C159_first.
Print Assumptions C159_exact.
Print Assumptions C159_idle.
Print Assumptions C159_no_write_fault.
Print Assumptions C159_stored.
Print Assumptions C159_all_opened.
Print Assumptions C159_shifted.

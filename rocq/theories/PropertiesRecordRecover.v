(** * PropertiesRecordRecover: C160, a recording whose caller recovers from panics. *)
From Coq Require Import String.
From Verif Require Import Base AacModel UtilModel PacketModel DemuxModel DemuxProofs PropertiesDemux HandlerModel HandlerSpec HandlerProofs PropertiesHandler HandlerFaultModel HandlerFaultProofs PropertiesHandlerFault.
From Verif Require Import HandlerRecoverSpec HandlerRecoverModel HandlerRecoverProofs PropertiesHandlerRecover RecoverModel RecoverProofs RecordRecoverModel RecordRecoverProofs.
From Coq Require Import List.
Import ListNotations.
Open Scope Z_scope.
Local Open Scope list_scope.

(* ---------------------------------------------------------------------------------------- *)
(** ** C160: the file handler is called by the demuxer, its panics pass through the demuxer, and the caller of the demuxer recovers from them. *)
(** One call. Either no callback fails, and the call is that of C157 without a panicking handler; or the last callback it made is the only one that failed,
    the call panics, and the callbacks are the first ones of those it would have made. *)
Theorem C160_call : forall path flt d h k o a d1 h1 k1 e r, rec_step_r path flt (d, h, k) o a = (d1, h1, k1, e, r) ->
  exists rs, rx_session path flt (handler_events e) h k = (h1, k1, rs) /\
  ((Forall (fun r => r = Ok tt) rs /\ step_r o None d a = (d1, e, r)) \/
   (r = Panic /\ (exists good bad, rs = good ++ [bad] /\ Forall (fun r => r = Ok tt) good /\ bad <> Ok tt) /\
    exists n rest, step_r o (Some n) d a = (d1, e, r) /\ length (handler_events e) = S n /\ handler_events (snd (fst (step_r o None d a))) = handler_events e ++ rest)).
Proof.
  intros path flt d h k o a d1 h1 k1 e r. unfold rec_step_r. set (q := first_fail path flt (handler_events (snd (fst (step_r o None d a)))) h k).
  pose proof (step_ends o q d a) as En. pose proof (first_fail_run path flt (handler_events (snd (fst (step_r o None d a)))) h k) as F. fold q in F. cbv zeta in F.
  destruct (step_r o q d a) as [[d2 e2] r2] eqn:Eq. destruct (rx_session path flt (handler_events e2) h k) as [[h2 k2] rs] eqn:R. intros H.
  assert (d2 = d1 /\ h2 = h1 /\ k2 = k1 /\ e2 = e /\ r2 = r) as (-> & -> & -> & -> & ->) by (repeat split; congruence). exists rs. split; [exact R|].
  destruct (step_r o None d a) as [[d0 e0] r0] eqn:E0. cbn [fst snd] in *. destruct q as [n|].
  - right. destruct F as (L & good & bad & Eg & Fg & Nb). cbn [ends_at] in En. rewrite (proj2 (Nat.ltb_lt _ _) L) in En. destruct En as [En ->]. rewrite En in R. rewrite R in Eg. cbn [snd] in Eg.
    split; [reflexivity|]. split; [exists good, bad; auto|]. exists n, (skipn (S n) (handler_events e0)). split; [exact Eq|]. rewrite En. split; [|now rewrite firstn_skipn]. rewrite firstn_length. lia.
  - left. destruct En as [-> ->]. rewrite R in F. cbn [snd] in F. split; [exact F|]. rewrite E0 in Eq. exact Eq.
Qed.

Lemma firstn_nodup {A} (l : list A) : forall n, NoDup l -> NoDup (firstn n l).
Proof. induction l as [|x l IH]; intros [|n] N; cbn [firstn]; try constructor; apply NoDup_cons_iff in N as [N1 N2]; auto. intros I. apply N1. rewrite <- (firstn_skipn n l). apply in_or_app. now left. Qed.
Lemma nth_firstn {A} (l : list A) : forall m j x, nth_error (firstn m l) j = Some x <-> (j < m)%nat /\ nth_error l j = Some x.
Proof.
  induction l as [|y l IH]; intros [|m] [|j] x; cbn [firstn nth_error]; try (split; [discriminate|intros [? ?]; (lia || discriminate)]).
  - split; [intros E; split; [lia|exact E]|tauto].
  - rewrite IH. split; intros [? ?]; (split; [lia|assumption]).
Qed.
Lemma surviving_prefix {A} flt (ts : list A) n m : (m <= n <= S m)%nat -> (n <= length ts)%nat -> (forall j, (j < m)%nat -> flt j = None) -> (n = S m -> flt m <> None) -> surviving flt 0 (firstn n ts) = firstn m ts.
Proof.
  intros B L C F. assert (Ln : length (firstn n ts) = n) by (rewrite firstn_length; lia). assert (n = m \/ n = S m) as [->| ->] by lia.
  - apply surviving_all. rewrite Ln. intros j J. apply C. lia.
  - rewrite (surviving_one flt (firstn (S m) ts) 0 m); rewrite ?Ln; try lia.
    + rewrite Nat.sub_0_r. rewrite (skipn_all2 (n := S m)) by (rewrite Ln; lia). rewrite app_nil_r, firstn_firstn. f_equal. lia.
    + intros j J. split; [intros E ->; now apply F|intros N; apply C; lia].
Qed.

(** All histories of calls, from a new demuxer on. The callbacks announce the first [n] of the tracks; the files of the first [m] are open, and [n] is [m] or, if the opening of
    file [m] failed, [m + 1]. The file of track [j < m] holds what was stored for the packets of track [j], in order, over its old contents; no other file is touched. A packet that can be
    written (its unit can be converted, its track is one of the first [m]) stores its bytes up to its first failing Write, any other one nothing. *)
Theorem C160_exact : forall path flt k name l d h k' log, rec_run_r path flt (dm_new name, fh_start k, 0%nat) l = (d, h, k', log) ->
  let evs := events_of log in let ts := dm_tracks d in
  exists n m cs prs, (m <= n <= S m)%nat /\ (n <= length ts)%nat /\ (forall j, (j < m)%nat -> flt j = None) /\ (n = S m -> flt m <> None) /\ (m = n -> m = length ts \/ m = O) /\
    opened evs = firstn n ts /\ stored flt (firstn n ts) (Z.of_nat m) n (delivered evs) cs prs k' /\
    (forall j s f, (j < m)%nat -> nth_error ts j = Some s -> file_name path s = Ok f -> let W := landed (delivered evs) cs j in fh_disk h f = W ++ skipn (length W) (k f)) /\
    (forall f, (forall j s, (j < m)%nat -> nth_error ts j = Some s -> file_name path s <> Ok f) -> fh_disk h f = k f).
Proof.
  intros path flt k name l d h k' log R. cbv zeta.
  pose proof (run_called path flt k l (dm_new name) (fh_start k) 0%nat [] (sound_new name) eq_refl eq_refl) as C. rewrite R in C. cbn [app] in C. destruct C as ([W A] & C & Sx).
  rewrite <- delivered_handler, <- opened_handler. set (E := handler_events (events_of log)) in *. unfold state_of in Sx.
  assert (Op : forall ts, opened (map EvNewTrack ts) = ts) by (induction ts as [|s ts IH]; [reflexivity|]; cbn; f_equal; exact IH). assert (Oq : forall ps, opened (map EvPacket ps) = []) by (induction ps; auto).
  assert (Oa : forall a b, opened (a ++ b) = opened a ++ opened b) by (intros; unfold opened; apply flat_map_app).
  assert (Idle : forall ps, opened E = [] -> delivered E = ps -> (let '(h1, k1, _) := rx_session path flt (map EvPacket ps) (fh_start k) 0%nat in h1 = h /\ k1 = k') -> exists n m cs prs, (m <= n <= S m)%nat /\ (n <= length (dm_tracks d))%nat /\ (forall j, (j < m)%nat -> flt j = None) /\ (n = S m -> flt m <> None) /\ (m = n -> m = length (dm_tracks d) \/ m = O) /\
    opened E = firstn n (dm_tracks d) /\ stored flt (firstn n (dm_tracks d)) (Z.of_nat m) n (delivered E) cs prs k' /\
    (forall j s f, (j < m)%nat -> nth_error (dm_tracks d) j = Some s -> file_name path s = Ok f -> let W := landed (delivered E) cs j in fh_disk h f = W ++ skipn (length W) (k f)) /\
    (forall f, (forall j s, (j < m)%nat -> nth_error (dm_tracks d) j = Some s -> file_name path s <> Ok f) -> fh_disk h f = k f)).
  { intros ps Eo Ed Rx. assert (Ok0 : fr_ok (fh_start k)) by (split; constructor). pose proof (rx_packets path flt ps (fh_start k) 0%nat Ok0) as P. destruct (rx_session path flt (map EvPacket ps) (fh_start k) 0%nat) as [[h1 k1] rs]. destruct Rx as [-> ->].
    destruct P as (cs & P & (_ & _ & _ & Ox)). exists O, O, cs, rs. split; [lia|]. split; [lia|]. split; [lia|]. split; [lia|]. split; [auto|]. split; [exact Eo|]. split; [rewrite Ed; exact P|]. split; [lia|]. intros f _. apply Ox. intros []. }
  unfold called in C. destruct (dm_completed d).
  - destruct C as [(T & ps & C)|(n & m & ps & H1 & H2 & H3 & H4 & H5 & tc & C & Tc)].
    + apply (Idle ps); [rewrite C; apply Oq|rewrite C; apply delivered_packets|]. rewrite C in Sx. cbn [rx_session fx_event fx_of] in Sx. destruct (rx_session path flt (map EvPacket ps) (fh_start k) 0%nat) as [[h1 k1] rs]. cbn [fst] in Sx. split; congruence.
    + assert (Ot : opened tc = [] /\ delivered tc = []) by (destruct Tc as [->| ->]; now split). destruct Ot as [Ot Dt].
      assert (Ed : delivered E = ps) by (rewrite C, !delivered_app, delivered_new_tracks, Dt, delivered_packets; reflexivity).
      assert (Eo : opened E = firstn n (dm_tracks d)) by (rewrite C, !Oa, Op, Ot, Oq, !app_nil_r; reflexivity).
      assert (M : Forall (fun s => exists m, media_string (st_media s) = Ok m) (firstn n (dm_tracks d))).
      { apply Forall_forall. intros s I. rewrite Forall_forall in A. apply av_media, A. rewrite <- (firstn_skipn n (dm_tracks d)). apply in_or_app. now left. }
      assert (N : NoDup (map st_index (firstn n (dm_tracks d)))) by (rewrite <- firstn_map; apply firstn_nodup; now apply wf_indices).
      pose proof (rx_files path flt k (firstn n (dm_tracks d)) tc ps Tc M N) as P. rewrite <- C in P. destruct (rx_session path flt E (fh_start k) 0) as [[h1 k1] rs]. cbn [fst] in Sx. assert (h1 = h /\ k1 = k') as [-> ->] by (split; congruence).
      destruct P as (ns & cs & prs & Fn & _ & St & _ & _ & D & Ox). rewrite (surviving_prefix flt (dm_tracks d) n m H1 H2 H3 H4) in Fn. assert (Ln : length (firstn n (dm_tracks d)) = n) by (rewrite firstn_length; lia). rewrite Ln in St.
      assert (Lm : zlen ns = Z.of_nat m) by (pose proof (Forall2_len _ _ _ Fn) as L; rewrite firstn_length in L; unfold zlen; lia). rewrite Lm in St.
      exists n, m, cs, prs. split; [exact H1|]. split; [exact H2|]. split; [exact H3|]. split; [exact H4|]. split; [exact H5|]. split; [exact Eo|]. rewrite Ed. split; [exact St|]. split.
      * intros j s f J Js Ef. destruct (Forall2_nth_l _ _ _ Fn j s (proj2 (nth_firstn _ _ _ _) (conj J Js))) as (f' & Jf & Ef'). assert (f' = f) as -> by congruence. now apply D.
      * intros f H. apply Ox. intros I. destruct (Forall2_in_r _ _ _ _ Fn I) as (s & J & Es). apply In_nth_error in J as [j J]. apply nth_firstn in J as [J1 J2]. now apply (H j s J1 J2).
  - apply (Idle []); [now rewrite C|now rewrite C|]. rewrite C in Sx. cbn in Sx. cbn. split; congruence.
Qed.

(** So no packet is ever in the file of an other track, also after recovered panics and short writes. *)
Theorem C160_own_file : forall path flt name l d h k' log, rec_run_r path flt (dm_new name, fh_start empty_disk, 0%nat) l = (d, h, k', log) ->
  exists cs, length cs = length (delivered (events_of log)) /\
  (forall j s f, nth_error (dm_tracks d) j = Some s -> file_name path s = Ok f -> fh_disk h f = [] \/ fh_disk h f = landed (delivered (events_of log)) cs j) /\
  (forall i p c, nth_error (delivered (events_of log)) i = Some p -> nth_error cs i = Some c -> c = [] \/ exists n w rest, writes_of (firstn n (dm_tracks d)) p w /\ List.concat w = c ++ rest).
Proof.
  intros path flt name l d h k' log R. destruct (C160_exact _ _ _ _ _ _ _ _ _ R) as (n & m & cs & prs & _ & _ & _ & _ & _ & _ & St & D & Ox). pose proof (C159_stored _ _ _ _ _ _ _ _ St) as (_ & L1 & L2 & Sx).
  exists cs. split; [exact L1|]. split.
  - intros j s f J Ef. destruct (Nat.lt_ge_cases j m) as [Lj|Lj].
    + right. rewrite (D j s f Lj J Ef). cbv zeta. unfold empty_disk. now rewrite skipn_nil, app_nil_r.
    + left. rewrite Ox; [reflexivity|]. intros j' s' Lj' J' Ef'. destruct (file_name_inj _ _ _ _ Ef Ef') as (_ & Ei & _).
      pose proof (run_called path flt empty_disk l (dm_new name) (fh_start empty_disk) 0%nat [] (sound_new name) eq_refl eq_refl) as C. rewrite R in C. destruct C as ([W _] & _).
      pose proof (wf_indices _ W) as N. rewrite NoDup_nth_error in N. assert (j = j'); [|lia]. apply N; [rewrite map_length; apply nth_error_Some; congruence|]. rewrite (map_nth_error _ _ _ J), (map_nth_error _ _ _ J'). congruence.
  - intros i p c P C. destruct (nth_error prs i) as [r|] eqn:Er; [|apply nth_error_None in Er; assert (i < length (delivered (events_of log)))%nat by (apply nth_error_Some; congruence); lia].
    destruct (Sx i p c r P C Er) as [(w & rest & (_ & Wr & _) & Ec & _)|(_ & Ec & _)]; [right; eauto|now left].
Qed.

(** The session of C159, without failures; then the second file cannot be opened: the call that announces the tracks panics, the packet that waited for it is never written, the later ones
    of the first track are, in the first file, and every packet of the second track makes its call panic. Last, the third Write is short: its call panics and the rest of that packet alone is missing. *)
Definition left_by_session (flt : faults) : list (res unit) * list (Z * list Z) * list string * list Z * list Z :=
  let '(d, h, k, log) := rec_run_r "t" flt (dm_new "ps", fh_start empty_disk, 0%nat) two_tracks in
  (map snd log, map (fun p => (pk_index p, pk_data p)) (delivered (events_of log)), map fst (fh_files h), fh_disk h "t.audio.0.PCMA"%string, fh_disk h "t.audio.1.PCMA"%string).
Example C160_example :
  left_by_session (fun _ => None) = (repeat (Ok tt) 10, [(0, [1; 2; 3]); (1, [11; 12]); (0, [4; 5; 6]); (1, [13]); (0, [7]); (1, [14; 15])],
    ["t.audio.0.PCMA"; "t.audio.1.PCMA"]%string, [1; 2; 3; 4; 5; 6; 7], [11; 12; 13; 14; 15]) /\
  left_by_session (fault_at 1 0) = ([Ok tt; Ok tt; Ok tt; Panic; Panic; Ok tt; Ok tt; Panic; Ok tt; Panic], [(1, [11; 12]); (0, [4; 5; 6]); (1, [13]); (0, [7]); (1, [14; 15])],
    ["t.audio.0.PCMA"]%string, [4; 5; 6; 7], []) /\
  left_by_session (fault_at 4 1) = ([Ok tt; Ok tt; Ok tt; Ok tt; Ok tt; Ok tt; Panic; Ok tt; Ok tt; Ok tt], [(0, [1; 2; 3]); (1, [11; 12]); (0, [4; 5; 6]); (1, [13]); (0, [7]); (1, [14; 15])],
    ["t.audio.0.PCMA"; "t.audio.1.PCMA"]%string, [1; 2; 3; 4; 7], [11; 12; 13; 14; 15]).
Proof. repeat split; vm_compute; reflexivity. Qed.
Print Assumptions C160_call.
Print Assumptions C160_exact.
Print Assumptions C160_own_file.

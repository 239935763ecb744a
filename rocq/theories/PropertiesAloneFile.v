(** * PropertiesAloneFile: C144, the file of one track does not depend on the other streams. *)
From Verif Require Import Base NaluModel RecordModel AacModel FloatModel UtilModel PacketModel DemuxModel DemuxProofs DeliverySpec DeliveryProofs HandlerModel HandlerSpec HandlerProofs ReentProofs AloneSpec AloneProofs AloneFileProofs PropertiesDemux PropertiesTracks PropertiesAlone.
From Coq Require Import String List Permutation.
Import ListNotations.
Local Open Scope list_scope.

(* ---------------------------------------------------------------------------------------- *)
(** ** C144 Recording one track *)
Definition writable (ts : list stream) (p : packet) : Prop := (exists m, media_string (pk_media p) = Ok m) /\ exists w, writes_of ts p w.
Lemma only_keeps (P : oracle * op -> Prop) b h : Forall P h -> Forall P (AloneSpec.only b h).
Proof. intros F. apply Forall_forall. intros x I. apply filter_In in I as [I _]. rewrite Forall_forall in F. auto. Qed.
Lemma only_own b h : Forall (fun x => other b (snd x) = false) (AloneSpec.only b h).
Proof. apply Forall_forall. intros x I. apply filter_In in I as [_ I]. now apply negb_true_iff. Qed.
Lemma hooks_ok h : Forall well_behaved h -> Forall op_hook_ok h.
Proof. intros F. eapply Forall_impl; [|exact F]. intros x [_ X]. exact X. Qed.
Lemma filter_fits i b l : Forall (fits i b) l -> filter (fun p => Z.of_nat i =? pk_index p) l = filter (fun p => pk_buffer p =? b) l.
Proof.
  induction 1 as [|p l Hp F IH]; [reflexivity|]. cbn [filter]. rewrite IH. unfold fits in Hp. destruct (Z.eqb_spec (Z.of_nat i) (pk_index p)), (Z.eqb_spec (pk_buffer p) b); try reflexivity; exfalso; lia.
Qed.
Lemma filter_none {A} (f : A -> bool) l : Forall (fun x => f x = false) l -> filter f l = [].
Proof. induction 1 as [|x l E F IH]; [reflexivity|]. cbn [filter]. now rewrite E. Qed.
Lemma filter_full {A} (f : A -> bool) l : Forall (fun x => f x = true) l -> filter f l = l.
Proof. induction 1 as [|x l E F IH]; [reflexivity|]. cbn [filter]. rewrite E. now f_equal. Qed.

Section recording.
Variables (name path : string) (k : disk) (h : list (oracle * op)) (d : demuxer) (evs : list event) (i : nat) (b : Z).
Hypotheses (F : Forall well_behaved h) (R : run (dm_new name) h = Ok (d, evs)) (C : dm_completed d = true) (Al : aligned evs).
Hypotheses (I : In (Z.of_nat i, b) (dm_map d)) (U : forall j, In (j, b) (dm_map d) -> j = Z.of_nat i) (N : In (Z.of_nat i) (map pk_index (accepted evs))).

(** The delivered packets of the two continuations. *)
Lemma two_runs h' d1 e1 : Forall well_behaved h' -> run d h' = Ok (d1, e1) -> exists d2 e2, run d (AloneSpec.only b h') = Ok (d2, e2) /\
  delivered e2 = filter (fun p => pk_buffer p =? b) (delivered e1) /\ Forall (fits i b) (delivered e1) /\ dm_tracks d1 = dm_tracks d /\ dm_tracks d2 = dm_tracks d /\
  dm_completed d1 = true /\ dm_completed d2 = true /\ run (dm_new name) (h ++ h') = Ok (d1, evs ++ e1) /\ run (dm_new name) (h ++ AloneSpec.only b h') = Ok (d2, evs ++ e2).
Proof.
  intros F' R1. destruct (C141_delivered _ _ _ _ F R C Al i b I U N h' d1 e1 (hooks_ok _ F') R1) as (d2 & e2 & R2 & E). exists d2, e2.
  pose proof (reach_settled _ _ _ _ i b F R C Al (conj I U) N) as S. destruct (run_delivered i b _ _ _ _ S (hooks_ok _ F') R1) as [Fi _].
  destruct (run_delivered i b _ _ _ _ S (hooks_ok _ (only_keeps _ b _ F')) R2) as [_ O]. specialize (O (only_own b h')).
  rewrite filter_full in E by (eapply Forall_impl; [|exact O]; intros p X; now apply Z.eqb_eq).
  pose proof (run_wf _ _ _ _ (wf_new name) R) as W. destruct (proj2 (run_ext _ _ _ _ W R1) C) as [T1 C1]. destruct (proj2 (run_ext _ _ _ _ W R2) C) as [T2 C2].
  repeat (split; [assumption|]). split; rewrite run_app, R; cbn [bind]; [rewrite R1|rewrite R2]; reflexivity.
Qed.

(** If a whole session is recorded, the track alone is recorded too; its file is the same, and the files of the other tracks stay as they
    were after the first part. *)
Lemma file_alone h' d1 e1 f1 : Forall well_behaved h' -> run d h' = Ok (d1, e1) -> fh_session path (fh_start k) (evs ++ e1) = Ok f1 ->
  exists d2 e2 f2 f0, run d (AloneSpec.only b h') = Ok (d2, e2) /\ fh_session path (fh_start k) (evs ++ e2) = Ok f2 /\ fh_session path (fh_start k) evs = Ok f0 /\
  forall j s n, nth_error (dm_tracks d) j = Some s -> file_name path s = Ok n -> fh_disk f2 n = fh_disk (if (j =? i)%nat then f1 else f0) n.
Proof.
  intros F' R1 S1. destruct (two_runs h' d1 e1 F' R1) as (d2 & e2 & R2 & E & Fi & T1 & T2 & C1 & C2 & RR1 & RR2). exists d2, e2.
  assert (B1 : Forall well_behaved (h ++ h')) by (apply Forall_app; auto). assert (B2 : Forall well_behaved (h ++ AloneSpec.only b h')) by (apply Forall_app; auto using only_keeps).
  pose proof (proj1 (session_total path k _ _ _ _ B1 RR1) (ex_intro _ f1 S1)) as P1. rewrite T1, delivered_app in P1. apply Forall_app in P1 as [P0 P1].
  destruct (proj2 (session_total path k _ _ _ _ B2 RR2)) as [f2 S2].
  { rewrite T2, delivered_app, E. apply Forall_app. split; [exact P0|]. apply Forall_forall. intros p J. apply filter_In in J as [J _]. rewrite Forall_forall in P1. auto. }
  destruct (proj2 (session_total path k _ _ _ _ F R) P0) as [f0 S0]. exists f2, f0. repeat (split; [assumption|]).
  intros j s n J Nm. destruct (session_spec _ _ _ _ _ _ _ RR1 S1) as (w1 & W1 & D1 & _). destruct (session_spec _ _ _ _ _ _ _ RR2 S2) as (w2 & W2 & D2 & _). destruct (session_spec _ _ _ _ _ _ _ R S0) as (w0 & W0 & D0 & _).
  rewrite T1 in W1, D1. rewrite T2 in W2, D2. rewrite (D2 C2 j s n J Nm). destruct (Nat.eqb_spec j i) as [Eq|X].
  - rewrite Eq in *. rewrite (D1 C1 i s n J Nm). rewrite (written_own _ i _ _ W2 _ _ W1); [reflexivity|]. rewrite !delivered_app, !filter_app. f_equal.
    rewrite E, <- (filter_fits i b _ Fi). apply filter_full. apply Forall_forall. intros p Jp. now apply filter_In in Jp.
  - rewrite (D0 C j s n J Nm). rewrite (written_own _ j _ _ W2 _ _ W0); [reflexivity|]. rewrite delivered_app, filter_app, E. rewrite <- (filter_fits i b _ Fi), (filter_none _ (filter _ _)), app_nil_r; [reflexivity|].
    apply Forall_forall. intros p Jp. apply filter_In in Jp as [_ Jp]. apply Z.eqb_eq in Jp. apply Z.eqb_neq. lia.
Qed.
Lemma alone_fails h' d1 e1 d2 e2 : Forall well_behaved h' -> run d h' = Ok (d1, e1) -> run d (AloneSpec.only b h') = Ok (d2, e2) ->
  ((exists f, fh_session path (fh_start k) (evs ++ e2) = Ok f) <-> Forall (writable (dm_tracks d)) (delivered evs ++ filter (fun p => pk_buffer p =? b) (delivered e1))) /\
  ((exists f, fh_session path (fh_start k) (evs ++ e1) = Ok f) <-> Forall (writable (dm_tracks d)) (delivered evs ++ delivered e1)).
Proof.
  intros F' R1 Q. destruct (two_runs h' d1 e1 F' R1) as (d2' & e2' & R2 & E & Fi & T1 & T2 & C1 & C2 & RR1 & RR2). rewrite Q in R2. injection R2 as <- <-.
  assert (B1 : Forall well_behaved (h ++ h')) by (apply Forall_app; auto). assert (B2 : Forall well_behaved (h ++ AloneSpec.only b h')) by (apply Forall_app; auto using only_keeps).
  pose proof (session_total path k _ _ _ _ B1 RR1) as X1. pose proof (session_total path k _ _ _ _ B2 RR2) as X2. rewrite T1, delivered_app in X1. rewrite T2, delivered_app, E in X2. auto.
Qed.
End recording.

(** After the probe, for a track that has had a packet and shares its buffer with no other track. *)
Theorem C144_file : forall name h d evs, Forall well_behaved h -> run (dm_new name) h = Ok (d, evs) -> dm_completed d = true -> aligned evs ->
  forall i b, In (Z.of_nat i, b) (dm_map d) -> (forall j, In (j, b) (dm_map d) -> j = Z.of_nat i) -> In (Z.of_nat i) (map pk_index (accepted evs)) ->
  forall path k h' d1 e1 f1, Forall well_behaved h' -> run d h' = Ok (d1, e1) -> fh_session path (fh_start k) (evs ++ e1) = Ok f1 ->
  exists d2 e2 f2 f0, run d (AloneSpec.only b h') = Ok (d2, e2) /\ fh_session path (fh_start k) (evs ++ e2) = Ok f2 /\ fh_session path (fh_start k) evs = Ok f0 /\
  forall j s n, nth_error (dm_tracks d) j = Some s -> file_name path s = Ok n -> fh_disk f2 n = fh_disk (if (j =? i)%nat then f1 else f0) n.
Proof. intros name h d evs F R C Al i b I U N path k h' d1 e1 f1. exact (file_alone name path k h d evs i b F R C Al I U N h' d1 e1 f1). Qed.
Print Assumptions C144_file.

(** So two recorded sessions that differ only in the packets of the other buffers leave the same file. *)
Theorem C144_two : forall name h d evs, Forall well_behaved h -> run (dm_new name) h = Ok (d, evs) -> dm_completed d = true -> aligned evs ->
  forall i b s n path, In (Z.of_nat i, b) (dm_map d) -> (forall j, In (j, b) (dm_map d) -> j = Z.of_nat i) -> In (Z.of_nat i) (map pk_index (accepted evs)) ->
  nth_error (dm_tracks d) i = Some s -> file_name path s = Ok n ->
  forall k h1 h2 d1 e1 d2 e2 f1 f2, Forall well_behaved h1 -> Forall well_behaved h2 -> AloneSpec.only b h1 = AloneSpec.only b h2 -> run d h1 = Ok (d1, e1) -> run d h2 = Ok (d2, e2) ->
  fh_session path (fh_start k) (evs ++ e1) = Ok f1 -> fh_session path (fh_start k) (evs ++ e2) = Ok f2 -> fh_disk f1 n = fh_disk f2 n.
Proof.
  intros name h d evs F R C Al i b s n path I U N J Nm k h1 h2 d1 e1 d2 e2 f1 f2 F1 F2 E R1 R2 S1 S2.
  destruct (C144_file _ _ _ _ F R C Al i b I U N path k h1 d1 e1 f1 F1 R1 S1) as (x & y & z & w & A & B & _ & D). destruct (C144_file _ _ _ _ F R C Al i b I U N path k h2 d2 e2 f2 F2 R2 S2) as (x' & y' & z' & w' & A' & B' & _ & D').
  rewrite E, A' in A. injection A as <- <-. rewrite B' in B. injection B as <-. specialize (D i s n J Nm). specialize (D' i s n J Nm). rewrite Nat.eqb_refl in *. congruence.
Qed.
Print Assumptions C144_two.

(** The one way another stream can reach the recording of this one: a packet of it that cannot be written stops the recorder. *)
Theorem C144_stops : forall name h d evs, Forall well_behaved h -> run (dm_new name) h = Ok (d, evs) -> dm_completed d = true -> aligned evs ->
  forall i b, In (Z.of_nat i, b) (dm_map d) -> (forall j, In (j, b) (dm_map d) -> j = Z.of_nat i) -> In (Z.of_nat i) (map pk_index (accepted evs)) ->
  forall path k h' d1 e1 d2 e2, Forall well_behaved h' -> run d h' = Ok (d1, e1) -> run d (AloneSpec.only b h') = Ok (d2, e2) ->
  ((exists f, fh_session path (fh_start k) (evs ++ e2) = Ok f) <-> Forall (writable (dm_tracks d)) (delivered evs ++ filter (fun p => pk_buffer p =? b) (delivered e1))) /\
  ((exists f, fh_session path (fh_start k) (evs ++ e1) = Ok f) <-> Forall (writable (dm_tracks d)) (delivered evs ++ delivered e1)).
Proof. intros name h d evs F R C Al i b I U N path k h' d1 e1 d2 e2. exact (alone_fails name path k h d evs i b F R C Al I U N h' d1 e1 d2 e2). Qed.
Print Assumptions C144_stops.

(** Two tracks; after the probe both get packets. Then an H.264 track with an empty key frame, which stops the recorder. *)
Definition C144_video : list (oracle * op) := calls [OpSetHandler; OpVideo 0 AVCodecIdH264 key_frame true 0 0; OpAudio 1 G711A [1] 0; OpAudio 1 G711A [2] 18000].
Definition C144_rest : list (oracle * op) := calls [OpVideo 0 AVCodecIdH264 [] true 19000 19000; OpAudio 1 G711A [3] 20000; OpVideo 0 AVCodecIdH264 [0; 0; 1; 97] false 22000 22000; OpAudio 1 G711A [4] 23000].
Example C144_example :
  match run (dm_new "ps") C141_probe with
  | Ok (d, evs) =>
      match run d C141_rest, run d (AloneSpec.only 0 C141_rest) with
      | Ok (_, e1), Ok (_, e2) =>
        match fh_session "r" (fh_start (fun _ => [])) (evs ++ e1), fh_session "r" (fh_start (fun _ => [])) (evs ++ e2) with
        | Ok f1, Ok f2 => fh_disk f1 "r.audio.0.PCMA"%string = [1; 3; 5; 6] /\ fh_disk f2 "r.audio.0.PCMA"%string = [1; 3; 5; 6] /\ fh_disk f1 "r.audio.1.PCMA"%string = [2; 4; 7] /\ fh_disk f2 "r.audio.1.PCMA"%string = [2]
        | _, _ => False
        end
      | _, _ => False
      end
  | _ => False
  end /\
  match run (dm_new "ps") C144_video with
  | Ok (d, evs) => dm_completed d = true /\ dm_map d = [(0, 0); (1, 1)] /\
      match run d C144_rest, run d (AloneSpec.only 1 C144_rest) with
      | Ok (_, e1), Ok (_, e2) => fh_session "r" (fh_start (fun _ => [])) (evs ++ e1) = Panic /\
        match fh_session "r" (fh_start (fun _ => [])) (evs ++ e2) with Ok f2 => fh_disk f2 "r.audio.1.PCMA"%string = [1; 2; 3] | _ => False end
      | _, _ => False
      end
  | _ => False
  end.
Proof. vm_compute. repeat split; reflexivity. Qed.

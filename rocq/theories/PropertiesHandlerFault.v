(** * PropertiesHandlerFault: C117, C118, the file handler and the file system. *)
From Coq Require Import String.
From Verif Require Import Base AacModel UtilModel NaluSpec PacketModel PacketProofs PropertiesPacket DemuxModel DemuxProofs PropertiesDemux HandlerModel HandlerSpec HandlerProofs PropertiesHandler HandlerFaultModel HandlerFaultProofs.
From Coq Require Import List.
Import ListNotations.
Open Scope Z_scope.
Local Open Scope list_scope.

(* ---------------------------------------------------------------------------------------- *)
(** ** C117: a file system that fails. *)
(** [flt j] is the fault at the j-th call of OpenFile or Write, if any. A session that would make [n] calls panics at the first fault among them, and
    goes as without faults if there is none. *)
Theorem C117_stops_at_first : forall path k evs hf, fh_session path (fh_start k) evs = Ok hf -> exists n, forall flt,
  ((forall j, (j < n)%nat -> flt j = None) -> fx_session path flt evs (fh_start k) 0%nat = (hf, n, Ok tt)) /\
  (forall j, (j < n)%nat -> (forall i, (i < j)%nat -> flt i = None) -> flt j <> None -> exists h', fx_session path flt evs (fh_start k) 0%nat = (h', S j, Panic)).
Proof.
  intros path k evs hf Ef. destruct (no_faults_session path evs (fh_start k)) as [(hf' & n & E & Ef')|N]; [|now destruct (N hf)]. rewrite Ef in Ef'. injection Ef' as <-.
  exists n. intros flt. destruct (fault_when _ _ _ _ _ E flt) as [A B]. split.
  - intros C. apply A. intros j J. apply C. lia.
  - intros j L C F. apply B; auto. intros i I. apply C. lia.
Qed.
(** What is on the disk then: in every file, the bytes written are the beginning of those that would have been written. *)
Theorem C117_prefix : forall path flt k name h d evs hf h' k' r, run (dm_new name) h = Ok (d, evs) ->
  fh_session path (fh_start k) evs = Ok hf -> fx_session path flt evs (fh_start k) 0%nat = (h', k', r) ->
  exists whole done, (forall n, fh_disk hf n = whole n ++ skipn (length (whole n)) (k n)) /\ (forall n, fh_disk h' n = done n ++ skipn (length (done n)) (k n)) /\
  (forall n, exists rest, whole n = done n ++ rest) /\ (r = Ok tt -> h' = hf).
Proof.
  intros path flt k name h d evs hf h' k' r R Ef E. destruct (fault_prefix path flt k evs h' k' r hf (opened_run _ _ _ _ R) E Ef) as (W & V & Dw & Dv & P & O).
  assert (Ov : forall l w, overwrite l 0 w = w ++ skipn (length w) l) by (intros l w; unfold overwrite; cbn [Z.to_nat firstn app]; rewrite Z.add_0_l; unfold zlen; now rewrite Nat2Z.id).
  exists W, V. split; [intros n; now rewrite Dw|]. split; [intros n; now rewrite Dv|]. split; [exact P|exact O].
Qed.
(** New files: each is the beginning of the complete file. *)
Theorem C117_new_files : forall path flt name h d evs hf h' k' r, run (dm_new name) h = Ok (d, evs) ->
  fh_session path (fh_start empty_disk) evs = Ok hf -> fx_session path flt evs (fh_start empty_disk) 0%nat = (h', k', r) ->
  forall n, exists rest, fh_disk hf n = fh_disk h' n ++ rest.
Proof.
  intros path flt name h d evs hf h' k' r R Ef E n. destruct (C117_prefix _ _ _ _ _ _ _ _ _ _ _ R Ef E) as (W & V & Dw & Dv & P & _).
  destruct (P n) as [rest Er]. exists rest. rewrite Dw, Dv. unfold empty_disk. rewrite !skipn_nil, !app_nil_r. exact Er.
Qed.
(** Where it stops, also for a session that would fail anyway: all events before are complete, the one it stops in has written the beginning of its
    writes to its own file or nothing at all, and nothing after it has happened. *)
Theorem C117_exact : forall path flt k name h d evs h' k' r, run (dm_new name) h = Ok (d, evs) -> fx_session path flt evs (fh_start k) 0%nat = (h', k', r) ->
  (r = Ok tt /\ fh_session path (fh_start k) evs = Ok h' /\ forall j, (j < k')%nat -> flt j = None) \/
  (exists l e t h1, evs = l ++ e :: t /\ fh_session path (fh_start k) l = Ok h1 /\ r <> Ok tt /\
     ((forall n, fh_disk h' n = fh_disk h1 n) \/
      exists p w done rest, e = EvPacket p /\ writes_of (fh_tracks h1) p w /\ List.concat w = done ++ rest /\
        exists n pos, idx (fh_files h1) (pk_index p) = Some (n, pos) /\ fh_disk h' n = overwrite (fh_disk h1 n) pos done /\ forall m, m <> n -> fh_disk h' m = fh_disk h1 m) /\
     (((forall j, (j < k')%nat -> flt j = None) /\ forall f, fh_event path h1 e <> Ok f) \/
      (r = Panic /\ exists j, k' = S j /\ (forall i, (i < j)%nat -> flt i = None) /\ flt j <> None))).
Proof.
  intros path flt k name h d evs h' k' r R E. pose proof (opened_run _ _ _ _ R) as N. pose proof (fx_session_spec path flt evs (fh_start k) 0%nat) as S. rewrite E in S.
  destruct S as [(-> & Es & _ & C)|(l & e & t & h1 & -> & Es & Nr & St & D)]; [left|right].
  - split; [reflexivity|]. split; [exact Es|]. intros j J. apply C. lia.
  - assert (K : fh_ok h1) by (destruct (session_named path l (fh_start k) h1 (e :: t) (named_start path k) N Es) as [[K _] _]; exact K).
    exists l, e, t, h1. split; [reflexivity|]. split; [exact Es|]. split; [apply Nr|]. split.
    + apply stopped_files; auto.
    + destruct D as [[C F]|(-> & j & -> & _ & C & F)]; [left|right]; (split; [|]); auto; [intros j J; apply C; lia|]. exists j. split; [reflexivity|]. split; [|exact F]. intros i I. apply C. lia.
Qed.

(** The third call, the write of the second packet, fails after one byte was stored. *)
Definition short_write : faults := fun j => if (j =? 2)%nat then Some 1 else None.
Example C117_example : exists d evs h', run (dm_new "ps") (calls [OpSetHandler; OpAudio 0 G711A [1; 2; 3] 0; OpAudio 0 G711A [4; 5; 6] 18000; OpAudio 0 G711A [7] 27000]) = Ok (d, evs) /\
  fx_session "t" short_write evs (fh_start empty_disk) 0%nat = (h', 3%nat, Panic) /\ fh_disk h' "t.audio.0.PCMA"%string = [1; 2; 3; 4] /\
  exists hf, fh_session "t" (fh_start empty_disk) evs = Ok hf /\ fh_disk hf "t.audio.0.PCMA"%string = [1; 2; 3; 4; 5; 6].
Proof.
  do 3 eexists. split; [vm_compute; reflexivity|]. split; [vm_compute; reflexivity|]. split; [vm_compute; reflexivity|]. eexists. split; [vm_compute; reflexivity|]. vm_compute. reflexivity.
Qed.
Print Assumptions C117_stops_at_first.
Print Assumptions C117_prefix.
Print Assumptions C117_new_files.
Print Assumptions C117_exact.

(* ---------------------------------------------------------------------------------------- *)
(** ** C118: who can read the files. *)
(** The mode is written in decimal: 132 is 0204 in octal, write for the owner and read for others. No umask makes the file readable for its owner or its group. *)
Theorem C118_readable_refuted : forall umask, Z.testbit (file_mode umask) 8 = false /\ Z.testbit (file_mode umask) 5 = false.
Proof. intros u. unfold file_mode. rewrite !Z.ldiff_spec. split; reflexivity. Qed.
Theorem C118_mode_partial : forall umask b, 0 <= b -> Z.testbit (file_mode umask) b = (((b =? 7) || (b =? 2)) && negb (Z.testbit umask b)).
Proof.
  intros u b H. unfold file_mode. rewrite Z.ldiff_spec. f_equal. destruct (Z.lt_ge_cases b 8) as [L|L].
  - assert (E : b = 0 \/ b = 1 \/ b = 2 \/ b = 3 \/ b = 4 \/ b = 5 \/ b = 6 \/ b = 7) by lia. repeat (destruct E as [->|E]; [reflexivity|]). now subst b.
  - replace (b =? 7) with false by lia. replace (b =? 2) with false by lia. apply Z.bits_above_log2; [lia|]. change (Z.log2 132) with 7. lia.
Qed.
Example C118_example : file_mode 18 = 132 /\ file_mode 63 = 128 /\ file_mode 0 <> 420.
Proof. repeat split. discriminate. Qed.
Print Assumptions C118_readable_refuted.
Print Assumptions C118_mode_partial.

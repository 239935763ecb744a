(** * Proofs about the file handler on a failing file system. *)
From Coq Require Import String.
From Verif Require UtilModel.
From Verif Require Import Base RingProofs AacModel PacketModel PacketProofs DemuxModel DemuxProofs HandlerModel HandlerSpec HandlerProofs HandlerFaultModel.
From Coq Require Import List.
Import ListNotations.
Local Open Scope list_scope.

(** ** One callback *)
Definition calm (flt : faults) (a b : nat) : Prop := forall j, (a <= j < b)%nat -> flt j = None.
Definition stopped (h : file_handler) (e : event) (h' : file_handler) : Prop :=
  fh_disk h' = fh_disk h \/
  exists p w d rest, e = EvPacket p /\ writes_of (fh_tracks h) p w /\ List.concat w = d ++ rest /\ advanced h (only (pk_index p) d) h'.

Definition step_spec path flt e h k h' k' (r : res unit) : Prop :=
  (k <= k')%nat /\
  ((r = Ok tt /\ fh_event path h e = Ok h' /\ calm flt k k') \/
   ((forall u, r <> Ok u) /\ (fh_ok h -> stopped h e h') /\
    ((calm flt k k' /\ (forall f, fh_event path h e <> Ok f) /\ (r = Panic <-> fh_event path h e = Panic)) \/
     (r = Panic /\ exists j, k' = S j /\ (k <= j)%nat /\ calm flt k j /\ flt j <> None)))).

Lemma calm_nil flt k : calm flt k k.
Proof. intros j H. lia. Qed.
Lemma calm_one flt k : flt k = None -> calm flt k (S k).
Proof. intros E j H. now replace j with k by lia. Qed.
Lemma calm_app flt a b c : calm flt a b -> calm flt b c -> calm flt a c.
Proof. intros H K j J. destruct (Nat.lt_ge_cases j b); [apply H|apply K]; lia. Qed.
Lemma firstn_rest {A} n (l : list A) : exists r, l = firstn n l ++ r.
Proof. exists (skipn n l). now rewrite firstn_skipn. Qed.

(** A single write: [Ok], stopped by a fault, or no such file. *)
Lemma fx_write_cases flt i d h k :
  (exists h1, fh_write h i d = Ok h1 /\ flt k = None /\ fx_write flt i d h k = (h1, S k, Ok tt)) \/
  (exists h1 n, flt k = Some n /\ fh_write h i (firstn (Z.to_nat n) d) = Ok h1 /\ fx_write flt i d h k = (h1, S k, Panic)) \/
  (fh_write h i d = Panic /\ fx_write flt i d h k = (h, k, Panic)).
Proof.
  unfold fx_write. destruct (idx (fh_files h) i) as [f|] eqn:E.
  - pose proof (idx_inv _ _ _ E) as B. destruct (flt k) as [n|] eqn:Ef.
    + destruct (fh_write_total h i (firstn (Z.to_nat n) d) B) as [h1 Ew]. rewrite Ew. right. left. exists h1, n. auto.
    + destruct (fh_write_total h i d B) as [h1 Ew]. rewrite Ew. left. exists h1. auto.
  - right. right. assert (X : forall c, fh_write h i c = Panic) by (intros c; unfold fh_write; now rewrite E). destruct (flt k); rewrite !X; auto.
Qed.

(** A callback that does one or two writes to one file. *)
Lemma stop_one h p w i d rest h1 : fh_ok h -> writes_of (fh_tracks h) p w -> i = pk_index p -> List.concat w = d ++ rest -> fh_write h i d = Ok h1 -> stopped h (EvPacket p) h1.
Proof. intros H W -> E Ew. right. exists p, w, d, rest. split; [reflexivity|]. split; [exact W|]. split; [exact E|]. now apply fh_write_ok. Qed.
Lemma stop_two h p w i a d rest h1 h2 : fh_ok h -> writes_of (fh_tracks h) p w -> i = pk_index p -> List.concat w = a ++ d ++ rest -> fh_write h i a = Ok h1 -> fh_write h1 i d = Ok h2 -> stopped h (EvPacket p) h2.
Proof.
  intros H W -> E E1 E2. right. exists p, w, (a ++ d), rest. split; [reflexivity|]. split; [exact W|]. split; [now rewrite <- app_assoc|]. apply fh_write_ok in E1; [|exact H]. apply fh_write_ok in E2; [|eapply advanced_ok; eauto].
  eapply advanced_ext; [|eapply advanced_trans; eauto]. intros j. unfold only. destruct (_ =? _); reflexivity.
Qed.

Lemma fx_event_spec path flt e h k : let '(h', k', r) := fx_event path flt e h k in step_spec path flt e h k h' k' r.
Proof.
  assert (Triv : forall e, fh_event path h e = Ok h -> step_spec path flt e h k h k (Ok tt)) by (intros e0 E; split; [lia|left; split; [reflexivity|split; [exact E|apply calm_nil]]]).
  assert (Fail : forall e r, (forall f, fh_event path h e <> Ok f) -> (forall u, r <> Ok u) -> (r = Panic <-> fh_event path h e = Panic) -> step_spec path flt e h k h k r).
  { intros e0 r N Nr E. split; [lia|]. right. split; [exact Nr|]. split; [left; reflexivity|]. left. split; [apply calm_nil|auto]. }
  destruct e as [s| | |p| | | |]; cbn [fx_event fx_of]; try (apply Triv; reflexivity).
  - unfold fx_new_track. destruct (file_name path s) as [n| | |] eqn:En.
    + destruct (flt k) as [m|] eqn:Ef.
      * split; [lia|]. right. split; [discriminate|]. split; [left; reflexivity|]. right. split; [reflexivity|]. exists k. split; [reflexivity|]. split; [lia|]. split; [apply calm_nil|congruence].
      * split; [lia|]. left. split; [reflexivity|]. split; [|now apply calm_one]. cbn [fh_event]. unfold fh_new_track. now rewrite En.
    + split; [lia|]. right. split; [discriminate|]. split; [left; reflexivity|]. left. split; [apply calm_nil|]. cbn [fh_event]. unfold fh_new_track. rewrite En. cbn [bind]. split; [discriminate|split; discriminate].
    + split; [lia|]. right. split; [discriminate|]. split; [left; reflexivity|]. left. split; [apply calm_nil|]. cbn [fh_event]. unfold fh_new_track. rewrite En. cbn [bind]. split; [discriminate|tauto].
    + split; [lia|]. right. split; [discriminate|]. split; [left; reflexivity|]. left. split; [apply calm_nil|]. cbn [fh_event]. unfold fh_new_track. rewrite En. cbn [bind]. split; [discriminate|split; discriminate].
  - unfold fx_on_packet, fx_bind, fx_of. destruct (UtilModel.media_string (pk_media p)) as [mm| | |] eqn:Em;
      try (apply Fail; [cbn [fh_event]; unfold fh_on_packet; rewrite Em; cbn [bind]; discriminate|discriminate|cbn [fh_event]; unfold fh_on_packet; rewrite Em; cbn [bind]; split; (discriminate || reflexivity)]).
    destruct (AVMediaTypeVideo =? pk_media p) eqn:Ev.
    + destruct (tm_get (fh_tracks h) (pk_index p)) as [s| | |] eqn:Et;
        try (apply Fail; [cbn [fh_event]; unfold fh_on_packet; rewrite Em; cbn [bind]; rewrite Ev, Et; cbn [bind]; discriminate|discriminate|cbn [fh_event]; unfold fh_on_packet; rewrite Em; cbn [bind]; rewrite Ev, Et; cbn [bind]; split; (discriminate || reflexivity)]).
      destruct (avcc_packet_to_annexb s p) as [[p1 d]| | |] eqn:Ed;
        try (apply Fail; [cbn [fh_event]; unfold fh_on_packet; rewrite Em; cbn [bind]; rewrite Ev, Et; cbn [bind]; rewrite Ed; discriminate|discriminate|cbn [fh_event]; unfold fh_on_packet; rewrite Em; cbn [bind]; rewrite Ev, Et; cbn [bind]; rewrite Ed; cbn [bind]; split; (discriminate || reflexivity)]).
      destruct (conv_same _ _ _ _ Ed) as (Ek & Ety & Ei).
      assert (Es : idx (fh_tracks h) (pk_index p) = Some s) by (unfold tm_get in Et; destruct (idx (fh_tracks h) (pk_index p)); [now injection Et as ->|discriminate]).
      assert (W : forall w, w = match (if pk_key p1 && (PacketTypeAVCC =? pk_type p1) then st_params s else None) with Some c => [cd_annexb c; d] | None => [d] end -> writes_of (fh_tracks h) p w).
      { intros w ->. exists d. split; [unfold access_unit; rewrite Ev; exists s, p1; auto|]. rewrite Ev, Ek, Ety. cbn [andb]. destruct (pk_key p && (PacketTypeAVCC =? pk_type p)); [now rewrite Es|reflexivity]. }
      assert (Fe : fh_event path h (EvPacket p) = (h1 <- match pk_key p1 && (PacketTypeAVCC =? pk_type p1), st_params s with true, Some c => fh_write h (pk_index p1) (cd_annexb c) | _, _ => Ok h end;; h2 <- fh_write h1 (pk_index p1) d;; Ok h2)).
      { cbn [fh_event]. unfold fh_on_packet. rewrite Em. cbn [bind]. rewrite Ev, Et. cbn [bind]. rewrite Ed. cbn [bind]. destruct (match pk_key p1 && _, st_params s with true, Some c => _ | _, _ => _ end) as [h1| | |]; try reflexivity.
        cbn [bind]. destruct (fh_write h1 (pk_index p1) d); reflexivity. }
      assert (One : (if pk_key p1 && (PacketTypeAVCC =? pk_type p1) then st_params s else None) = None -> fh_event path h (EvPacket p) = (h2 <- fh_write h (pk_index p1) d;; Ok h2) ->
        let '(h', k', r) := fx_write flt (pk_index p1) d h k in step_spec path flt (EvPacket p) h k h' k' r).
      { intros Ew F1. rewrite Ew in W. destruct (fx_write_cases flt (pk_index p1) d h k) as [(h1 & E1 & F & ->)|[(h1 & n & F & E1 & ->)|[E1 ->]]].
        - split; [lia|]. left. split; [reflexivity|]. split; [now rewrite F1, E1|now apply calm_one].
        - split; [lia|]. right. split; [discriminate|]. split; [|right; split; [reflexivity|]; exists k; split; [reflexivity|]; split; [lia|]; split; [apply calm_nil|congruence]].
          intros H. destruct (firstn_rest (Z.to_nat n) d) as [rest Er]. eapply (stop_one h p [d] _ _ rest); eauto. cbn [List.concat]. rewrite app_nil_r. exact Er.
        - apply Fail; [rewrite F1, E1; discriminate|discriminate|rewrite F1, E1; cbn [bind]; tauto]. }
      destruct (pk_key p1 && (PacketTypeAVCC =? pk_type p1)) eqn:Eb; [destruct (st_params s) as [c|] eqn:Ep|].
      * specialize (W _ eq_refl). destruct (fx_write_cases flt (pk_index p1) (cd_annexb c) h k) as [(h1 & E1 & F & ->)|[(h1 & n & F & E1 & ->)|[E1 ->]]].
        -- destruct (fx_write_cases flt (pk_index p1) d h1 (S k)) as [(h2 & E2 & F2 & ->)|[(h2 & n & F2 & E2 & ->)|[E2 ->]]].
           ++ split; [lia|]. left. split; [reflexivity|]. split; [rewrite Fe, E1; cbn [bind]; now rewrite E2|]. apply (calm_app _ _ (S k)); now apply calm_one.
           ++ split; [lia|]. right. split; [discriminate|]. split; [|right; split; [reflexivity|]; exists (S k); split; [reflexivity|]; split; [lia|]; split; [now apply calm_one|congruence]].
              intros H. destruct (firstn_rest (Z.to_nat n) d) as [rest Er]. eapply (stop_two h p _ _ _ _ rest); eauto. cbn [List.concat]. rewrite app_nil_r. f_equal. exact Er.
           ++ split; [lia|]. right. split; [discriminate|]. split.
              ** intros H. eapply (stop_one h p _ _ _ d); eauto. cbn [List.concat]. now rewrite app_nil_r.
              ** left. split; [now apply calm_one|]. rewrite Fe, E1. cbn [bind]. rewrite E2. cbn [bind]. split; [discriminate|tauto].
        -- split; [lia|]. right. split; [discriminate|]. split; [|right; split; [reflexivity|]; exists k; split; [reflexivity|]; split; [lia|]; split; [apply calm_nil|congruence]].
           intros H. destruct (firstn_rest (Z.to_nat n) (cd_annexb c)) as [rest Er]. eapply (stop_one h p _ _ _ (rest ++ d)); eauto. cbn [List.concat]. rewrite app_nil_r, app_assoc. f_equal. exact Er.
        -- apply Fail; [rewrite Fe, E1; discriminate|discriminate|rewrite Fe, E1; cbn [bind]; tauto].
      * apply One; [reflexivity|]. rewrite Fe. reflexivity.
      * apply One; [reflexivity|]. rewrite Fe. reflexivity.
    + assert (Fe : fh_event path h (EvPacket p) = (h2 <- fh_write h (pk_index p) (pk_data p);; Ok h2)).
      { cbn [fh_event]. unfold fh_on_packet. rewrite Em. cbn [bind]. rewrite Ev. destruct (fh_write h (pk_index p) (pk_data p)); reflexivity. }
      destruct (fx_write_cases flt (pk_index p) (pk_data p) h k) as [(h1 & E1 & F & ->)|[(h1 & n & F & E1 & ->)|[E1 ->]]].
      * split; [lia|]. left. split; [reflexivity|]. split; [now rewrite Fe, E1|now apply calm_one].
      * split; [lia|]. right. split; [discriminate|]. split; [|right; split; [reflexivity|]; exists k; split; [reflexivity|]; split; [lia|]; split; [apply calm_nil|congruence]].
        intros H. destruct (firstn_rest (Z.to_nat n) (pk_data p)) as [rest Er]. eapply (stop_one h p [pk_data p] _ _ rest); eauto; [|cbn [List.concat]; rewrite app_nil_r; exact Er].
        exists (pk_data p). unfold access_unit. rewrite Ev. auto.
      * apply Fail; [rewrite Fe, E1; discriminate|discriminate|rewrite Fe, E1; cbn [bind]; tauto].
Qed.

(** ** Sessions *)
Definition opened (l : list event) : list stream := flat_map (fun e => match e with EvNewTrack s => [s] | _ => [] end) l.
Definition named (path : string) (h : file_handler) : Prop := fh_ok h /\ Forall2 (fun s n => file_name path s = Ok n) (fh_tracks h) (map fst (fh_files h)).

Lemma named_start path k : named path (fh_start k).
Proof. split; [|constructor]. split; [constructor|]. split; [constructor|reflexivity]. Qed.
Lemma event_named path h e h' l : named path h -> NoDup (map st_index (fh_tracks h ++ opened (e :: l))) -> fh_event path h e = Ok h' ->
  named path h' /\ fh_tracks h' ++ opened l = fh_tracks h ++ opened (e :: l).
Proof.
  intros [H F] N E. destruct e as [s| | |p| | | |]; cbn [fh_event opened flat_map app] in *; try (injection E as <-; split; [split; assumption|reflexivity]).
  - unfold fh_new_track in E. destruct (file_name path s) as [n| | |] eqn:En; try discriminate. cbn [bind] in E. injection E as <-. unfold tm_add. cbn [fh_tracks fh_files fh_disk]. split; [|now rewrite <- app_assoc].
    assert (F' : Forall2 (fun s n => file_name path s = Ok n) (fh_tracks h ++ [s]) (map fst (fh_files h ++ [(n, 0)]))) by (rewrite map_app; apply Forall2_app; [exact F|repeat constructor; exact En]).
    split; [|exact F']. destruct H as (N1 & F1 & L1). split; [|split].
    + cbn [fh_files]. eapply names_nodup; [exact F'|]. change (s :: flat_map (fun e : event => match e with EvNewTrack s0 => [s0] | _ => [] end) l) with ([s] ++ opened l) in N.
      rewrite app_assoc, map_app in N. clear - N. set (a := map st_index (fh_tracks h ++ [s])) in *. clearbody a. induction a as [|x a IH]; [constructor|]. cbn [app] in N. apply NoDup_cons_iff in N as [N1 N2]. constructor; [|auto].
      intros I. apply N1, in_or_app. now left.
    + cbn [fh_files fh_disk]. apply Forall_app. split; [exact F1|]. constructor; [|constructor]. cbn [fst snd]. pose proof (zlen_nonneg (fh_disk h n)). lia.
    + cbn [fh_files fh_tracks]. rewrite !app_length, L1. reflexivity.
  - destruct (fh_on_packet h p) as [[h1 q]| | |] eqn:E1; try discriminate. cbn [bind] in E. injection E as <-. destruct (fh_step _ _ _ _ H E1) as (w & _ & A). pose proof (advanced_ok _ _ _ H A) as H'. pose proof (advanced_names _ _ _ A) as En.
    destruct A as (T & _). split; [|now rewrite T]. split; [exact H'|]. now rewrite T, En.
Qed.
Lemma session_named path l : forall h h' t, named path h -> NoDup (map st_index (fh_tracks h ++ opened (l ++ t))) -> fh_session path h l = Ok h' ->
  named path h' /\ fh_tracks h' ++ opened t = fh_tracks h ++ opened (l ++ t).
Proof.
  induction l as [|e l IH]; intros h h' t H N E; cbn [fh_session app] in *; [injection E as <-; auto|]. destruct (fh_event path h e) as [h1| | |] eqn:E1; try discriminate. cbn [bind] in E.
  destruct (event_named _ _ _ _ _ H N E1) as [H1 T1]. rewrite <- T1 in N. destruct (IH _ _ _ H1 N E) as [H2 T2]. split; [exact H2|congruence].
Qed.

Definition session_spec_at path flt evs h k h' k' (r : res unit) : Prop :=
  (r = Ok tt /\ fh_session path h evs = Ok h' /\ (k <= k')%nat /\ calm flt k k') \/
  (exists l e t h1, evs = l ++ e :: t /\ fh_session path h l = Ok h1 /\ (forall u, r <> Ok u) /\ (fh_ok h1 -> stopped h1 e h') /\
     ((calm flt k k' /\ (forall f, fh_event path h1 e <> Ok f)) \/ (r = Panic /\ exists j, k' = S j /\ (k <= j)%nat /\ calm flt k j /\ flt j <> None))).
Lemma fx_session_spec path flt evs : forall h k, let '(h', k', r) := fx_session path flt evs h k in session_spec_at path flt evs h k h' k' r.
Proof.
  induction evs as [|e evs IH]; intros h k; cbn [fx_session]; [left; cbn; split; [reflexivity|]; split; [reflexivity|]; split; [lia|apply calm_nil]|].
  unfold fx_bind. pose proof (fx_event_spec path flt e h k) as St. destruct (fx_event path flt e h k) as [[h1 k1] r1].
  destruct St as (Lk & [(-> & E & C)|(Nr & St & D)]).
  - specialize (IH h1 k1). destruct (fx_session path flt evs h1 k1) as [[h2 k2] r2]. destruct IH as [(-> & Es & Lk2 & C2)|(l & e' & t & h3 & -> & Es & Nr & St & D)].
    + left. split; [reflexivity|]. split; [cbn [fh_session]; now rewrite E|]. split; [lia|]. eapply calm_app; eauto.
    + right. exists (e :: l), e', t, h3. split; [reflexivity|]. split; [cbn [fh_session]; now rewrite E|]. split; [exact Nr|]. split; [exact St|].
      destruct D as [[C2 N]|(-> & j & -> & Lj & C2 & Fj)]; [left; split; [eapply calm_app; eauto|exact N]|]. right. split; [reflexivity|]. exists j. split; [reflexivity|]. split; [lia|]. split; [eapply calm_app; eauto|exact Fj].
  - assert (R : session_spec_at path flt (e :: evs) h k h1 k1 r1).
    { right. exists [], e, evs, h. split; [reflexivity|]. split; [reflexivity|]. split; [exact Nr|]. split; [exact St|]. destruct D as [(C & N & _)|D]; [left; auto|right; exact D]. }
    destruct r1 as [u| | |]; [now destruct (Nr u)|exact R|exact R|exact R].
Qed.

(** ** The bytes a file holds *)
Definition prefix (a b : list Z) : Prop := exists r, b = a ++ r.
Lemma prefix_refl a : prefix a a.
Proof. exists []. now rewrite app_nil_r. Qed.
Lemma prefix_trans a b c : prefix a b -> prefix b c -> prefix a c.
Proof. intros [r ->] [q ->]. exists (r ++ q). now rewrite app_assoc. Qed.

(** [W n] is what was written to file [n] since the disk was [k]. *)
Definition laid (k : disk) (h : file_handler) (W : string -> list Z) : Prop :=
  (forall n, fh_disk h n = overwrite (k n) 0 (W n)) /\ (forall n pos, In (n, pos) (fh_files h) -> pos = zlen (W n)) /\ (forall n, ~ In n (map fst (fh_files h)) -> W n = []).
Definition add (h : file_handler) (i : Z) (d : list Z) (W : string -> list Z) : string -> list Z :=
  fun n => match idx (fh_files h) i with Some (m, _) => if (m =? n)%string then W n ++ d else W n | None => W n end.

Lemma laid_start k : laid k (fh_start k) (fun _ => []).
Proof. split; [intros n; cbn [fh_start fh_disk]; now rewrite overwrite_nil by lia|]. split; [intros n pos []|reflexivity]. Qed.
Lemma laid_advanced k h W i d h' : fh_ok h -> laid k h W -> advanced h (only i d) h' -> laid k h' (add h i d W).
Proof.
  intros (N & F & _) (D & P & O) A. pose proof (advanced_names _ _ _ A) as En. destruct A as (_ & L & A & A').
  assert (Z0 : forall n, 0 <= 0 <= zlen (k n)) by (intros n; pose proof (zlen_nonneg (k n)); lia).
  assert (J : forall j n pos, nth_error (fh_files h) j = Some (n, pos) -> add h i d W n = W n ++ only i d j).
  { intros j n pos E. unfold add, only. destruct (Z.of_nat j =? i) eqn:Ej.
    - replace i with (Z.of_nat j) by lia. rewrite idx_nth, Nat2Z.id, E by lia. now rewrite String.eqb_refl.
    - rewrite app_nil_r. destruct (idx (fh_files h) i) as [[m q]|] eqn:Ei; [|reflexivity]. destruct (String.eqb_spec m n) as [->|]; [|reflexivity]. exfalso. pose proof (idx_inv _ _ _ Ei). rewrite idx_nth in Ei by lia.
      assert (j = Z.to_nat i); [|lia]. rewrite NoDup_nth_error in N. apply N; [rewrite map_length; apply nth_error_Some; congruence|]. rewrite (map_nth_error fst _ _ E), (map_nth_error fst _ _ Ei). reflexivity. }
  assert (O' : forall n, ~ In n (map fst (fh_files h)) -> add h i d W n = W n).
  { intros n I. unfold add. destruct (idx (fh_files h) i) as [[m q]|] eqn:Ei; [|reflexivity]. destruct (String.eqb_spec m n) as [->|]; [|reflexivity]. exfalso. apply I. pose proof (idx_inv _ _ _ Ei). rewrite idx_nth in Ei by lia.
    apply nth_error_In in Ei. now apply (in_map fst) in Ei. }
  split; [|split].
  - intros n. destruct (in_dec string_dec n (map fst (fh_files h))) as [I|I].
    + apply in_map_iff in I as ([n' pos] & E & I). cbn in E. subst n'. pose proof (P _ _ I) as Ep. apply In_nth_error in I as [j E]. destruct (A j n pos E) as [_ ->]. rewrite (J _ _ _ E), D, Ep.
      rewrite <- (Z.add_0_l (zlen (W n))). now apply overwrite_app.
    + rewrite A', O', D by exact I. reflexivity.
  - intros n pos' I. apply In_nth_error in I as [j E]. destruct (nth_error (fh_files h) j) as [[m pos]|] eqn:Em.
    + destruct (A j m pos Em) as [E1 _]. rewrite E1 in E. injection E as <- <-. rewrite (J _ _ _ Em), zlen_app. f_equal. apply P. now apply nth_error_In in Em.
    + apply nth_error_None in Em. assert (j < length (fh_files h'))%nat by (apply nth_error_Some; congruence). lia.
  - intros n I. rewrite En in I. rewrite O' by exact I. now apply O.
Qed.
Lemma add_prefix h i d W n : prefix (W n) (add h i d W n).
Proof. unfold add. destruct (idx (fh_files h) i) as [[m q]|]; [|apply prefix_refl]. destruct (_ =? _)%string; [now exists d|apply prefix_refl]. Qed.
Lemma add_more h i d rest W n : prefix (add h i d W n) (add h i (d ++ rest) W n).
Proof. unfold add. destruct (idx (fh_files h) i) as [[m q]|]; [|apply prefix_refl]. destruct (_ =? _)%string; [exists rest; now rewrite app_assoc|apply prefix_refl]. Qed.

Lemma fresh_name path h s n l : named path h -> NoDup (map st_index (fh_tracks h ++ opened (EvNewTrack s :: l))) -> file_name path s = Ok n -> ~ In n (map fst (fh_files h)).
Proof.
  intros [H F] N En I. destruct (Forall2_in_r _ _ _ _ F I) as (t & J & K). destruct (file_name_inj _ _ _ _ En K) as (_ & Ei & _). rewrite map_app in N. cbn [opened flat_map app map] in N.
  apply NoDup_remove_2 in N. apply N, in_or_app. left. rewrite Ei. now apply in_map.
Qed.
Lemma event_laid path k h e h' l W : named path h -> NoDup (map st_index (fh_tracks h ++ opened (e :: l))) -> laid k h W -> fh_event path h e = Ok h' ->
  exists W', laid k h' W' /\ (forall n, prefix (W n) (W' n)) /\
  (forall p w d rest, e = EvPacket p -> writes_of (fh_tracks h) p w -> List.concat w = d ++ rest -> forall n, prefix (add h (pk_index p) d W n) (W' n)).
Proof.
  intros Hn N La E. assert (Triv : h' = h -> (forall p, e <> EvPacket p) -> exists W', laid k h' W' /\ (forall n, prefix (W n) (W' n)) /\
    (forall p w d rest, e = EvPacket p -> writes_of (fh_tracks h) p w -> List.concat w = d ++ rest -> forall n, prefix (add h (pk_index p) d W n) (W' n))).
  { intros -> Ne. exists W. split; [exact La|]. split; [intros n; apply prefix_refl|]. intros p w d rest Ep. now destruct (Ne p). }
  destruct e as [s| | |p| | | |]; cbn [fh_event] in E; try (apply Triv; [congruence|discriminate]).
  - unfold fh_new_track in E. destruct (file_name path s) as [n| | |] eqn:En; try discriminate. cbn [bind] in E. injection E as <-. pose proof (fresh_name _ _ _ _ _ Hn N En) as Fr. destruct La as (D & P & O).
    exists W. split; [|split; [intros m; apply prefix_refl|discriminate]]. split; [exact D|]. cbn [fh_files]. split.
    + intros m pos I. apply in_app_or in I as [I|[I|[]]]; [now apply P|]. injection I as <- <-. rewrite (O n Fr). reflexivity.
    + intros m I. apply O. intros J. apply I. rewrite map_app. apply in_or_app. now left.
  - destruct (fh_on_packet h p) as [[h1 q]| | |] eqn:E1; try discriminate. cbn [bind] in E. injection E as <-. destruct (fh_step _ _ _ _ (proj1 Hn) E1) as (w & Wr & A).
    exists (add h (pk_index p) (List.concat w) W). split; [eapply laid_advanced; eauto; apply Hn|]. split; [intros n; apply add_prefix|].
    intros p0 w0 d rest Ep W0 Ew n. injection Ep as <-.
    assert (w0 = w) as ->.
    { destruct W0 as (d0 & A0 & ->), Wr as (d1 & A1 & ->). assert (d0 = d1) as ->; [|reflexivity]. unfold access_unit in *. destruct (AVMediaTypeVideo =? pk_media p); [|congruence].
      destruct A0 as (s0 & q0 & X0 & Y0), A1 as (s1 & q1 & X1 & Y1). congruence. }
    rewrite Ew. apply add_more.
Qed.
Lemma session_laid path k l : forall h h' t W, named path h -> NoDup (map st_index (fh_tracks h ++ opened (l ++ t))) -> laid k h W -> fh_session path h l = Ok h' ->
  exists W', laid k h' W' /\ (forall n, prefix (W n) (W' n)).
Proof.
  induction l as [|e l IH]; intros h h' t W Hn N La E; cbn [fh_session app] in *; [injection E as <-; exists W; split; [exact La|intros n; apply prefix_refl]|].
  destruct (fh_event path h e) as [h1| | |] eqn:E1; try discriminate. cbn [bind] in E. destruct (event_laid _ _ _ _ _ _ _ Hn N La E1) as (W1 & La1 & P1 & _). destruct (event_named _ _ _ _ _ Hn N E1) as [Hn1 T1].
  rewrite <- T1 in N. destruct (IH _ _ _ _ Hn1 N La1 E) as (W2 & La2 & P2). exists W2. split; [exact La2|]. intros n. eapply prefix_trans; eauto.
Qed.

Lemma fh_session_app path l t : forall h, fh_session path h (l ++ t) = (h1 <- fh_session path h l;; fh_session path h1 t).
Proof. induction l as [|e l IH]; intros h; cbn [app fh_session bind]; [reflexivity|]. destruct (fh_event path h e); cbn [bind]; auto. Qed.

Lemma fault_prefix path flt k evs h' k' r hf : NoDup (map st_index (opened evs)) -> fx_session path flt evs (fh_start k) 0%nat = (h', k', r) -> fh_session path (fh_start k) evs = Ok hf ->
  exists W V, (forall n, fh_disk hf n = overwrite (k n) 0 (W n)) /\ (forall n, fh_disk h' n = overwrite (k n) 0 (V n)) /\ (forall n, prefix (V n) (W n)) /\ (r = Ok tt -> h' = hf).
Proof.
  intros N E Ef. pose proof (fx_session_spec path flt evs (fh_start k) 0%nat) as S. rewrite E in S. pose proof (named_start path k) as Hn. pose proof (laid_start k) as La.
  destruct S as [(-> & Es & _ & _)|(l & e & t & h1 & -> & Es & Nr & St & D)].
  - assert (h' = hf) as -> by congruence. assert (N' : NoDup (map st_index (fh_tracks (fh_start k) ++ opened (evs ++ [])))) by (rewrite app_nil_r; exact N). destruct (session_laid path k evs _ _ [] _ Hn N' La Ef) as (W & (D & _) & _). exists W, W. split; [exact D|]. split; [exact D|]. split; [intros n; apply prefix_refl|reflexivity].
  - change (opened (l ++ e :: t)) with (fh_tracks (fh_start k) ++ opened (l ++ e :: t)) in N. destruct (session_laid path k l _ _ (e :: t) _ Hn N La Es) as (W1 & La1 & _).
    destruct (session_named path l _ _ (e :: t) Hn N Es) as [Hn1 T1]. rewrite <- T1 in N. rewrite fh_session_app, Es in Ef. cbn [bind fh_session] in Ef.
    destruct (fh_event path h1 e) as [h2| | |] eqn:E2; try discriminate. cbn [bind] in Ef. destruct (event_laid _ _ _ _ _ _ _ Hn1 N La1 E2) as (W2 & La2 & P2 & Q2). destruct (event_named _ _ _ _ _ Hn1 N E2) as [Hn2 T2]. rewrite <- T2 in N.
    rewrite <- (app_nil_r t) in N. destruct (session_laid path k t _ _ [] _ Hn2 N La2 Ef) as (W3 & (D3 & _) & P3).
    destruct (St (proj1 Hn1)) as [Ed|(p & w & d & rest & -> & Wr & Ew & A)].
    + exists W3, W1. split; [exact D3|]. split; [intros n; rewrite Ed; apply La1|]. split; [intros n; eapply prefix_trans; eauto|]. intros ->. now destruct (Nr tt).
    + exists W3, (add h1 (pk_index p) d W1). split; [exact D3|]. split; [apply (laid_advanced k h1 W1 _ _ h' (proj1 Hn1) La1 A)|]. split; [|intros ->; now destruct (Nr tt)].
      intros n. eapply prefix_trans; [|apply P3]. eapply Q2; eauto.
Qed.

(** ** Only the answers to the calls made matter *)
Definition agrees {A} (flt flt' : faults) (m m' : fx A) : Prop := forall h k h' k' r, m h k = (h', k', r) ->
  (k <= k')%nat /\ ((forall j, (k <= j < k')%nat -> flt j = flt' j) -> m' h k = (h', k', r)).
Lemma agrees_write flt flt' i d : agrees flt flt' (fx_write flt i d) (fx_write flt' i d).
Proof.
  intros h k h' k' r E. destruct (fx_write_cases flt i d h k) as [(h1 & E1 & F & X)|[(h1 & n & F & E1 & X)|[E1 X]]]; rewrite X in E; injection E as <- <- <-.
  - split; [lia|]. intros A. unfold fx_write. rewrite <- (A k), F, E1 by lia. reflexivity.
  - split; [lia|]. intros A. unfold fx_write. rewrite <- (A k), F, E1 by lia. reflexivity.
  - split; [lia|]. intros _. destruct (fx_write_cases flt' i d h k) as [(h2 & E2 & _)|[(h2 & n & F & E2 & _)|[_ ->]]]; [congruence| |reflexivity]. exfalso.
    unfold fh_write in E1, E2. destruct (idx (fh_files h) i) as [[m pos]|] eqn:Ei; [|discriminate]. cbn [of_opt bind] in E1. pose proof (idx_inv _ _ _ Ei) as B. rewrite upd_eq in E1 by exact B. discriminate.
Qed.
Lemma agrees_const {A} flt flt' (m : fx A) : (forall h k h' k' r, m h k = (h', k', r) -> k' = k) -> agrees flt flt' m m.
Proof. intros K h k h' k' r E. pose proof (K _ _ _ _ _ E) as ->. split; [lia|]. intros _. exact E. Qed.
Lemma agrees_bind {A B} flt flt' (m m' : fx A) (f f' : A -> fx B) : agrees flt flt' m m' -> (forall a, agrees flt flt' (f a) (f' a)) -> agrees flt flt' (fx_bind m f) (fx_bind m' f').
Proof.
  intros Am Af h k h' k' r. unfold fx_bind. destruct (m h k) as [[h1 k1] r1] eqn:E1. destruct (Am _ _ _ _ _ E1) as [L1 A1].
  destruct r1 as [a| | |]; [|intros E; injection E as <- <- <-; (split; [exact L1|]); intros Q; now rewrite (A1 Q)..].
  intros E. destruct (Af a _ _ _ _ _ E) as [L2 A2]. split; [lia|]. intros Q. rewrite A1 by (intros j J; apply Q; lia). apply A2. intros j J. apply Q. lia.
Qed.
Lemma agrees_event path flt flt' e : agrees flt flt' (fx_event path flt e) (fx_event path flt' e).
Proof.
  assert (K : forall A (r : res A), agrees flt flt' (fx_of r) (fx_of r)) by (intros A r; apply agrees_const; intros h k h' k' r' E; now injection E).
  destruct e as [s| | |p| | | |]; cbn [fx_event]; try apply K.
  - intros h k h' k' r. unfold fx_new_track. destruct (file_name path s) as [n| | |]; try (intros E; injection E as <- <- <-; split; [lia|reflexivity]).
    destruct (flt k) as [m|] eqn:F; intros E; injection E as <- <- <-; (split; [lia|]); intros Q; rewrite <- (Q k), F by lia; reflexivity.
  - unfold fx_on_packet. apply agrees_bind; [apply K|]. intros _. destruct (AVMediaTypeVideo =? pk_media p); [|apply agrees_write].
    apply agrees_bind; [apply agrees_const; intros h k h' k' r E; now injection E|]. intros s. apply agrees_bind; [apply K|]. intros [p1 d].
    apply agrees_bind; [|intros _; apply agrees_write]. destruct (pk_key p1 && _); [destruct (st_params s)|]; try apply agrees_write; apply K.
Qed.
Lemma agrees_session path flt flt' evs : agrees flt flt' (fx_session path flt evs) (fx_session path flt' evs).
Proof. induction evs as [|e evs IH]; cbn [fx_session]; [apply agrees_const; intros h k h' k' r E; now injection E|]. apply agrees_bind; [apply agrees_event|intros _; exact IH]. Qed.

Definition no_faults : faults := fun _ => None.
Lemma no_faults_session path evs h : (exists hf n, fx_session path no_faults evs h 0%nat = (hf, n, Ok tt) /\ fh_session path h evs = Ok hf) \/ (forall f, fh_session path h evs <> Ok f).
Proof.
  pose proof (fx_session_spec path no_faults evs h 0%nat) as S. destruct (fx_session path no_faults evs h 0%nat) as [[hf n] r]. destruct S as [(-> & Es & _)|(l & e & t & h1 & -> & Es & Nr & St & D)]; [left; eauto|]. right. intros f.
  destruct D as [[_ N]|(_ & j & _ & _ & _ & F)]; [|now destruct F]. rewrite fh_session_app, Es. cbn [bind fh_session]. destruct (fh_event path h1 e) as [h2| | |] eqn:E2; try discriminate. now destruct (N h2).
Qed.
Lemma fault_when path evs h hf n : fx_session path no_faults evs h 0%nat = (hf, n, Ok tt) -> forall flt,
  (calm flt 0 n -> fx_session path flt evs h 0%nat = (hf, n, Ok tt)) /\
  (forall j, (j < n)%nat -> calm flt 0 j -> flt j <> None -> exists h', fx_session path flt evs h 0%nat = (h', S j, Panic)).
Proof.
  intros E flt. split.
  - intros C. apply (agrees_session path no_faults flt evs _ _ _ _ _ E). intros j J. symmetry. now apply C.
  - intros j Lj C F. pose proof (fx_session_spec path flt evs h 0%nat) as S. destruct (fx_session path flt evs h 0%nat) as [[h' k'] r] eqn:Ex. destruct S as [(-> & Es & _ & C')|(l & e & t & h1 & -> & Es & Nr & St & D)].
    + exfalso. assert (X : fx_session path no_faults evs h 0%nat = (h', k', Ok tt)) by (apply (agrees_session path flt no_faults evs _ _ _ _ _ Ex); intros i I; now apply C'). rewrite X in E. injection E as _ <-. apply F, C'. lia.
    + destruct D as [[C' N]|(-> & i & -> & _ & C' & Fi)].
      * exfalso. destruct (no_faults_session path (l ++ e :: t) h) as [(hf' & n' & _ & Ef)|Nf].
        -- rewrite fh_session_app, Es in Ef. cbn [bind fh_session] in Ef. destruct (fh_event path h1 e) as [h2| | |] eqn:E2; try discriminate. now destruct (N h2).
        -- pose proof (fx_session_spec path no_faults (l ++ e :: t) h 0%nat) as S. rewrite E in S. destruct S as [(_ & Ef & _)|(l' & e' & t' & h3 & _ & _ & Nr' & _)]; [now destruct (Nf hf)|now destruct (Nr' tt)].
      * exists h'. replace i with j; [reflexivity|]. destruct (Nat.lt_trichotomy i j) as [L|[L|L]]; [|auto|]; exfalso; [apply Fi, C; lia|apply F, C'; lia].
Qed.

(** The tracks a demuxer announces have different indices. *)
Lemma opened_handler l : opened (handler_events l) = opened l.
Proof. induction l as [|e l IH]; [reflexivity|]. destruct e; cbn [handler_events filter is_handler]; auto; cbn [opened flat_map app]; try exact IH. f_equal. exact IH. Qed.
Lemma opened_run name h d evs : run (dm_new name) h = Ok (d, evs) -> NoDup (map st_index (opened evs)).
Proof.
  intros R. pose proof (reach_order _ _ _ _ R) as O. pose proof (run_wf _ _ _ _ (wf_new name) R) as W. rewrite <- opened_handler. unfold call_order in O.
  assert (P : forall ps, opened (map EvPacket ps) = []) by (induction ps; auto). assert (T : forall ts, opened (map EvNewTrack ts) = ts) by (induction ts as [|s ts IH]; [reflexivity|]; cbn; f_equal; exact IH).
  assert (A : forall a b, opened (a ++ b) = opened a ++ opened b) by (intros; unfold opened; apply flat_map_app).
  destruct (dm_completed d); [destruct O as [[_ O]|[_ [ps O]]]|]; rewrite O; try constructor. rewrite !A, T, P. cbn [opened flat_map app]. rewrite app_nil_r. now apply wf_indices.
Qed.
Lemma stopped_files h e h' : fh_ok h -> stopped h e h' ->
  (forall n, fh_disk h' n = fh_disk h n) \/
  exists p w d rest, e = EvPacket p /\ writes_of (fh_tracks h) p w /\ List.concat w = d ++ rest /\
    exists n pos, idx (fh_files h) (pk_index p) = Some (n, pos) /\ fh_disk h' n = overwrite (fh_disk h n) pos d /\ forall m, m <> n -> fh_disk h' m = fh_disk h m.
Proof.
  intros K [E|(p & w & d & rest & -> & W & C & A)]; [left; intros n; now rewrite E|]. destruct K as (N & F & _). rewrite Forall_forall in F. destruct A as (_ & _ & A & O).
  assert (Z : forall j n pos, nth_error (fh_files h) j = Some (n, pos) -> Z.of_nat j <> pk_index p -> fh_disk h' n = fh_disk h n).
  { intros j n pos J Nj. destruct (A j n pos J) as [_ ->]. unfold only. replace (Z.of_nat j =? pk_index p) with false by lia. apply overwrite_nil. apply nth_error_In in J. now apply F in J. }
  destruct (idx (fh_files h) (pk_index p)) as [[n pos]|] eqn:Ei.
  - right. exists p, w, d, rest. split; [reflexivity|]. split; [exact W|]. split; [exact C|]. exists n, pos. split; [exact Ei|]. pose proof (idx_inv _ _ _ Ei) as B.
    assert (J : nth_error (fh_files h) (Z.to_nat (pk_index p)) = Some (n, pos)) by (unfold idx in Ei; destruct (pk_index p <? 0); [discriminate|exact Ei]). split.
    + destruct (A _ n pos J) as [_ ->]. unfold only. rewrite Z2Nat.id, Z.eqb_refl by lia. reflexivity.
    + intros m Nm. destruct (in_dec string_dec m (map fst (fh_files h))) as [I|I]; [|now apply O]. apply in_map_iff in I as ([m' q] & <- & I). cbn [fst] in *. apply In_nth_error in I as [j I]. apply (Z j m' q I). intros Ej.
      replace (Z.to_nat (pk_index p)) with j in J by lia. congruence.
  - left. intros n. destruct (in_dec string_dec n (map fst (fh_files h))) as [I|I]; [|now apply O]. apply in_map_iff in I as ([m q] & <- & I). cbn [fst]. apply In_nth_error in I as [j I]. apply (Z j m q I). intros Ej.
    rewrite <- Ej in Ei. unfold idx in Ei. replace (Z.of_nat j <? 0) with false in Ei by lia. rewrite Nat2Z.id in Ei. congruence.
Qed.

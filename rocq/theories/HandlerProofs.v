(** * Proofs about the file handler. *)
From Coq Require Import String Ascii Decimal DecimalString.
From Verif Require UtilModel.
From Verif Require Import Base RingProofs PropertiesUtil AacModel PacketModel PacketProofs DemuxModel DemuxProofs HandlerModel HandlerSpec.
From Coq Require Import Permutation List.
Import ListNotations.
Local Open Scope list_scope.

(** ** File names *)
Fixpoint dotless (s : string) : Prop := match s with EmptyString => True | String c t => c <> "."%char /\ dotless t end.
Lemma dotless_split a : forall b x y, dotless a -> dotless b -> (a ++ "." ++ x = b ++ "." ++ y)%string -> a = b /\ x = y.
Proof.
  induction a as [|c a IH]; intros [|e b] x y Da Db E; cbn in *.
  - now injection E.
  - destruct Db as [Db _]. injection E as E _. congruence.
  - destruct Da as [Da _]. injection E as E _. congruence.
  - injection E as -> E. destruct (IH b x y) as [-> ->]; tauto.
Qed.
Lemma string_app_inv_l p : forall x y, (p ++ x = p ++ y)%string -> x = y.
Proof. induction p as [|c p IH]; cbn; intros x y E; auto. injection E as E. auto. Qed.
Lemma dotless_uint d : dotless (NilEmpty.string_of_uint d).
Proof. induction d; cbn; auto; split; auto; discriminate. Qed.
Lemma dotless_itoa z : dotless (UtilModel.itoa z).
Proof.
  unfold UtilModel.itoa, NilZero.string_of_int. destruct (Z.to_int z) as [d|d]; cbn [dotless].
  - unfold NilZero.string_of_uint. destruct d; try apply dotless_uint; cbn; repeat split; discriminate.
  - split; [discriminate|]. unfold NilZero.string_of_uint. destruct d; try apply dotless_uint; cbn; repeat split; discriminate.
Qed.
Lemma dotless_media a m : UtilModel.media_string a = Ok m -> dotless m.
Proof.
  unfold UtilModel.media_string. repeat (destruct (_ =? _); [intros [= <-]; cbn; repeat split; discriminate|]). discriminate.
Qed.
Lemma media_inj a b m : UtilModel.media_string a = Ok m -> UtilModel.media_string b = Ok m -> a = b.
Proof. apply (proj1 (proj2 (proj2 (proj2 C74_names_unambiguous)))). Qed.
Lemma file_name_inj path s t n : file_name path s = Ok n -> file_name path t = Ok n -> st_media s = st_media t /\ st_index s = st_index t /\ st_codec s = st_codec t.
Proof.
  unfold file_name. destruct (UtilModel.media_string (st_media s)) as [m| | |] eqn:Es; cbn [bind]; try discriminate.
  destruct (UtilModel.media_string (st_media t)) as [k| | |] eqn:Et; cbn [bind]; try discriminate. intros [= <-] [= E].
  apply string_app_inv_l in E. cbn in E. injection E as E. apply dotless_split in E; try (eapply dotless_media; eauto). destruct E as [-> E].
  apply dotless_split in E as [E1 E2]; try apply dotless_itoa. split; [eapply media_inj; eauto|]. split; [symmetry; now apply itoa_inj|]. symmetry. now apply (proj1 C74_names_unambiguous).
Qed.

(** ** Writing *)
Lemma overwrite_nil old pos : 0 <= pos -> overwrite old pos [] = old.
Proof. intros P. unfold overwrite. change (zlen (@nil Z)) with 0. rewrite Z.add_0_r. apply firstn_skipn. Qed.
Lemma overwrite_len old pos d : 0 <= pos <= zlen old -> pos + zlen d <= zlen (overwrite old pos d).
Proof.
  intros P. unfold overwrite. rewrite !zlen_app. pose proof (zlen_nonneg (skipn (Z.to_nat (pos + zlen d)) old)).
  assert (zlen (firstn (Z.to_nat pos) old) = pos) by (unfold zlen in *; rewrite firstn_length; lia). lia.
Qed.
Lemma overwrite_app old pos a b : 0 <= pos <= zlen old -> overwrite (overwrite old pos a) (pos + zlen a) b = overwrite old pos (a ++ b).
Proof.
  intros P. unfold overwrite at 1 3. set (c := overwrite old pos a).
  assert (E : firstn (Z.to_nat (pos + zlen a)) c = firstn (Z.to_nat pos) old ++ a).
  { unfold c, overwrite. rewrite app_assoc. rewrite firstn_app. assert (L : length (firstn (Z.to_nat pos) old ++ a) = Z.to_nat (pos + zlen a)) by (rewrite app_length, firstn_length; unfold zlen in *; lia).
    rewrite L, Nat.sub_diag, <- L, firstn_all. cbn [firstn]. now rewrite app_nil_r. }
  rewrite E, <- !app_assoc. f_equal. f_equal. f_equal. rewrite zlen_app. replace (pos + (zlen a + zlen b)) with (pos + zlen a + zlen b) by lia.
  unfold c, overwrite. rewrite app_assoc, skipn_app. assert (L : length (firstn (Z.to_nat pos) old ++ a) = Z.to_nat (pos + zlen a)) by (rewrite app_length, firstn_length; unfold zlen in *; lia).
  rewrite skipn_all2 by (rewrite L; pose proof (zlen_nonneg b); lia). cbn [app]. rewrite L, skipn_skipn. f_equal. pose proof (zlen_nonneg a); pose proof (zlen_nonneg b); lia.
Qed.

(** One file per track, with different names, each offset inside its file. *)
Definition fh_ok (h : file_handler) : Prop :=
  NoDup (map fst (fh_files h)) /\ Forall (fun f => 0 <= snd f <= zlen (fh_disk h (fst f))) (fh_files h) /\ length (fh_files h) = length (fh_tracks h).
(** From [h] to [h'] the bytes [W j] were written to file [j], and nothing else. *)
Definition advanced (h : file_handler) (W : nat -> list Z) (h' : file_handler) : Prop :=
  fh_tracks h' = fh_tracks h /\ length (fh_files h') = length (fh_files h) /\
  (forall j n pos, nth_error (fh_files h) j = Some (n, pos) -> nth_error (fh_files h') j = Some (n, pos + zlen (W j)) /\ fh_disk h' n = overwrite (fh_disk h n) pos (W j)) /\
  (forall n, ~ In n (map fst (fh_files h)) -> fh_disk h' n = fh_disk h n).

Lemma advanced_names h W h' : advanced h W h' -> map fst (fh_files h') = map fst (fh_files h).
Proof.
  intros (_ & L & A & _). apply (nth_ext _ _ EmptyString EmptyString); [now rewrite !map_length|]. intros j Hj. rewrite map_length in Hj.
  destruct (nth_error (fh_files h) j) as [[n pos]|] eqn:E; [|apply nth_error_None in E; lia]. destruct (A j n pos E) as [E' _].
  rewrite (nth_error_nth (map fst (fh_files h')) j EmptyString (x := n)), (nth_error_nth (map fst (fh_files h)) j EmptyString (x := n)); auto.
  - change n with (fst (n, pos)). now apply map_nth_error.
  - change n with (fst (n, pos + zlen (W j))). now apply map_nth_error.
Qed.
Lemma advanced_ok h W h' : fh_ok h -> advanced h W h' -> fh_ok h'.
Proof.
  intros (N & F & L) Ad. pose proof (advanced_names _ _ _ Ad) as En. destruct Ad as (T & L' & A & _). split; [now rewrite En|]. split; [|congruence].
  apply Forall_forall. intros [n pos'] I. apply In_nth_error in I as [j J]. assert (Hj : (j < length (fh_files h))%nat) by (rewrite <- L'; apply nth_error_Some; congruence).
  destruct (nth_error (fh_files h) j) as [[n0 pos]|] eqn:E; [|apply nth_error_None in E; lia]. destruct (A j n0 pos E) as [E1 E2]. rewrite E1 in J. injection J as <- <-. cbn [fst snd].
  rewrite E2. rewrite Forall_forall in F. apply nth_error_In in E. apply F in E. cbn [fst snd] in E. pose proof (overwrite_len (fh_disk h n0) pos (W j) E). pose proof (zlen_nonneg (W j)). lia.
Qed.
Lemma advanced_trans h W h1 V h2 : fh_ok h -> advanced h W h1 -> advanced h1 V h2 -> advanced h (fun j => W j ++ V j) h2.
Proof.
  intros (_ & F & _) A1 A2. pose proof (advanced_names _ _ _ A1) as En. destruct A1 as (T1 & L1 & A1 & O1), A2 as (T2 & L2 & A2 & O2). split; [congruence|]. split; [congruence|]. split.
  - intros j n pos E. destruct (A1 j n pos E) as [E1 D1]. destruct (A2 j n _ E1) as [E2 D2]. rewrite E2, D2, D1, zlen_app. split; [f_equal; f_equal; lia|].
    apply overwrite_app. rewrite Forall_forall in F. apply nth_error_In in E. now apply F in E.
  - intros n I. rewrite O2, O1; auto. now rewrite En.
Qed.
Lemma advanced_refl h : fh_ok h -> advanced h (fun _ => []) h.
Proof.
  intros (_ & F & _). split; [reflexivity|]. split; [reflexivity|]. split; [|reflexivity]. intros j n pos E. change (zlen (@nil Z)) with 0. rewrite Z.add_0_r, overwrite_nil; auto.
  rewrite Forall_forall in F. apply nth_error_In in E. now apply F in E.
Qed.
Lemma advanced_ext h W V h' : (forall j, W j = V j) -> advanced h W h' -> advanced h V h'.
Proof. intros E (T & L & A & O). repeat split; auto; intros; rewrite <- E; now apply A. Qed.

Definition only (i : Z) (c : list Z) : nat -> list Z := fun j => if Z.of_nat j =? i then c else [].
Lemma fh_write_ok h i d h' : fh_ok h -> fh_write h i d = Ok h' -> advanced h (only i d) h'.
Proof.
  intros (N & F & L). unfold fh_write. destruct (idx (fh_files h) i) as [[n pos]|] eqn:E; cbn [of_opt bind]; [|discriminate].
  pose proof (idx_inv _ _ _ E) as B. rewrite upd_eq by exact B. cbn [of_opt bind]. intros [= <-]. rewrite idx_nth in E by lia.
  split; [reflexivity|]. cbn [fh_files fh_disk]. split; [apply set_nth_length|]. rewrite Forall_forall in F. split.
  - intros j m q J. unfold only. destruct (Z.of_nat j =? i) eqn:Ej.
    + replace (Z.to_nat i) with j in * by lia. rewrite set_nth_same by (apply nth_error_Some; congruence). rewrite E in J. injection J as <- <-. split; [reflexivity|].
      unfold disk_set. now rewrite String.eqb_refl.
    + rewrite set_nth_other by lia. rewrite J. change (zlen (@nil Z)) with 0. rewrite Z.add_0_r. split; [reflexivity|]. rewrite overwrite_nil by (apply nth_error_In in J; apply F in J; cbn in J; lia).
      unfold disk_set. destruct (String.eqb_spec m n) as [->|]; [|reflexivity]. exfalso.
      assert (j = Z.to_nat i); [|lia]. rewrite NoDup_nth_error in N. apply N; [rewrite map_length; apply nth_error_Some; congruence|].
      change n with (fst (n, q)) in J at 1. rewrite (map_nth_error fst _ _ J), (map_nth_error fst _ _ E). reflexivity.
  - intros m I. unfold disk_set. destruct (String.eqb_spec m n) as [->|]; [|reflexivity]. exfalso. apply I. apply nth_error_In in E. change n with (fst (n, pos)). now apply in_map.
Qed.
Lemma fh_write_total h i d : 0 <= i < zlen (fh_files h) -> exists h', fh_write h i d = Ok h'.
Proof. intros B. unfold fh_write. destruct (idx_some (fh_files h) i B) as [[n pos] ->]. cbn [of_opt bind]. rewrite upd_eq by exact B. cbn [of_opt bind]. eauto. Qed.

(** ** Packets *)
Lemma conv_same s p p1 d : avcc_packet_to_annexb s p = Ok (p1, d) -> pk_key p1 = pk_key p /\ pk_type p1 = pk_type p /\ pk_index p1 = pk_index p.
Proof. intros E. destruct (conv_cases _ _ _ _ E) as [->|[x ->]]; auto. Qed.
(** Delivering a history of packets. *)
Fixpoint fh_run (h : file_handler) (ps : list packet) : res file_handler :=
  match ps with [] => Ok h | p :: r => '(h', _) <- fh_on_packet h p;; fh_run h' r end.

Lemma fh_step h p h' q : fh_ok h -> fh_on_packet h p = Ok (h', q) -> exists w, writes_of (fh_tracks h) p w /\ advanced h (only (pk_index p) (List.concat w)) h'.
Proof.
  intros H. unfold fh_on_packet, writes_of, access_unit. destruct (UtilModel.media_string _); try discriminate. cbn [bind]. destruct (AVMediaTypeVideo =? pk_media p); cbn [andb].
  - unfold tm_get. destruct (idx (fh_tracks h) (pk_index p)) as [s|] eqn:Es; [|discriminate]. cbn [of_opt bind]. destruct (avcc_packet_to_annexb s p) as [[p1 d]| | |] eqn:Ed; try discriminate. cbn [bind].
    destruct (conv_same _ _ _ _ Ed) as (-> & -> & ->).
    assert (K : forall h2, fh_write h (pk_index p) d = Ok h2 -> advanced h (only (pk_index p) (List.concat [d])) h2) by (intros h2 E; cbn; rewrite app_nil_r; now apply fh_write_ok).
    destruct (pk_key p && (PacketTypeAVCC =? pk_type p)).
    + destruct (st_params s) as [c|] eqn:Ec.
      * destruct (fh_write h (pk_index p) (cd_annexb c)) as [h1| | |] eqn:W1; try discriminate. cbn [bind]. destruct (fh_write h1 (pk_index p) d) as [h2| | |] eqn:W2; try discriminate. cbn [bind]. intros E. injection E as <- _.
        exists [cd_annexb c; d]. split; [exists d; split; [exists s, p1; auto|now rewrite ?Ec]|]. apply fh_write_ok in W1; [|exact H]. apply fh_write_ok in W2; [|eapply advanced_ok; eauto].
        eapply advanced_ext; [|eapply advanced_trans; eauto]. intros j. unfold only. cbn. rewrite app_nil_r. destruct (_ =? _); reflexivity.
      * cbn [bind]. destruct (fh_write h (pk_index p) d) as [h2| | |] eqn:W2; try discriminate. cbn [bind]. intros E. injection E as <- _.
        exists [d]. split; [exists d; split; [exists s, p1; auto|now rewrite ?Ec]|]. auto.
    + cbn [bind]. destruct (fh_write h (pk_index p) d) as [h2| | |] eqn:W2; try discriminate. cbn [bind]. intros E. injection E as <- _.
      exists [d]. split; [exists d; split; [exists s, p1; auto|reflexivity]|]. auto.
  - destruct (fh_write h (pk_index p) (pk_data p)) as [h2| | |] eqn:W2; try discriminate. cbn [bind]. intros E. injection E as <- _.
    exists [pk_data p]. split; [exists (pk_data p); auto|]. cbn. rewrite app_nil_r. now apply fh_write_ok.
Qed.
Lemma fh_step_total h p : fh_ok h -> 0 <= pk_index p < zlen (fh_tracks h) ->
  (exists h' q, fh_on_packet h p = Ok (h', q)) <-> (exists m, UtilModel.media_string (pk_media p) = Ok m) /\ exists w, writes_of (fh_tracks h) p w.
Proof.
  intros H B. assert (Bf : 0 <= pk_index p < zlen (fh_files h)) by (destruct H as (_ & _ & L); unfold zlen in *; lia). split.
  - intros (h' & q & E). split; [|apply fh_step in E as (w & W & _); eauto]. unfold fh_on_packet in E. destruct (UtilModel.media_string _) as [m| | |]; try discriminate. eauto.
  - intros [[m M] (w & d & A & _)]. unfold fh_on_packet. rewrite M. cbn [bind]. unfold access_unit in A. destruct (AVMediaTypeVideo =? pk_media p).
    + destruct A as (s & p1 & Es & Ed). unfold tm_get. rewrite Es. cbn [of_opt bind]. rewrite Ed. cbn [bind]. destruct (conv_same _ _ _ _ Ed) as (-> & -> & ->).
      assert (K : forall h1, fh_ok h1 -> fh_tracks h1 = fh_tracks h -> exists h2, fh_write h1 (pk_index p) d = Ok h2).
      { intros h1 (_ & _ & L1) T. apply fh_write_total. rewrite T in L1. unfold zlen in *. lia. }
      destruct (pk_key p && _); [destruct (st_params s) as [c|]|].
      * destruct (fh_write_total h (pk_index p) (cd_annexb c) Bf) as [h1 E1]. rewrite E1. cbn [bind]. apply fh_write_ok in E1; [|exact H].
        destruct (K h1) as [h2 E2]; [eapply advanced_ok; eauto|apply E1|]. rewrite E2. cbn [bind]. eauto.
      * cbn [bind]. destruct (K h H eq_refl) as [h2 ->]. cbn [bind]. eauto.
      * cbn [bind]. destruct (K h H eq_refl) as [h2 ->]. cbn [bind]. eauto.
    + destruct (fh_write_total h (pk_index p) (pk_data p) Bf) as [h2 ->]. cbn [bind]. eauto.
Qed.

Lemma fh_run_spec ps : forall h h', fh_ok h -> fh_run h ps = Ok h' -> exists ws, Forall2 (writes_of (fh_tracks h)) ps ws /\ advanced h (written ps ws) h'.
Proof.
  induction ps as [|p ps IH]; intros h h' H E; cbn [fh_run] in E.
  - injection E as <-. exists []. split; [constructor|]. now apply advanced_refl.
  - destruct (fh_on_packet h p) as [[h1 q]| | |] eqn:E1; try discriminate. cbn [bind] in E. apply fh_step in E1 as (w & W & A); [|exact H]. pose proof (advanced_ok _ _ _ H A) as H1. apply IH in E as (ws & F & A'); [|exact H1].
    assert (T : fh_tracks h1 = fh_tracks h) by apply A. rewrite T in F. exists (w :: ws). split; [constructor; auto|]. eapply advanced_ext; [|eapply advanced_trans; eauto].
    intros j. unfold only, written. cbn [combine filter fst]. destruct (Z.of_nat j =? pk_index p); [|reflexivity]. cbn [map snd List.concat]. now rewrite concat_app.
Qed.
Lemma fh_run_total ps : forall h, fh_ok h -> Forall (fun p => 0 <= pk_index p < zlen (fh_tracks h)) ps ->
  (exists h', fh_run h ps = Ok h') <-> Forall (fun p => (exists m, UtilModel.media_string (pk_media p) = Ok m) /\ exists w, writes_of (fh_tracks h) p w) ps.
Proof.
  induction ps as [|p ps IH]; intros h H B; [split; [constructor|cbn; eauto]|]. apply Forall_cons_iff in B as [B1 B2]. cbn [fh_run]. rewrite Forall_cons_iff, <- (fh_step_total h p H B1). split.
  - intros [h' E]. destruct (fh_on_packet h p) as [[h1 q]| | |] eqn:E1; try discriminate. cbn [bind] in E. split; [eauto|]. apply fh_step in E1 as (w & W & A); [|exact H].
    assert (T : fh_tracks h1 = fh_tracks h) by apply A. rewrite <- T in *. apply (IH h1); eauto using advanced_ok.
  - intros [(h1 & q & E1) F]. rewrite E1. cbn [bind]. apply fh_step in E1 as (w & W & A); [|exact H]. assert (T : fh_tracks h1 = fh_tracks h) by apply A. rewrite <- T in *. apply (IH h1); eauto using advanced_ok.
Qed.

(** ** Opening the files *)
Fixpoint fh_open (path : string) (h : file_handler) (ts : list stream) : res file_handler :=
  match ts with [] => Ok h | s :: r => h1 <- fh_new_track path h s;; fh_open path h1 r end.
Lemma fh_open_spec path ts : forall h h', fh_open path h ts = Ok h' -> exists ns, Forall2 (fun s n => file_name path s = Ok n) ts ns /\
  fh_tracks h' = fh_tracks h ++ ts /\ fh_files h' = fh_files h ++ map (fun n => (n, 0)) ns /\ fh_disk h' = fh_disk h.
Proof.
  induction ts as [|s ts IH]; intros h h' E; cbn [fh_open] in E.
  - injection E as <-. exists []. cbn. rewrite !app_nil_r. repeat split; constructor.
  - unfold fh_new_track in E. destruct (file_name path s) as [n| | |] eqn:N; cbn [bind] in E; try discriminate. apply IH in E as (ns & F & T & Fs & D). cbn [fh_tracks fh_files fh_disk] in *. unfold tm_add in T.
    exists (n :: ns). rewrite <- app_assoc in T, Fs. repeat split; auto.
Qed.
Lemma fh_open_total path ts : forall h, Forall (fun s => exists m, UtilModel.media_string (st_media s) = Ok m) ts -> exists h', fh_open path h ts = Ok h'.
Proof.
  induction ts as [|s ts IH]; intros h F; cbn [fh_open]; [eauto|]. apply Forall_cons_iff in F as [[m M] F]. unfold fh_new_track, file_name. rewrite M. cbn [bind]. auto.
Qed.
Lemma Forall2_nth_l {A B} (R : A -> B -> Prop) l l' : Forall2 R l l' -> forall n x, nth_error l n = Some x -> exists y, nth_error l' n = Some y /\ R x y.
Proof. induction 1; intros [|n] z; cbn; try discriminate; [intros [= <-]; eauto|apply IHForall2]. Qed.
Lemma Forall2_in_r {A B} (R : A -> B -> Prop) l m b : Forall2 R l m -> In b m -> exists a, In a l /\ R a b.
Proof. induction 1 as [|x y l m H _ IH]; [intros []|]. intros [<-|I]; [exists x; cbn; auto|]. destruct (IH I) as (a & J & K). exists a. cbn. auto. Qed.
Lemma names_nodup path ts ns : Forall2 (fun s n => file_name path s = Ok n) ts ns -> NoDup (map st_index ts) -> NoDup ns.
Proof.
  induction 1 as [|s n ts ns E F IH]; intros N; [constructor|]. cbn [map] in N. apply NoDup_cons_iff in N as [N1 N2]. constructor; auto. intros I.
  destruct (Forall2_in_r _ _ _ _ F I) as (t & J & K). destruct (file_name_inj _ _ _ _ E K) as (_ & Ei & _). apply N1. rewrite Ei. now apply in_map.
Qed.
Lemma fh_open_ok path k ts h : NoDup (map st_index ts) -> fh_open path (fh_start k) ts = Ok h -> fh_ok h.
Proof.
  intros N E. apply fh_open_spec in E as (ns & F & T & Fs & D). cbn [fh_start fh_tracks fh_files fh_disk app] in *. split; [|split].
  - rewrite Fs, map_map. cbn [fst]. rewrite map_id. eapply names_nodup; eauto.
  - rewrite Fs. apply Forall_map, Forall_forall. intros n _. cbn [fst snd]. pose proof (zlen_nonneg (fh_disk h n)). lia.
  - rewrite Fs, T, map_length. symmetry. eapply Forall2_len; eauto.
Qed.

(** ** Sessions *)
Lemma fh_session_handler path l : forall h, fh_session path h l = fh_session path h (handler_events l).
Proof. induction l as [|e l IH]; intros h; [reflexivity|]. destruct e; cbn [handler_events filter is_handler fh_session fh_event bind]; auto; try (destruct (fh_new_track path h s); cbn [bind]; auto); destruct (fh_on_packet h p) as [[h1 q]| | |]; cbn [bind]; auto. Qed.
Lemma fh_session_packets path ps : forall h, fh_session path h (map EvPacket ps) = fh_run h ps.
Proof. induction ps as [|p ps IH]; intros h; cbn [map fh_session fh_event fh_run]; auto. destruct (fh_on_packet h p) as [[h1 q]| | |]; cbn [bind]; auto. Qed.
Lemma fh_session_split path ts ps : forall h, fh_session path h (map EvNewTrack ts ++ [EvTrackComplete] ++ map EvPacket ps) = (h0 <- fh_open path h ts;; fh_run h0 ps).
Proof.
  induction ts as [|s ts IH]; intros h; cbn [map app fh_session fh_event fh_open bind]; [apply fh_session_packets|].
  destruct (fh_new_track path h s) as [h1| | |]; cbn [bind]; auto.
Qed.
Lemma delivered_handler l : delivered (handler_events l) = delivered l.
Proof. induction l as [|e l IH]; [reflexivity|]. destruct e; cbn [handler_events filter is_handler]; auto; cbn [delivered flat_map app]; try exact IH. f_equal. exact IH. Qed.
Lemma delivered_packets ps : delivered (map EvPacket ps) = ps.
Proof. induction ps as [|p ps IH]; [reflexivity|]. cbn. f_equal. exact IH. Qed.

Lemma wf_indices d : wf d -> NoDup (map st_index (dm_tracks d)).
Proof.
  intros [T _]. apply NoDup_nth_error. intros i j Hi E. rewrite map_length in Hi.
  destruct (nth_error (dm_tracks d) i) as [s|] eqn:Ei; [|apply nth_error_None in Ei; lia]. rewrite (map_nth_error _ _ _ Ei) in E. symmetry in E.
  destruct (nth_error (dm_tracks d) j) as [t|] eqn:Ej; [|apply nth_error_None in Ej; rewrite (proj2 (nth_error_None _ _)) in E by (rewrite map_length; lia); discriminate].
  rewrite (map_nth_error _ _ _ Ej) in E. injection E as E.
  assert (Xi : st_index s = Z.of_nat i) by (apply T; rewrite idx_nth, Nat2Z.id by lia; exact Ei).
  assert (Xj : st_index t = Z.of_nat j) by (apply T; rewrite idx_nth, Nat2Z.id by lia; exact Ej). lia.
Qed.

Lemma session_spec path k name h d evs f : run (dm_new name) h = Ok (d, evs) -> fh_session path (fh_start k) evs = Ok f ->
  exists ws, Forall2 (writes_of (dm_tracks d)) (delivered evs) ws /\
  (dm_completed d = true -> forall j s n, nth_error (dm_tracks d) j = Some s -> file_name path s = Ok n ->
     fh_disk f n = written (delivered evs) ws j ++ skipn (length (written (delivered evs) ws j)) (k n)) /\
  (forall n, dm_completed d = false \/ (forall s, In s (dm_tracks d) -> file_name path s <> Ok n) -> fh_disk f n = k n).
Proof.
  intros R S. pose proof (reach_order _ _ _ _ R) as O. pose proof (run_wf _ _ _ _ (wf_new name) R) as W. rewrite fh_session_handler in S. rewrite <- delivered_handler. unfold call_order in O.
  destruct (dm_completed d).
  - destruct O as [[T O]|[T [ps O]]]; rewrite O in *.
    + cbn in S. injection S as <-. exists []. split; [constructor|]. split; [|reflexivity]. intros _ j s n J. rewrite T in J. destruct j; discriminate.
    + assert (Ed : delivered (map EvNewTrack (dm_tracks d) ++ [EvTrackComplete] ++ map EvPacket ps) = ps) by (now rewrite !delivered_app, delivered_new_tracks, delivered_packets).
      rewrite Ed. rewrite fh_session_split in S. destruct (fh_open path (fh_start k) (dm_tracks d)) as [h0| | |] eqn:Op; cbn [bind] in S; try discriminate.
      pose proof (fh_open_ok _ _ _ _ (wf_indices _ W) Op) as K. apply fh_run_spec in S as (ws & F & A); [|exact K]. apply fh_open_spec in Op as (ns & Fn & T0 & Fs & D). cbn [fh_start fh_tracks fh_files fh_disk app] in *.
      rewrite T0 in F. exists ws. split; [exact F|]. destruct A as (_ & _ & A & A'). rewrite D in *. split.
      * intros _ j s n J E. destruct (Forall2_nth_l _ _ _ Fn _ _ J) as (n' & J' & E'). rewrite E in E'. injection E' as <-.
        destruct (A j n 0) as [_ A1]; [rewrite Fs; now rewrite (map_nth_error _ _ _ J')|]. rewrite A1. unfold overwrite. cbn [Z.to_nat firstn app]. rewrite Z.add_0_l. unfold zlen. now rewrite Nat2Z.id.
      * intros n [X|X]; [discriminate|]. apply A'. rewrite Fs, map_map. cbn [fst]. rewrite map_id. intros I. destruct (Forall2_in_r _ _ _ _ Fn I) as (s & J & E). now apply (X s).
  - rewrite O in *. cbn in S. injection S as <-. exists []. split; [constructor|]. split; [discriminate|reflexivity].
Qed.

(** Every delivered packet belongs to a track, and tracks are audio or video. *)
Definition av (m : Z) : Prop := m = AVMediaTypeAudio \/ m = AVMediaTypeVideo.
Lemma same_av ts ts' : Forall2 same_track ts ts' -> Forall (fun s => av (st_media s)) ts -> Forall (fun s => av (st_media s)) ts'.
Proof. induction 1 as [|s s' ts ts' (E & _) _ IH]; intros F; [constructor|]. apply Forall_cons_iff in F as [F1 F2]. constructor; auto. now rewrite E. Qed.
Lemma av_grow d s buf : Forall (fun s => av (st_media s)) (dm_tracks d) -> av (st_media s) -> Forall (fun s => av (st_media s)) (dm_tracks (grow d s buf)).
Proof. intros F A. cbn [grow with_tracks dm_tracks]. apply Forall_app. auto. Qed.
Lemma step_av o d a d' e : wf d -> Forall (fun s => av (st_media s)) (dm_tracks d) -> step o d a = Ok (d', e) -> Forall (fun s => av (st_media s)) (dm_tracks d').
Proof.
  intros W F S.
  assert (Kc : forall x ev, on_probe_complete o d = Ok (x, ev) -> Forall (fun s => av (st_media s)) (dm_tracks x)) by (intros x ev C; apply complete_same in C as [C _]; eapply same_av; eauto).
  assert (Ka : forall buf id tb extra c x t, create_audio_track d buf id tb extra c = Ok (x, t) -> Forall (fun s => av (st_media s)) (dm_tracks x)).
  { intros buf id tb extra c x t C. apply create_audio_cases in C; auto. destruct C as [(-> & _)|(_ & s & _ & _ & _ & M & -> & _)]; auto. apply av_grow; auto. now left. }
  assert (Kv : forall buf id tb extra x t, create_video_track o d buf id tb extra = Ok (x, t) -> Forall (fun s => av (st_media s)) (dm_tracks x)).
  { intros buf id tb extra x t C. apply create_video_cases in C; auto. destruct C as [(-> & _)|(_ & s & _ & _ & _ & M & -> & _)]; auto. apply av_grow; auto. now right. }
  assert (Kp : forall x p, Forall (fun s => av (st_media s)) (dm_tracks x) -> process_buffered_packet o x p = Ok (d', e) -> Forall (fun s => av (st_media s)) (dm_tracks d')).
  { intros x p Fx P. apply process_same in P as [P _]. eapply same_av; eauto. }
  destruct a; cbn [step] in S; try (injection S as <- <-; exact F).
  - unfold on_new_audio_track in S. destruct (match tm_find_type (dm_tracks d) AVMediaTypeAudio with None => _ | Some _ => _ end) as [[d1 t]| | |] eqn:M; cbn [bind] in S; try discriminate. injection S as <- <-.
    destruct (tm_find_type _ _); [destruct (_ =? _)%string; [|injection M as <- <-; exact F]|]; eauto.
  - unfold on_new_video_track in S. destruct (match tm_find_type (dm_tracks d) AVMediaTypeVideo with None => _ | Some _ => _ end) as [[d1 t]| | |] eqn:M; cbn [bind] in S; try discriminate. injection S as <- <-.
    destruct (tm_find_type _ _); [destruct (_ =? _)%string; [|injection M as <- <-; exact F]|]; eauto.
  - unfold on_audio_packet in S. destruct (find_track o d buf) as [r| | |]; cbn [bind] in S; try discriminate. destruct r as [s|].
    + cbn [bind] in S. eauto.
    + destruct (dm_completed d); [cbn [bind] in S; injection S as <- <-; exact F|].
      destruct (extract_audio_extra_data id data) as [[[extra skip] config]| | |]; cbn [bind] in S; try discriminate; [|injection S as <- <-; exact F].
      destruct (get_timebase (dm_name d)) as [tb| | |]; cbn [bind] in S; try discriminate. destruct (create_audio_track d buf id tb extra config) as [[d1 t]| | |] eqn:Cr; cbn [bind] in S; try discriminate.
      apply Ka in Cr. destruct t; [eauto|injection S as <- <-; exact Cr].
  - unfold on_video_packet in S. destruct (find_track o d buf) as [r| | |]; cbn [bind] in S; try discriminate. destruct r as [s|].
    + cbn [bind] in S. eauto.
    + destruct (_ && _); [|cbn [bind] in S; injection S as <- <-; exact F].
      destruct (if key then _ else _) as [extra| | |]; cbn [bind] in S; try discriminate.
      destruct (match extra with Some e0 => Ok (Some e0) | None => _ end) as [[e1|]| | |]; cbn [bind] in S; try discriminate; [|injection S as <- <-; exact F].
      destruct (get_timebase (dm_name d)) as [tb| | |]; cbn [bind] in S; try discriminate. destruct (create_video_track o d buf id tb e1) as [[d1 t]| | |] eqn:Cr; cbn [bind] in S; try discriminate.
      apply Kv in Cr. destruct t; [eauto|injection S as <- <-; exact Cr].
  - eauto.
  - unfold try_complete_probe in S. destruct (need_more d); [injection S as <- <-; exact F|eauto].
  - unfold find_buffer_index in S. destruct (marker_index _ _ _); injection S as <- <-; exact F.
Qed.
Lemma reach_av name h d evs : run (dm_new name) h = Ok (d, evs) -> Forall (fun s => av (st_media s)) (dm_tracks d).
Proof.
  intros R. refine (proj2 (run_inv (fun _ => True) (fun d _ => wf d /\ Forall (fun s => av (st_media s)) (dm_tracks d)) (dm_new name) _ _ h d evs _ R)).
  - split; [apply wf_new|constructor].
  - intros o a d1 evs1 d' e _ [W A] S. split; [eapply step_wf|eapply step_av]; eauto.
  - apply Forall_forall. auto.
Qed.
Definition in_tracks (d : demuxer) (p : packet) : Prop := 0 <= pk_index p < zlen (dm_tracks d).
Lemma ext_len a b : track_ext a b -> zlen a <= zlen b.
Proof. intros (x & y & -> & F). apply Forall2_len in F. unfold zlen. rewrite app_length. lia. Qed.
Lemma reach_in name h d evs : Forall well_behaved h -> run (dm_new name) h = Ok (d, evs) -> Forall (in_tracks d) (accepted evs).
Proof.
  intros F R. refine (proj2 (run_inv well_behaved (fun d evs => (wf d /\ hook_ok (dm_pre d)) /\ Forall (in_tracks d) (accepted evs)) (dm_new name) _ _ h d evs F R)).
  - split; [split; [apply wf_new|exact Logic.I]|constructor].
  - intros o a d1 evs1 d' e [O Hk] [[W H] A] S. split; [split; [eapply step_wf|eapply step_hook]; eauto|]. rewrite accepted_app. apply Forall_app. split.
    + eapply Forall_impl; [|exact A]. intros p. unfold in_tracks. destruct (step_ext _ _ _ _ _ W S) as [X _]. apply ext_len in X. lia.
    + destruct (step_cases _ _ _ _ _ W S) as [(_ & Q & _)|[(buf & s & _ & _ & _ & _ & Q)|[(buf & id & data & dts & Op & P)|(_ & C)]]].
      * apply quiet_facts in Q as (_ & Q & _). rewrite Q. constructor.
      * apply quiet_facts in Q as (_ & Q & _). rewrite Q. constructor.
      * destruct P as [(_ & ->)|(d2 & i & s & p & G & I & X & _ & _ & E & _ & _ & _ & _ & P)]; [constructor|]. pose proof (process_events _ _ _ _ _ P) as [-> _]. constructor; [|constructor].
        apply process_same in P as [P _]. apply Forall2_len in P. unfold in_tracks. assert (Hp : hook_ok (op_pre d1 a)) by (destruct a; cbn; auto; exact Logic.I).
        destruct (apply_pre_ok _ p Hp) as [-> _]. rewrite E. apply idx_inv in X. unfold zlen in *. lia.
      * apply complete_events in C as [-> _]. constructor.
Qed.
Lemma delivered_in name h d evs : Forall well_behaved h -> run (dm_new name) h = Ok (d, evs) -> Forall (in_tracks d) (delivered evs).
Proof.
  intros F R. pose proof (reach_in _ _ _ _ F R) as A. destruct (reach_balanced _ _ _ _ (Forall_impl sorting (fun x => @proj1 _ _) F) R) as (_ & _ & [B _] & _).
  apply Forall_forall. intros p I. assert (In (nodur p) (map nodur (accepted evs))) as J by (apply Permutation_sym in B; apply (Permutation_in _ B), in_or_app; left; now apply in_map).
  apply in_map_iff in J as (q & E & J). rewrite Forall_forall in A. apply A in J. unfold in_tracks in *. apply (f_equal pk_index) in E. cbn in E. now rewrite <- E.
Qed.
Lemma av_media m : av m -> exists n, UtilModel.media_string m = Ok n.
Proof. intros [->| ->]; eexists; reflexivity. Qed.
Lemma session_total path k name h d evs : Forall well_behaved h -> run (dm_new name) h = Ok (d, evs) ->
  (exists f, fh_session path (fh_start k) evs = Ok f) <->
  Forall (fun p => (exists m, UtilModel.media_string (pk_media p) = Ok m) /\ exists w, writes_of (dm_tracks d) p w) (delivered evs).
Proof.
  intros F R. pose proof (reach_order _ _ _ _ R) as O. pose proof (run_wf _ _ _ _ (wf_new name) R) as W. pose proof (delivered_in _ _ _ _ F R) as D. pose proof (reach_av _ _ _ _ R) as A.
  rewrite fh_session_handler. rewrite <- delivered_handler in *. unfold call_order in O. destruct (dm_completed d).
  - destruct O as [[T O]|[T [ps O]]]; rewrite O in *.
    + cbn. split; [constructor|eauto].
    + assert (Ed : delivered (map EvNewTrack (dm_tracks d) ++ [EvTrackComplete] ++ map EvPacket ps) = ps) by (now rewrite !delivered_app, delivered_new_tracks, delivered_packets).
      rewrite Ed in *. rewrite fh_session_split. destruct (fh_open_total path (dm_tracks d) (fh_start k)) as [h0 E0]; [eapply Forall_impl; [|exact A]; intros s; apply av_media|].
      rewrite E0. cbn [bind]. pose proof (fh_open_ok _ _ _ _ (wf_indices _ W) E0) as K. apply fh_open_spec in E0 as (ns & Fn & T0 & _ & _). cbn [fh_start fh_tracks app] in T0. rewrite <- T0 in *.
      apply fh_run_total; auto. eapply Forall_impl; [|exact D]. intros p. unfold in_tracks. now rewrite T0.
  - rewrite O in *. cbn. split; [constructor|eauto].
Qed.

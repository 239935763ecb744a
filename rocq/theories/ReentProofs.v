From Verif Require Import Base NaluModel RecordModel AacModel FloatModel PacketModel DemuxModel DemuxProofs ReentModel.
From Coq Require Import String List Permutation.
Import ListNotations.
Local Open Scope list_scope.

(** ** The decisions of the demuxer, apart from the callbacks *)
Inductive plan := Stay (d : demuxer) | Forward (d : demuxer) (q : packet) | Probe (d : demuxer).
Definition decide (o : oracle) (d : demuxer) (p : packet) : res plan :=
  let n := zlen (dm_packets d) in
  let packets := if pk_index p <? n then dm_packets d else dm_packets d ++ [[]] in
  let i := if pk_index p <? n then pk_index p else n in
  l <- of_opt (idx packets i);;
  let l1 := l ++ [p] in
  let prev := zlen l1 - 2 in
  if prev <? 0 then ps <- of_opt (upd packets i l1);; Ok (Stay (with_packets d ps))
  else
    q <- of_opt (idx l1 prev);;
    let q1 := set_duration q (i64 (pk_dts p - pk_dts q)) in
    l2 <- of_opt (upd l1 prev q1);;
    if dm_completed d then
      ps <- of_opt (upd packets i (firstn (Z.to_nat prev) l2 ++ skipn (S (Z.to_nat prev)) l2));;
      Ok (Forward (with_packets d ps) q1)
    else
      ps <- of_opt (upd packets i l2);;
      let d1 := with_packets d ps in
      let duration := total_ms o (firstn (Z.to_nat (prev + 1)) l2) in
      if Z.max (Z.max (dm_probe d1) 200) duration <=? duration then Ok (Probe d1) else Ok (Stay d1).

Lemma process_re_eq inner react k o d p : process_buffered_packet_re inner react k o d p =
  (pl <- decide o d p;;
   match pl with
   | Stay d1 => Ok (d1, [EvAdd p (zlen (dm_packets d))], k)
   | Forward d1 q => '(d2, e, k1) <- forward_packet_re inner react k d1 q;; Ok (d2, EvAdd p (zlen (dm_packets d)) :: e, k1)
   | Probe d1 => '(d2, e, k1) <- on_probe_complete_re inner react k o d1;; Ok (d2, EvAdd p (zlen (dm_packets d)) :: e, k1)
   end).
Proof.
  unfold process_buffered_packet_re, decide. cbv zeta. destruct (idx _ _) as [l|]; cbn [of_opt bind]; [|reflexivity].
  destruct (_ <? 0); [destruct (upd _ _ _); reflexivity|]. destruct (idx _ _) as [q|]; cbn [of_opt bind]; [|reflexivity]. destruct (upd _ _ _) as [l2|]; cbn [of_opt bind]; [|reflexivity].
  destruct (dm_completed d); destruct (upd _ _ _) as [ps|]; cbn [of_opt bind]; try reflexivity. destruct (_ <=? _); reflexivity.
Qed.
Lemma process_eq o d p : process_buffered_packet o d p =
  (pl <- decide o d p;;
   match pl with
   | Stay d1 => Ok (d1, [EvAdd p (zlen (dm_packets d))])
   | Forward d1 q => e <- forward_packet d1 q;; Ok (d1, EvAdd p (zlen (dm_packets d)) :: e)
   | Probe d1 => '(d2, e) <- on_probe_complete o d1;; Ok (d2, EvAdd p (zlen (dm_packets d)) :: e)
   end).
Proof.
  unfold process_buffered_packet, decide. cbv zeta. destruct (idx _ _) as [l|]; cbn [of_opt bind]; [|reflexivity].
  destruct (_ <? 0); [destruct (upd _ _ _); reflexivity|]. destruct (idx _ _) as [q|]; cbn [of_opt bind]; [|reflexivity]. destruct (upd _ _ _) as [l2|]; cbn [of_opt bind]; [|reflexivity].
  destruct (dm_completed d); destruct (upd _ _ _) as [ps|]; cbn [of_opt bind]; try reflexivity. destruct (_ <=? _); reflexivity.
Qed.

(** What a call does before the first callback. *)
Inductive front := Quiet (d : demuxer) (e : list event) | Packet (d : demuxer) (p : packet) | Complete (d : demuxer).
Definition audio_front (o : oracle) (d : demuxer) (buf id : Z) (data : list Z) (ts : Z) : res front :=
  track <- find_track o d buf;;
  '(d1, track1) <- (match track with
                    | Some s => Ok (d, Some s)
                    | None =>
                      if dm_completed d then Ok (d, None)
                      else match extract_audio_extra_data id data with
                           | Ok (extra, _, config) => tb <- get_timebase (dm_name d);; create_audio_track d buf id tb extra config
                           | Err => Ok (d, None) | Panic => Panic | NoFuel => NoFuel
                           end
                    end);;
  match track1 with
  | None => Ok (Quiet d1 [EvDiscardBack buf])
  | Some s => Ok (Packet d1 (set_buffer (init_audio (pool_packet o) data ts id (st_index s) (st_timebase s)) buf))
  end.
Definition video_front (o : oracle) (d : demuxer) (buf id : Z) (data : list Z) (key : bool) (dts pts : Z) : res front :=
  track <- find_track o d buf;;
  '(d1, track1) <- (match track with
                    | Some s => Ok (d, Some s)
                    | None =>
                      if negb (dm_completed d) && (get_pack_type (dm_name d) =? PacketTypeAnnexB) then
                        extra <- (if key then match extract_video_extra_data id data with Err => Ok None | r => r end else Ok None);;
                        extra1 <- (match extra with
                                   | Some e => Ok (Some e)
                                   | None => match tm_find (dm_tracks d) id with
                                             | None => Ok None
                                             | Some i => s <- tm_get (dm_tracks d) i;; Ok (st_data s)
                                             end
                                   end);;
                        match extra1 with
                        | None => Ok (d, None)
                        | Some e => tb <- get_timebase (dm_name d);; create_video_track o d buf id tb e
                        end
                      else Ok (d, None)
                    end);;
  match track1 with
  | None => Ok (Quiet d1 [EvDiscardBack buf])
  | Some s =>
    let p := set_buffer (init_video (pool_packet o) data dts pts key (get_pack_type (dm_name d1)) id (st_index s) (st_timebase s)) buf in
    Ok (Packet d1 (match dm_pre d1 with Some f => f p | None => p end))
  end.
Definition op_front (o : oracle) (d : demuxer) (a : op) : res front :=
  match a with
  | OpAudio buf id data ts => audio_front o d buf id data ts
  | OpVideo buf id data key dts pts => video_front o d buf id data key dts pts
  | OpProbeComplete => Ok (Complete d)
  | OpTryComplete => if need_more d then Ok (Quiet d []) else Ok (Complete d)
  | _ => '(d1, e) <- step o d a;; Ok (Quiet d1 e)
  end.
Lemma step_with_eq inner react k o d a : step_with inner react k o d a =
  (fr <- op_front o d a;;
   match fr with
   | Quiet d1 e => Ok (d1, e, k)
   | Packet d1 p => process_buffered_packet_re inner react k o d1 p
   | Complete d1 => on_probe_complete_re inner react k o d1
   end).
Proof.
  destruct a; cbn [step_with op_front]; try (destruct (step o d _) as [[d1 e]| | |]; reflexivity).
  - unfold on_audio_packet_re, audio_front. destruct (find_track o d buf) as [t| | |]; cbn [bind]; try reflexivity. match goal with |- bind ?x _ = _ => destruct x as [[d1 [s|]]| | |] end; reflexivity.
  - unfold on_video_packet_re, video_front. destruct (find_track o d buf) as [t| | |]; cbn [bind]; try reflexivity. match goal with |- bind ?x _ = _ => destruct x as [[d1 [s|]]| | |] end; reflexivity.
  - reflexivity.
  - destruct (need_more d); reflexivity.
Qed.
Lemma step_eq o d a : step o d a =
  (fr <- op_front o d a;;
   match fr with
   | Quiet d1 e => Ok (d1, e)
   | Packet d1 p => process_buffered_packet o d1 p
   | Complete d1 => on_probe_complete o d1
   end).
Proof.
  destruct a; cbn [op_front]; try (destruct (step o d _) as [[d1 e]| | |]; reflexivity).
  - cbn [step]. unfold on_audio_packet, audio_front. destruct (find_track o d buf) as [t| | |]; cbn [bind]; try reflexivity. match goal with |- bind ?x _ = _ => destruct x as [[d1 [s|]]| | |] end; reflexivity.
  - cbn [step]. unfold on_video_packet, video_front. destruct (find_track o d buf) as [t| | |]; cbn [bind]; try reflexivity. match goal with |- bind ?x _ = _ => destruct x as [[d1 [s|]]| | |] end; reflexivity.
  - reflexivity.
  - cbn [step]. unfold try_complete_probe. destruct (need_more d); reflexivity.
Qed.

(** ** A handler that only looks *)
Lemma notify_quiet inner react k d ev : react k = [] -> notify inner react k d ev = if dm_handler d then Ok (d, [ev], S k) else Panic.
Proof. intros E. unfold notify. rewrite E. destruct (dm_handler d); reflexivity. Qed.
Lemma forward_packet_quiet inner react k d p : react k = [] ->
  forward_packet_re inner react k d p = (e <- forward_packet d p;; Ok (d, e, S k)).
Proof.
  intros E. unfold forward_packet_re, forward_packet. rewrite notify_quiet by exact E. destruct (dm_handler d); [|reflexivity]. cbn [negb bind].
  destruct (dm_autofree d); [destruct (map_find _ _)|]; reflexivity.
Qed.
Lemma forward_all_quiet inner react d l : forall k, (forall j, (k <= j < k + length l)%nat -> react j = []) ->
  forward_all_re inner react k d l = (e <- forward_all d l;; Ok (d, e, (k + length l)%nat)).
Proof.
  induction l as [|p t IH]; intros k E; cbn [forward_all_re forward_all length].
  - cbn [bind]. now rewrite Nat.add_0_r.
  - rewrite forward_packet_quiet by (apply E; cbn; lia). destruct (forward_packet d p) as [e| | |]; cbn [bind]; try reflexivity.
    rewrite IH by (intros j J; apply E; cbn; lia). destruct (forward_all d t) as [e'| | |]; cbn [bind]; try reflexivity. now replace (k + S (length t))%nat with (S k + length t)%nat by lia.
Qed.
Lemma announce_quiet inner react d l : forall k, (forall j, (k <= j < k + length l)%nat -> react j = []) -> dm_handler d = true ->
  announce_re inner react k d l = Ok (d, map EvNewTrack l, (k + length l)%nat).
Proof.
  induction l as [|s t IH]; intros k E H; cbn [announce_re map length].
  - now rewrite Nat.add_0_r.
  - rewrite notify_quiet by (apply E; cbn; lia). rewrite H. cbn [bind]. rewrite IH by (intros; try apply E; cbn; auto; lia). cbn [bind app]. now replace (k + S (length t))%nat with (S k + length t)%nat by lia.
Qed.
Lemma announce_nil_handler inner react k d s t : dm_handler d = false -> announce_re inner react k d (s :: t) = Panic.
Proof. intros H. cbn [announce_re]. unfold notify. rewrite H. reflexivity. Qed.

Lemma forward_all_count d l e : forward_all d l = Ok e -> length (handler_events e) = length l.
Proof. intros F. apply forward_all_events in F as (F & _). rewrite F. apply map_length. Qed.
Lemma prepare_nil o ps ts : prepare_tracks o ps ts = [] -> ts = [].
Proof. intros E. pose proof (prepare_same o ps ts) as H. rewrite E in H. inversion H. reflexivity. Qed.

Definition counted (k : nat) (r : res (demuxer * list event)) : res (demuxer * list event * nat) :=
  '(d, e) <- r;; Ok (d, e, (k + length (handler_events e))%nat).

Lemma complete_quiet inner react k o d : (forall j, (k <= j)%nat -> react j = []) ->
  on_probe_complete_re inner react k o d = counted k (on_probe_complete o d).
Proof.
  intros E. unfold on_probe_complete, on_probe_complete_re, counted. destruct (dm_completed d).
  { cbn. now rewrite Nat.add_0_r. }
  cbv zeta. cbn [dm_tracks with_completed]. destruct (dm_tracks d) as [|s0 t0] eqn:T.
  { rewrite notify_quiet by (apply E; lia). cbn [dm_handler with_completed]. destruct (dm_handler d); cbn [bind handler_events filter is_handler length]; [|reflexivity]. do 2 f_equal. lia. }
  change (dm_map (with_completed d)) with (dm_map d). change (dm_packets (with_completed d)) with (dm_packets d).
  destruct (prepare_tracks o (dm_packets d) (s0 :: t0)) as [|s t] eqn:P; [apply prepare_nil in P; discriminate|].
  cbn [dm_handler with_tracks with_completed]. destruct (dm_handler d) eqn:H; cbn [negb].
  - rewrite announce_quiet by (intros; try apply E; auto; lia). cbn [bind]. rewrite notify_quiet by (apply E; lia). cbn [dm_handler with_tracks with_completed]. rewrite H. cbn [bind].
    cbn [dm_packets with_tracks with_completed]. rewrite forward_all_quiet by (intros; apply E; lia).
    match goal with |- context [forward_all ?a ?b] => destruct (forward_all a b) as [e'| | |] eqn:F end; cbn [bind]; try reflexivity.
    do 2 f_equal. rewrite !handler_events_app, handler_new_tracks, !app_length, map_length, (forward_all_count _ _ _ F). cbn [handler_events filter is_handler length]. lia.
  - rewrite announce_nil_handler by exact H. reflexivity.
Qed.
Lemma process_quiet inner react k o d p : (forall j, (k <= j)%nat -> react j = []) ->
  process_buffered_packet_re inner react k o d p = counted k (process_buffered_packet o d p).
Proof.
  intros E. rewrite process_re_eq, process_eq. destruct (decide o d p) as [[d1|d1 q|d1]| | |]; try reflexivity; unfold counted; cbn [bind].
  - cbn. now rewrite Nat.add_0_r.
  - rewrite forward_packet_quiet by (apply E; lia). destruct (forward_packet d1 q) as [e| | |] eqn:F; cbn [bind]; try reflexivity.
    apply forward_packet_events in F as (F & _). change (handler_events (EvAdd p (zlen (dm_packets d)) :: e)) with (handler_events e). rewrite F. cbn [length]. do 2 f_equal. lia.
  - rewrite complete_quiet by exact E. unfold counted. destruct (on_probe_complete o d1) as [[d2 e]| | |]; reflexivity.
Qed.

(** ** Packets are neither lost nor duplicated, whatever the handler calls *)
Notation held d := (List.concat (dm_packets d)).
Definition short (d : demuxer) : Prop := Forall (fun l => (length l <= 1)%nat) (dm_packets d).
Definition settled (d : demuxer) : Prop := dm_completed d = true -> short d.
(** [flight]: packets that left the lists and are on their way to OnPacket. *)
Record good (flight : list packet) (d : demuxer) (e : list event) (d' : demuxer) : Prop := {
  gd_flow : Permutation (map nodur (flight ++ held d ++ accepted e)) (map nodur (delivered e ++ held d'));
  gd_completed : dm_completed d = true -> dm_completed d' = true;
  gd_tracks : dm_tracks d <> [] -> dm_tracks d' <> [];
  gd_orphans : no_orphans d -> no_orphans d';
  gd_settled : no_orphans d -> settled d -> settled d' }.

Lemma good_refl d : good [] d [] d.
Proof. constructor; auto. cbn. rewrite app_nil_r. apply Permutation_refl. Qed.
Lemma good_trans f1 f2 d e1 d1 e2 d2 : good f1 d e1 d1 -> good f2 d1 e2 d2 -> good (f1 ++ f2) d (e1 ++ e2) d2.
Proof.
  intros [A1 A2 A3 A4 A5] [B1 B2 B3 B4 B5]. constructor; auto.
  rewrite accepted_app, delivered_app. rewrite !map_app in *. rewrite <- !app_assoc.
  transitivity (map nodur f2 ++ (map nodur f1 ++ map nodur (held d) ++ map nodur (accepted e1)) ++ map nodur (accepted e2)).
  { rewrite !app_assoc. do 3 apply Permutation_app_tail. apply Permutation_app_comm. }
  rewrite A1. rewrite <- app_assoc. transitivity (map nodur (delivered e1) ++ (map nodur f2 ++ map nodur (held d1) ++ map nodur (accepted e2))).
  { rewrite !app_assoc. do 2 apply Permutation_app_tail. apply Permutation_app_comm. }
  now rewrite B1.
Qed.
(** Events that say nothing about packets. *)
Lemma good_mute f d e d' x : accepted [x] = [] -> delivered [x] = [] -> good f d e d' -> good f d (x :: e) d'.
Proof. intros X Y [A1 A2 A3 A4 A5]. constructor; auto. change (x :: e) with ([x] ++ e). now rewrite accepted_app, delivered_app, X, Y. Qed.
Lemma good_mute_r f d e d' x : accepted [x] = [] -> delivered [x] = [] -> good f d e d' -> good f d (e ++ [x]) d'.
Proof. intros X Y [A1 A2 A3 A4 A5]. constructor; auto. now rewrite accepted_app, delivered_app, X, Y, !app_nil_r. Qed.

Lemma decide_cases o d p pl : decide o d p = Ok pl -> exists i l, nth_error (base_lists d p) i = Some l /\ Z.of_nat i = Z.min (pk_index p) (zlen (dm_packets d)) /\
  let d1 ls := with_packets d (set_nth i ls (base_lists d p)) in
  (pl = Stay (d1 (stamp l p)) /\ (l = [] \/ dm_completed d = false)) \/
  (dm_completed d = true /\ exists l' q, l = l' ++ [q] /\ pl = Forward (d1 (l' ++ [p])) (set_duration q (i64 (pk_dts p - pk_dts q)))) \/
  (dm_completed d = false /\ pl = Probe (d1 (stamp l p))).
Proof.
  unfold decide. fold (base_lists d p).
  set (n := zlen (dm_packets d)). set (k := if pk_index p <? n then pk_index p else n). set (base := base_lists d p).
  destruct (idx base k) as [l|] eqn:I; cbn [of_opt bind]; [|discriminate].
  pose proof (idx_inv _ _ _ I) as B. intros R. exists (Z.to_nat k), l.
  split; [now rewrite <- idx_nth by lia|]. split.
  { rewrite Z2Nat.id by lia. unfold k. destruct (Z.ltb_spec (pk_index p) n); lia. }
  cbv zeta. destruct l as [|q l' _] using rev_ind.
  - left. cbn in R. rewrite upd_eq in R by lia. cbn in R. injection R as <-. auto.
  - rewrite zlen_app, zlen_app in R. change (zlen [q]) with 1 in R. change (zlen [p]) with 1 in R. pose proof (zlen_nonneg l') as L0.
    destruct (Z.ltb_spec (zlen l' + 1 + 1 - 2) 0); [lia|]. replace (zlen l' + 1 + 1 - 2) with (zlen l') in R by lia.
    rewrite idx_nth in R by lia. replace (Z.to_nat (zlen l')) with (length l') in R by (unfold zlen; lia).
    assert (E1 : nth_error ((l' ++ [q]) ++ [p]) (length l') = Some q).
    { rewrite <- app_assoc, nth_error_app2, Nat.sub_diag by lia. reflexivity. }
    rewrite E1 in R. cbn [of_opt bind] in R.
    rewrite upd_eq in R by (rewrite !zlen_app; change (zlen [q]) with 1; change (zlen [p]) with 1; lia).
    replace (Z.to_nat (zlen l')) with (length l') in R by (unfold zlen; lia).
    rewrite <- app_assoc, set_nth_app_r, Nat.sub_diag in R by lia. cbn [app set_nth of_opt bind] in R.
    set (q1 := set_duration q (i64 (pk_dts p - pk_dts q))) in *.
    rewrite stamp_app. fold q1.
    destruct (dm_completed d) eqn:C.
    + right. left. rewrite firstn_app, Nat.sub_diag, firstn_all in R. cbn [firstn] in R. rewrite app_nil_r in R.
      rewrite skipn_app, (skipn_all2 l') in R by lia. replace (S (length l') - length l')%nat with 1%nat in R by lia. cbn [skipn app] in R.
      rewrite upd_eq in R by lia. cbn [of_opt bind] in R. injection R as <-. split; [reflexivity|]. exists l', q. auto.
    + rewrite upd_eq in R by lia. cbn [of_opt bind] in R. destruct (_ <=? _); injection R as <-; auto.
Qed.
Lemma good_add f d1 e d p n d2 : dm_tracks d <> [] -> dm_tracks d1 = dm_tracks d -> dm_completed d1 = dm_completed d ->
  Permutation (map nodur (held d ++ [p])) (map nodur (f ++ held d1)) -> (settled d -> settled d1) -> good f d1 e d2 -> good [] d (EvAdd p n :: e) d2.
Proof.
  intros T E1 E2 P S [A1 A2 A3 A4 A5]. rewrite E1, E2 in *. assert (O : no_orphans d1) by (intros X; now rewrite E1 in X).
  constructor; auto. cbn [accepted delivered flat_map app]. fold (accepted e) (delivered e). rewrite <- A1. rewrite (app_assoc f), !map_app in *. change (p :: accepted e) with ([p] ++ accepted e). rewrite !map_app. rewrite !app_assoc. apply Permutation_app_tail. exact P.
Qed.
(** The part before the callbacks. *)
Definition ready (d d1 : demuxer) : Prop :=
  dm_packets d1 = dm_packets d /\ dm_completed d1 = dm_completed d /\ (dm_tracks d <> [] -> dm_tracks d1 <> []) /\ (dm_tracks d1 = [] -> dm_tracks d = []).
Lemma ready_refl d : ready d d.
Proof. repeat split; auto. Qed.
Lemma ready_good d d1 : ready d d1 -> forall e, accepted e = [] -> delivered e = [] -> good [] d e d1.
Proof.
  intros (A & B & C & D) e E F. constructor; auto; rewrite ?E, ?F, ?A, ?B; auto.
  - cbn [app]. rewrite app_nil_r. reflexivity.
  - intros N X. rewrite A. apply N. auto.
  - intros _ S X. unfold short. rewrite A. apply S. congruence.
Qed.
Lemma add_track_ready d s buf d1 t : add_track d s buf = (d1, t) -> ready d d1 /\ (t <> None -> dm_tracks d1 <> []).
Proof.
  unfold add_track. destruct (dm_completed d) eqn:C; intros [= <- <-].
  - split; [apply ready_refl|]. intros X. now destruct X.
  - assert (X : tm_add (dm_tracks d) s <> []) by (unfold tm_add; destruct (dm_tracks d); discriminate). split; [|intros _; exact X].
    repeat split; auto. intros Y. now destruct X.
Qed.
Lemma create_audio_ready d buf id tb extra c d1 t : create_audio_track d buf id tb extra c = Ok (d1, t) -> ready d d1 /\ (t <> None -> dm_tracks d1 <> []).
Proof.
  unfold create_audio_track. cbv zeta. destruct (_ && _); [destruct extra as [x|]; [destruct (parse_asc x)|]; try discriminate|].
  - intros [= E]. exact (add_track_ready _ _ _ _ _ E).
  - intros [= <- <-]. split; [apply ready_refl|]. intros X. now destruct X.
  - intros [= E]. exact (add_track_ready _ _ _ _ _ E).
Qed.
Lemma create_video_ready o d buf id tb extra d1 t : create_video_track o d buf id tb extra = Ok (d1, t) -> ready d d1 /\ (t <> None -> dm_tracks d1 <> []).
Proof.
  unfold create_video_track. destruct (generate_video_codec_data _ _ _ _); try discriminate.
  - intros [= E]. exact (add_track_ready _ _ _ _ _ E).
  - intros [= <- <-]. split; [apply ready_refl|]. intros X. now destruct X.
Qed.
Lemma find_track_some o d buf s : find_track o d buf = Ok (Some s) -> dm_tracks d <> [].
Proof.
  unfold find_track. destruct (nth_error _ _) as [[i b]|]; [|discriminate]. unfold tm_get, idx. destruct (dm_tracks d); [|discriminate].
  destruct (i <? 0); [discriminate|]. destruct (Z.to_nat i); discriminate.
Qed.
Lemma front_cases o d a fr : op_front o d a = Ok fr ->
  match fr with
  | Quiet d1 e => ready d d1 /\ accepted e = [] /\ delivered e = [] /\ handler_events e = []
  | Packet d1 p => ready d d1 /\ dm_tracks d1 <> []
  | Complete d1 => d1 = d
  end.
Proof.
  destruct a; cbn [op_front step].
  - unfold on_new_audio_track. destruct (tm_find_type _ _); [destruct (_ =? _)%string|]; [|cbn [bind]; intros [= <-]; split; [apply ready_refl|unfold discard_if; destruct (_ <? _); auto]|];
      (destruct (create_audio_track _ _ _ _ _ _) as [[d1 t]| | |] eqn:E; cbn [bind]; try discriminate; intros [= <-]; split; [exact (proj1 (create_audio_ready _ _ _ _ _ _ _ _ E))|unfold discard_if; destruct (_ <? _); auto]).
  - unfold on_new_video_track. destruct (tm_find_type _ _); [destruct (_ =? _)%string|]; [|cbn [bind]; intros [= <-]; split; [apply ready_refl|unfold discard_if; destruct (_ <? _); auto]|];
      (destruct (create_video_track _ _ _ _ _ _) as [[d1 t]| | |] eqn:E; cbn [bind]; try discriminate; intros [= <-]; split; [exact (proj1 (create_video_ready _ _ _ _ _ _ _ _ E))|unfold discard_if; destruct (_ <? _); auto]).
  - unfold audio_front. destruct (find_track o d buf) as [track| | |] eqn:FT; cbn [bind]; try discriminate.
    match goal with |- bind ?x _ = _ -> _ => destruct x as [[d1 t]| | |] eqn:E end; cbn [bind]; try discriminate.
    assert (R : ready d d1 /\ (t <> None -> dm_tracks d1 <> [])).
    { destruct track as [s|].
      - injection E as <- <-. split; [apply ready_refl|]. intros _. eapply find_track_some; eauto.
      - destruct (dm_completed d); [injection E as <- <-; split; [apply ready_refl|intros X; now destruct X]|].
        destruct (extract_audio_extra_data id data) as [[[x y] z]| | |]; try discriminate E.
        + destruct (get_timebase _); cbn [bind] in E; try discriminate E. eapply create_audio_ready; eauto.
        + injection E as <- <-; split; [apply ready_refl|intros X; now destruct X]. }
    destruct R as [R1 R2]. destruct t as [s|]; intros [= <-]; [split; [exact R1|apply R2; discriminate]|auto].
  - unfold video_front. destruct (find_track o d buf) as [track| | |] eqn:FT; cbn [bind]; try discriminate.
    match goal with |- bind ?x _ = _ -> _ => destruct x as [[d1 t]| | |] eqn:E end; cbn [bind]; try discriminate.
    assert (R : ready d d1 /\ (t <> None -> dm_tracks d1 <> [])).
    { destruct track as [s|].
      - injection E as <- <-. split; [apply ready_refl|]. intros _. eapply find_track_some; eauto.
      - destruct (_ && _); [|injection E as <- <-; split; [apply ready_refl|intros X; now destruct X]].
        match type of E with bind ?x _ = _ => destruct x as [ex| | |] end; cbn [bind] in E; try discriminate E.
        match type of E with bind ?x _ = _ => destruct x as [[ex1|]| | |] end; cbn [bind] in E; try discriminate E.
        + destruct (get_timebase _); cbn [bind] in E; try discriminate E. eapply create_video_ready; eauto.
        + injection E as <- <-; split; [apply ready_refl|intros X; now destruct X]. }
    destruct R as [R1 R2]. destruct t as [s|]; intros [= <-]; [split; [exact R1|apply R2; discriminate]|auto].
  - intros [= <-]. reflexivity.
  - destruct (need_more d); intros [= <-]; auto using ready_refl.
  - intros [= <-]. split; [repeat split; auto|auto].
  - intros [= <-]. split; [repeat split; auto|auto].
  - intros [= <-]. split; [repeat split; auto|auto].
  - intros [= <-]. split; [repeat split; auto|auto].
  - intros [= <-]. split; [repeat split; auto|auto].
  - unfold find_buffer_index. destruct (marker_index _ _ _) as [i|]; cbn [bind]; intros [= <-]; (split; [repeat split; auto|auto]).
  - intros [= <-]. split; [repeat split; auto|auto].
  - intros [= <-]. split; [repeat split; auto|auto].
Qed.

Section inner.
Variable inner : inner_call.
Variable react : reaction.
Hypothesis Inner : forall k o d a d' e k', sorting (o, a) -> inner k o d a = Ok (d', e, k') -> good [] d e d'.
Hypothesis React : forall k, Forall sorting (react k).

Lemma nested_good l : Forall sorting l -> forall k d d' e k', nested inner k d l = Ok (d', e, k') -> good [] d e d'.
Proof.
  induction 1 as [|[o a] t O _ IH]; intros k d d' e k' N; cbn [nested] in N.
  - injection N as <- <- <-. apply good_refl.
  - destruct (inner k o d a) as [[[d1 e1] k1]| | |] eqn:E; cbn [bind] in N; try discriminate N. destruct (nested inner k1 d1 t) as [[[d2 e2] k2]| | |] eqn:E2; cbn [bind] in N; try discriminate N.
    injection N as <- <- <-. exact (good_trans [] [] _ _ _ _ _ (Inner _ _ _ _ _ _ _ O E) (IH _ _ _ _ _ E2)).
Qed.
Lemma notify_good k d ev d' e k' : notify inner react k d ev = Ok (d', e, k') -> exists e', e = ev :: e' /\ good [] d e' d' /\ dm_handler d = true.
Proof.
  unfold notify. destruct (dm_handler d); cbn [negb]; [|discriminate]. destruct (nested _ _ _ _) as [[[d1 e1] k1]| | |] eqn:E; cbn [bind]; try discriminate.
  intros [= <- <- <-]. exists e1. split; [reflexivity|]. split; [exact (nested_good _ (React k) _ _ _ _ _ E)|reflexivity].
Qed.
Lemma forward_packet_good k d p d' e k' : forward_packet_re inner react k d p = Ok (d', e, k') -> good [p] d e d'.
Proof.
  unfold forward_packet_re. destruct (notify _ _ _ _ _) as [[[d1 e1] k1]| | |] eqn:E; cbn [bind]; try discriminate.
  apply notify_good in E as (e2 & -> & G & _). assert (G' : good [p] d (EvPacket p :: e2) d1).
  { destruct G as [A1 A2 A3 A4 A5]. constructor; auto. cbn [accepted delivered flat_map app map] in *. now constructor. }
  destruct (dm_autofree d1); [destruct (map_find _ _) as [b|]; try discriminate|]; intros [= <- <- <-]; [|exact G'].
  exact (good_mute_r _ _ _ _ (EvDiscardHead b) eq_refl eq_refl G').
Qed.
Lemma forward_all_good l : forall k d d' e k', forward_all_re inner react k d l = Ok (d', e, k') -> good l d e d'.
Proof.
  induction l as [|p t IH]; intros k d d' e k' N; cbn [forward_all_re] in N.
  - injection N as <- <- <-. apply good_refl.
  - destruct (forward_packet_re _ _ _ _ _) as [[[d1 e1] k1]| | |] eqn:E; cbn [bind] in N; try discriminate N. destruct (forward_all_re _ _ _ _ _) as [[[d2 e2] k2]| | |] eqn:E2; cbn [bind] in N; try discriminate N.
    injection N as <- <- <-. exact (good_trans [p] t _ _ _ _ _ (forward_packet_good _ _ _ _ _ _ E) (IH _ _ _ _ _ E2)).
Qed.
Lemma announce_good l : forall k d d' e k', announce_re inner react k d l = Ok (d', e, k') -> good [] d e d'.
Proof.
  induction l as [|p t IH]; intros k d d' e k' N; cbn [announce_re] in N.
  - injection N as <- <- <-. apply good_refl.
  - destruct (notify _ _ _ _ _) as [[[d1 e1] k1]| | |] eqn:E; cbn [bind] in N; try discriminate N. destruct (announce_re _ _ _ _ _) as [[[d2 e2] k2]| | |] eqn:E2; cbn [bind] in N; try discriminate N.
    injection N as <- <- <-. apply notify_good in E as (e3 & -> & G & _).
    exact (good_trans [] [] _ _ _ _ _ (good_mute [] _ _ _ (EvNewTrack p) eq_refl eq_refl G) (IH _ _ _ _ _ E2)).
Qed.
Lemma complete_good k o d d' e k' : oracle_ok o -> on_probe_complete_re inner react k o d = Ok (d', e, k') -> good [] d e d'.
Proof.
  intros O. unfold on_probe_complete_re. destruct (dm_completed d) eqn:C; [intros [= <- <- <-]; apply good_refl|]. cbv zeta. cbn [dm_tracks with_completed].
  destruct (dm_tracks d) as [|s0 t0] eqn:T.
  - intros N. apply notify_good in N as (e1 & -> & G & _). apply good_mute; [reflexivity..|]. destruct G as [A1 A2 A3 A4 A5]. constructor; auto.
    intros NO _ . apply A5; [exact NO|]. intros _. unfold short. cbn [dm_packets with_completed]. rewrite NO by exact T. constructor.
  - destruct (announce_re _ _ _ _ _) as [[[d2 e1] k1]| | |] eqn:E1; cbn [bind]; try discriminate. destruct (notify _ _ _ _ _) as [[[d3 e2] k2]| | |] eqn:E2; cbn [bind]; try discriminate.
    destruct (forward_all_re _ _ _ _ _) as [[[d4 e3] k3]| | |] eqn:E3; cbn [bind]; try discriminate. intros [= <- <- <-].
    apply announce_good in E1. apply notify_good in E2 as (e4 & -> & G2 & _). apply (good_mute _ _ _ _ EvTrackComplete eq_refl eq_refl) in G2. apply forward_all_good in E3.
    pose proof (good_trans _ _ _ _ _ _ _ E1 G2) as [A1 A2 A3 A4 A5]. destruct E3 as [B1 B2 B3 B4 B5]. clear G2 E1.
    cbn [dm_completed dm_tracks dm_packets with_completed with_tracks with_packets no_orphans app] in *.
    assert (T1 : dm_tracks d3 <> []). { apply A3. intros P. apply prepare_nil in P. discriminate P. }
    assert (N4 : no_orphans d4). { apply B4. intros X. now destruct T1. }
    constructor; auto.
    + replace (e1 ++ EvTrackComplete :: e4 ++ e3) with ((e1 ++ EvTrackComplete :: e4) ++ e3) by (rewrite <- app_assoc; reflexivity). rewrite (accepted_app (e1 ++ _)), (delivered_app (e1 ++ _)). cbn [app]. rewrite !map_app in *. rewrite (app_assoc (map nodur (held d))), A1, <- !app_assoc. apply Permutation_app_head.
      rewrite <- B1. rewrite (app_assoc (map nodur (or_sort _ _))). apply Permutation_app_tail. rewrite <- map_app. apply Permutation_map. rewrite (split_last_perm (dm_packets d3)) at 1. apply Permutation_app_tail. apply (O _).
    + intros _ _. apply B5; [intros X; now destruct T1|]. intros _. apply only_last_short.
Qed.

Lemma process_good k o d p d' e k' : oracle_ok o -> dm_tracks d <> [] -> process_buffered_packet_re inner react k o d p = Ok (d', e, k') -> good [] d e d'.
Proof.
  intros O T. rewrite process_re_eq. destruct (decide o d p) as [pl| | |] eqn:D; cbn [bind]; try discriminate. apply decide_cases in D as (i & l & N & _ & D). cbv zeta in D.
  assert (Add : forall l' ql, Permutation (map nodur (l ++ [p])) (map nodur (ql ++ l')) ->
    Permutation (map nodur (held d ++ [p])) (map nodur (ql ++ held (with_packets d (set_nth i l' (base_lists d p)))))).
  { intros l' ql E. cbn [dm_packets with_packets]. destruct (nth_set_concat _ _ _ N l') as (pre & post & F1 & F2). rewrite base_concat in F1. rewrite F1, F2. rewrite !map_app in *.
    rewrite <- !app_assoc. transitivity (map nodur pre ++ (map nodur l ++ map nodur [p]) ++ map nodur post).
    { rewrite <- !app_assoc. do 2 apply Permutation_app_head. apply Permutation_app_comm. }
    rewrite E. rewrite !app_assoc. do 2 apply Permutation_app_tail. apply Permutation_app_comm. }
  assert (Sh : forall l', (length l' <= 1)%nat -> settled d -> settled (with_packets d (set_nth i l' (base_lists d p)))).
  { intros l' L S C. apply Forall_set_nth; [|exact L]. apply base_Forall; [exact (S C)|cbn; lia]. }
  assert (St : Permutation (map nodur (l ++ [p])) (map nodur ([] ++ stamp l p))) by (cbn [app]; now rewrite stamp_nodur, map_app).
  destruct D as [(-> & L)|[(C & l' & q & -> & ->)|(C & ->)]].
  - intros [= <- <- <-]. refine (good_add [] (with_packets d _) [] _ _ _ _ T _ _ (Add _ [] St) _ (good_refl _)); try reflexivity. destruct L as [->|C]; [apply Sh; cbn; lia|]. intros _ X. cbn in X. congruence.
  - destruct (forward_packet_re _ _ _ _ _) as [[[d2 e2] k2]| | |] eqn:F; cbn [bind]; try discriminate. intros [= <- <- <-]. apply forward_packet_good in F.
    refine (good_add _ _ _ _ _ _ _ T _ _ (Add _ [_] _) _ F); try reflexivity.
    + rewrite !map_app. cbn [map app]. rewrite nodur_set. rewrite <- app_assoc. cbn [app]. symmetry. apply Permutation_middle.
    + intros S. pose proof (S C) as S1. assert (L1 : (length (l' ++ [q]) <= 1)%nat).
      { assert (S2 : Forall (fun x => (length x <= 1)%nat) (base_lists d p)) by (apply base_Forall; [exact S1|cbn; lia]). rewrite Forall_forall in S2. apply S2. eapply nth_error_In; eauto. }
      apply Sh; [|exact S]. rewrite app_length in *. cbn in *. lia.
  - destruct (on_probe_complete_re _ _ _ _ _) as [[[d2 e2] k2]| | |] eqn:F; cbn [bind]; try discriminate. intros [= <- <- <-]. apply complete_good in F; [|exact O].
    refine (good_add _ _ _ _ _ _ _ T _ _ (Add _ [] St) _ F); try reflexivity. intros _ X. cbn in X. congruence.
Qed.

Lemma step_with_good k o d a d' e k' : oracle_ok o -> step_with inner react k o d a = Ok (d', e, k') -> good [] d e d'.
Proof.
  intros O. rewrite step_with_eq. destruct (op_front o d a) as [fr| | |] eqn:F; cbn [bind]; try discriminate. apply front_cases in F. destruct fr as [d1 e1|d1 p|d1].
  - intros [= <- <- <-]. destruct F as (R & A & B & _). now apply ready_good.
  - destruct F as (R & T). intros P. apply process_good in P; [|exact O|exact T].
    exact (good_trans [] [] _ [] _ _ _ (ready_good _ _ R [] eq_refl eq_refl) P).
  - subst d1. now apply complete_good.
Qed.
End inner.

Lemma step_re_good react : (forall k, Forall sorting (react k)) -> forall f k o d a d' e k', sorting (o, a) -> step_re f react k o d a = Ok (d', e, k') -> good [] d e d'.
Proof.
  intros R f. induction f as [|f IH]; intros k o d a d' e k' O S; cbn [step_re] in S; [discriminate S|].
  eapply step_with_good; eauto.
Qed.
Lemma run_re_good f react : (forall k, Forall sorting (react k)) -> forall h k d d' e k', Forall sorting h -> run_re f react k d h = Ok (d', e, k') -> good [] d e d'.
Proof.
  intros R h. induction h as [|[o a] t IH]; intros k d d' e k' F S; cbn [run_re] in S.
  - injection S as <- <- <-. apply good_refl.
  - apply Forall_cons_iff in F as [F1 F2]. destruct (step_re f react k o d a) as [[[d1 e1] k1]| | |] eqn:E; cbn [bind] in S; try discriminate S. destruct (run_re f react k1 d1 t) as [[[d2 e2] k2]| | |] eqn:E2; cbn [bind] in S; try discriminate S.
    injection S as <- <- <-. exact (good_trans [] [] _ _ _ _ _ (step_re_good _ R _ _ _ _ _ _ _ _ F1 E) (IH _ _ _ _ _ F2 E2)).
Qed.

(** With a handler that only looks, nothing is new. *)
Lemma step_with_quiet inner react k o d a : (forall j, (k <= j)%nat -> react j = []) -> step_with inner react k o d a = counted k (step o d a).
Proof.
  intros E. rewrite step_with_eq, step_eq. destruct (op_front o d a) as [[d1 e|d1 p|d1]| | |] eqn:F; try reflexivity; cbn [bind].
  - apply front_cases in F as (_ & _ & _ & F). unfold counted. cbn [bind]. now rewrite F, Nat.add_0_r.
  - now apply process_quiet.
  - now apply complete_quiet.
Qed.
Lemma step_re_quiet f react k o d a : (forall j, (k <= j)%nat -> react j = []) -> step_re (S f) react k o d a = counted k (step o d a).
Proof. apply step_with_quiet. Qed.
Lemma run_re_quiet f react : (forall j, react j = []) -> forall h k d, run_re (S f) react k d h = counted k (run d h).
Proof.
  intros E h. induction h as [|[o a] t IH]; intros k d; cbn [run_re run].
  - unfold counted. cbn. now rewrite Nat.add_0_r.
  - rewrite step_re_quiet by auto. destruct (step o d a) as [[d1 e1]| | |]; try reflexivity. unfold counted at 1. cbn [bind]. rewrite IH. unfold counted. destruct (run d1 t) as [[d2 e2]| | |]; try reflexivity. cbn [bind].
    rewrite handler_events_app, app_length. now rewrite Nat.add_assoc.
Qed.

(** ** Close from a callback *)
Definition closer (o : oracle) (j : nat) : reaction := fun i => if (i =? j)%nat then [(o, OpClose)] else [].
Definition closed (d : demuxer) : demuxer := with_pre (with_handler d false) None.
(** The outcome of a piece of work with [n] callbacks from the [k]-th on, when the handler closes the demuxer in callback [j]. *)
Definition after_close (j k n : nat) (d : demuxer) (e : list event) : res (demuxer * list event * nat) :=
  if (j <? k)%nat || (k + n <=? j)%nat then Ok (d, e, (k + n)%nat)
  else if (S j =? k + n)%nat then Ok (closed d, e, (k + n)%nat) else Panic.
Ltac nat_cases := repeat match goal with
  | |- context [(?a <? ?b)%nat] => destruct (Nat.ltb_spec a b)
  | |- context [(?a <=? ?b)%nat] => destruct (Nat.leb_spec a b)
  | |- context [(?a =? ?b)%nat] => destruct (Nat.eqb_spec a b)
  end.

Section closing.
Variable inner : inner_call.
Variable oc : oracle.
Variable j : nat.
Hypothesis Inner : forall k d, inner k oc d OpClose = Ok (closed d, [], k).
Notation react := (closer oc j).

Lemma notify_close k d ev : dm_handler d = true -> notify inner react k d ev = after_close j k 1 d [ev].
Proof.
  intros H. unfold notify, closer, after_close. rewrite H. cbn [negb]. nat_cases; try lia; cbn [orb nested bind app]; rewrite ?Inner; cbn [bind app]; rewrite ?Nat.add_1_r; reflexivity.
Qed.
Lemma notify_closed k d ev : dm_handler d = false -> notify inner react k d ev = Panic.
Proof. intros H. unfold notify. now rewrite H. Qed.
Lemma forward_packet_close k d p e : forward_packet d p = Ok e -> forward_packet_re inner react k d p = after_close j k 1 d e.
Proof.
  intros F. apply forward_packet_ok in F as (H & F). unfold forward_packet_re. rewrite notify_close by exact H. unfold after_close.
  destruct F as [(A & ->)|(A & b & M & ->)]; nat_cases; try lia; cbn [orb bind dm_autofree closed with_pre with_handler dm_map]; rewrite ?A, ?M; reflexivity.
Qed.
Lemma forward_all_closed k d p t : dm_handler d = false -> forward_all_re inner react k d (p :: t) = Panic.
Proof. intros H. cbn [forward_all_re]. unfold forward_packet_re. now rewrite notify_closed. Qed.
Lemma forward_all_close d l : forall k e, forward_all d l = Ok e -> forward_all_re inner react k d l = after_close j k (length l) d e.
Proof.
  induction l as [|p t IH]; intros k e F; cbn [forward_all] in F.
  - injection F as <-. cbn [forward_all_re length]. unfold after_close. nat_cases; try lia; cbn [orb]; rewrite ?Nat.add_0_r; reflexivity.
  - destruct (forward_packet d p) as [e1| | |] eqn:F1; cbn [bind] in F; try discriminate F. destruct (forward_all d t) as [e2| | |] eqn:F2; cbn [bind] in F; try discriminate F. injection F as <-.
    cbn [forward_all_re]. rewrite (forward_packet_close _ _ _ _ F1). pose proof (IH (k + 1)%nat _ eq_refl) as I. unfold after_close in *. cbn [length].
    destruct (Nat.eq_dec k j) as [->|N].
    + nat_cases; try lia; cbn [orb bind].
      * destruct t as [|q t]; [|cbn [length] in *; lia]. cbn [forward_all_re bind]. cbn in F2. injection F2 as <-. cbn [length]. rewrite app_nil_r. reflexivity.
      * destruct t as [|q t]; [cbn [length] in *; lia|]. rewrite forward_all_closed by reflexivity. reflexivity.
    + replace ((j <? k)%nat || (k + 1 <=? j)%nat) with true by (nat_cases; try lia; reflexivity). cbn [bind]. rewrite I. clear I IH.
      replace ((j <? k + 1)%nat || (k + 1 + length t <=? j)%nat) with ((j <? k)%nat || (k + S (length t) <=? j)%nat) by (nat_cases; try lia; reflexivity).
      replace (k + 1 + length t)%nat with (k + S (length t))%nat by lia.
      destruct (_ || _); [reflexivity|]. destruct (_ =? _)%nat; reflexivity.
Qed.
Lemma announce_close d l : dm_handler d = true -> forall k, announce_re inner react k d l = after_close j k (length l) d (map EvNewTrack l).
Proof.
  intros H. induction l as [|s t IH]; intros k.
  - cbn [announce_re length]. unfold after_close. nat_cases; try lia; cbn [orb]; rewrite ?Nat.add_0_r; reflexivity.
  - cbn [announce_re]. rewrite notify_close by exact H. pose proof (IH (k + 1)%nat) as I. unfold after_close in *. cbn [length map].
    destruct (Nat.eq_dec k j) as [->|N].
    + nat_cases; try lia; cbn [orb bind].
      * destruct t as [|q t]; [|cbn [length] in *; lia]. reflexivity.
      * destruct t as [|q t]; [cbn [length] in *; lia|]. rewrite announce_nil_handler by reflexivity. reflexivity.
    + replace ((j <? k)%nat || (k + 1 <=? j)%nat) with true by (nat_cases; try lia; reflexivity). cbn [bind]. rewrite I. clear I IH.
      replace ((j <? k + 1)%nat || (k + 1 + length t <=? j)%nat) with ((j <? k)%nat || (k + S (length t) <=? j)%nat) by (nat_cases; try lia; reflexivity).
      replace (k + 1 + length t)%nat with (k + S (length t))%nat by lia.
      destruct (_ || _); [reflexivity|]. destruct (_ =? _)%nat; reflexivity.
Qed.
Lemma complete_close k o d d' e : on_probe_complete o d = Ok (d', e) -> on_probe_complete_re inner react k o d = after_close j k (length (handler_events e)) d' e.
Proof.
  unfold on_probe_complete, on_probe_complete_re. destruct (dm_completed d).
  { intros [= <- <-]. cbn [handler_events filter length]. unfold after_close. nat_cases; try lia; cbn [orb]; rewrite ?Nat.add_0_r; reflexivity. }
  cbv zeta. cbn [dm_tracks with_completed]. destruct (dm_tracks d) as [|s0 t0] eqn:T.
  { cbn [dm_handler with_completed]. destruct (dm_handler d) eqn:H; [|discriminate]. intros [= <- <-]. apply notify_close. exact H. }
  change (dm_map (with_completed d)) with (dm_map d). change (dm_packets (with_completed d)) with (dm_packets d). set (ts := prepare_tracks o (dm_packets d) (s0 :: t0)).
  cbn [dm_handler with_tracks with_completed]. destruct (dm_handler d) eqn:H; cbn [negb]; [|discriminate].
  set (d2 := with_tracks (with_completed d) ts (dm_map d)). change (dm_packets d2) with (dm_packets d). set (result := or_sort o _). set (d3 := with_packets d2 _).
  destruct (forward_all d3 result) as [e3| | |] eqn:F; cbn [bind]; try discriminate. intros [= <- <-].
  assert (L : length (handler_events (map EvNewTrack ts ++ EvTrackComplete :: e3)) = (length ts + 1 + length result)%nat).
  { change (EvTrackComplete :: e3) with ([EvTrackComplete] ++ e3). rewrite !handler_events_app, handler_new_tracks, !app_length, map_length, (forward_all_count _ _ _ F). cbn. lia. }
  rewrite L. rewrite announce_close by exact H.
  destruct (Nat.lt_ge_cases j k) as [J|J]; [|destruct (Nat.lt_ge_cases j (k + length ts)) as [J1|J1]; [|destruct (Nat.eq_dec j (k + length ts)) as [J2|J2]]].
  1,4: replace (after_close j k (length ts) d2 (map EvNewTrack ts)) with (Ok (d2, map EvNewTrack ts, (k + length ts)%nat)) by (unfold after_close; nat_cases; try lia; reflexivity);
       cbn [bind]; rewrite notify_close by exact H;
       replace (after_close j (k + length ts) 1 d2 [EvTrackComplete]) with (Ok (d2, [EvTrackComplete], (k + length ts + 1)%nat)) by (unfold after_close; nat_cases; try lia; reflexivity);
       cbn [bind]; change (dm_packets d2) with (dm_packets d); fold result d3; rewrite (forward_all_close _ _ _ _ F); unfold after_close;
       rewrite !Nat.add_assoc; nat_cases; try lia; reflexivity.
  - assert (R : after_close j k (length ts + 1 + length result) d3 (map EvNewTrack ts ++ EvTrackComplete :: e3) = Panic) by (unfold after_close; nat_cases; try lia; reflexivity).
    rewrite R. unfold after_close. nat_cases; try lia; cbn [orb bind]; try reflexivity.
  - replace (after_close j k (length ts) d2 (map EvNewTrack ts)) with (Ok (d2, map EvNewTrack ts, (k + length ts)%nat)) by (unfold after_close; nat_cases; try lia; reflexivity).
    cbn [bind]; rewrite notify_close by exact H.
    replace (after_close j (k + length ts) 1 d2 [EvTrackComplete]) with (Ok (closed d2, [EvTrackComplete], (k + length ts + 1)%nat)) by (unfold after_close; nat_cases; try lia; reflexivity).
    cbn [bind]. change (dm_packets (closed d2)) with (dm_packets d). fold result. unfold after_close. destruct result as [|p t] eqn:R.
    + cbn in F. injection F as <-. cbn [forward_all_re bind length]. nat_cases; try lia. cbn [orb]. do 2 f_equal. lia.
    + rewrite forward_all_closed by reflexivity. cbn [bind length]. nat_cases; try lia; reflexivity.
Qed.
Lemma process_close k o d p d' e : process_buffered_packet o d p = Ok (d', e) -> process_buffered_packet_re inner react k o d p = after_close j k (length (handler_events e)) d' e.
Proof.
  rewrite process_re_eq, process_eq. destruct (decide o d p) as [[d1|d1 q|d1]| | |]; cbn [bind]; try discriminate.
  - intros [= <- <-]. cbn [handler_events filter is_handler length]. unfold after_close. nat_cases; try lia; cbn [orb]; rewrite ?Nat.add_0_r; reflexivity.
  - destruct (forward_packet d1 q) as [e1| | |] eqn:F; cbn [bind]; try discriminate. intros [= <- <-]. rewrite (forward_packet_close _ _ _ _ F).
    apply forward_packet_events in F as (F & _). change (handler_events (EvAdd p (zlen (dm_packets d)) :: e1)) with (handler_events e1). rewrite F. cbn [length]. unfold after_close. destruct (_ || _); [reflexivity|]. destruct (_ =? _)%nat; reflexivity.
  - destruct (on_probe_complete o d1) as [[d2 e1]| | |] eqn:F; cbn [bind]; try discriminate. intros [= <- <-]. rewrite (complete_close _ _ _ _ _ F).
    change (handler_events (EvAdd p (zlen (dm_packets d)) :: e1)) with (handler_events e1). unfold after_close. destruct (_ || _); [reflexivity|]. destruct (_ =? _)%nat; reflexivity.
Qed.
Lemma step_with_close k o d a d' e : step o d a = Ok (d', e) -> step_with inner react k o d a = after_close j k (length (handler_events e)) d' e.
Proof.
  rewrite step_with_eq, step_eq. destruct (op_front o d a) as [[d1 e1|d1 p|d1]| | |] eqn:F; cbn [bind]; try discriminate.
  - intros [= <- <-]. apply front_cases in F as (_ & _ & _ & F). rewrite F. cbn [length]. unfold after_close. nat_cases; try lia; cbn [orb]; rewrite ?Nat.add_0_r; reflexivity.
  - apply process_close.
  - apply complete_close.
Qed.
End closing.
Lemma step_re_close f oc j k o d a d' e : step o d a = Ok (d', e) -> step_re (S (S f)) (closer oc j) k o d a = after_close j k (length (handler_events e)) d' e.
Proof. intros S. cbn [step_re]. apply step_with_close; [|exact S]. reflexivity. Qed.

(** ** The depth of the calls *)
Section fuel.
Variable react : reaction.
Definition rising (inner : inner_call) : Prop := forall k o d a d' e k', inner k o d a = Ok (d', e, k') -> (k <= k')%nat.
(** The two ways to execute inner calls agree on those made by the callbacks from the [k]-th on. *)
Definition agree (k : nat) (f g : inner_call) : Prop := forall i, (k <= i)%nat -> react i <> [] -> forall k' o d a, (i < k')%nat -> f k' o d a = g k' o d a.
Variables f g : inner_call.
Hypothesis Rf : rising f.

Lemma nested_rising l : forall k d d' e k', nested f k d l = Ok (d', e, k') -> (k <= k')%nat.
Proof.
  induction l as [|[o a] t IH]; intros k d d' e k' N; cbn [nested] in N; [injection N as <- <- <-; lia|].
  destruct (f k o d a) as [[[d1 e1] k1]| | |] eqn:E; cbn [bind] in N; try discriminate N. destruct (nested f k1 d1 t) as [[[d2 e2] k2]| | |] eqn:E2; cbn [bind] in N; try discriminate N.
  injection N as <- <- <-. apply Rf in E. apply IH in E2. lia.
Qed.
Lemma notify_rising k d ev d' e k' : notify f react k d ev = Ok (d', e, k') -> (k < k')%nat.
Proof.
  unfold notify. destruct (dm_handler d); cbn [negb]; [|discriminate]. destruct (nested _ _ _ _) as [[[d1 e1] k1]| | |] eqn:E; cbn [bind]; try discriminate. intros [= <- <- <-]. apply nested_rising in E. lia.
Qed.
Lemma forward_packet_rising k d p d' e k' : forward_packet_re f react k d p = Ok (d', e, k') -> (k < k')%nat.
Proof.
  unfold forward_packet_re. destruct (notify _ _ _ _ _) as [[[d1 e1] k1]| | |] eqn:E; cbn [bind]; try discriminate. apply notify_rising in E.
  destruct (dm_autofree d1); [destruct (map_find _ _); [|discriminate]|]; intros [= <- <- <-]; exact E.
Qed.
Lemma forward_all_rising l : forall k d d' e k', forward_all_re f react k d l = Ok (d', e, k') -> (k <= k')%nat.
Proof.
  induction l as [|p t IH]; intros k d d' e k' N; cbn [forward_all_re] in N; [injection N as <- <- <-; lia|].
  destruct (forward_packet_re _ _ _ _ _) as [[[d1 e1] k1]| | |] eqn:E; cbn [bind] in N; try discriminate N. destruct (forward_all_re _ _ _ _ _) as [[[d2 e2] k2]| | |] eqn:E2; cbn [bind] in N; try discriminate N.
  injection N as <- <- <-. apply forward_packet_rising in E. apply IH in E2. lia.
Qed.
Lemma announce_rising l : forall k d d' e k', announce_re f react k d l = Ok (d', e, k') -> (k <= k')%nat.
Proof.
  induction l as [|p t IH]; intros k d d' e k' N; cbn [announce_re] in N; [injection N as <- <- <-; lia|].
  destruct (notify _ _ _ _ _) as [[[d1 e1] k1]| | |] eqn:E; cbn [bind] in N; try discriminate N. destruct (announce_re _ _ _ _ _) as [[[d2 e2] k2]| | |] eqn:E2; cbn [bind] in N; try discriminate N.
  injection N as <- <- <-. apply notify_rising in E. apply IH in E2. lia.
Qed.
Lemma complete_rising k o d d' e k' : on_probe_complete_re f react k o d = Ok (d', e, k') -> (k <= k')%nat.
Proof.
  unfold on_probe_complete_re. destruct (dm_completed d); [intros [= <- <- <-]; lia|]. cbv zeta. destruct (dm_tracks _); [intros N; apply notify_rising in N; lia|].
  destruct (announce_re _ _ _ _ _) as [[[d2 e1] k1]| | |] eqn:E1; cbn [bind]; try discriminate. destruct (notify _ _ _ _ _) as [[[d3 e2] k2]| | |] eqn:E2; cbn [bind]; try discriminate.
  destruct (forward_all_re _ _ _ _ _) as [[[d4 e3] k3]| | |] eqn:E3; cbn [bind]; try discriminate. intros [= <- <- <-].
  apply announce_rising in E1. apply notify_rising in E2. apply forward_all_rising in E3. lia.
Qed.
Lemma step_with_rising : rising (step_with f react).
Proof.
  intros k o d a d' e k'. rewrite step_with_eq. destruct (op_front o d a) as [[d1 e1|d1 p|d1]| | |]; cbn [bind]; try discriminate.
  - intros [= <- <- <-]. lia.
  - rewrite process_re_eq. destruct (decide o d1 p) as [[d2|d2 q|d2]| | |]; cbn [bind]; try discriminate.
    + intros [= <- <- <-]. lia.
    + destruct (forward_packet_re _ _ _ _ _) as [[[d3 e3] k3]| | |] eqn:E; cbn [bind]; try discriminate. intros [= <- <- <-]. apply forward_packet_rising in E. lia.
    + destruct (on_probe_complete_re _ _ _ _ _) as [[[d3 e3] k3]| | |] eqn:E; cbn [bind]; try discriminate. intros [= <- <- <-]. apply complete_rising in E. lia.
  - apply complete_rising.
Qed.

Lemma agree_le k k' : (k <= k')%nat -> agree k f g -> agree k' f g.
Proof. intros L A i I. apply A. lia. Qed.
Lemma nested_agree i l : react i <> [] -> forall k d, (i < k)%nat -> agree i f g -> nested f k d l = nested g k d l.
Proof.
  intros R. induction l as [|[o a] t IH]; intros k d L A; cbn [nested]; [reflexivity|]. rewrite <- (A i (Nat.le_refl _) R k o d a L).
  destruct (f k o d a) as [[[d1 e1] k1]| | |] eqn:E; cbn [bind]; try reflexivity. apply Rf in E. rewrite IH by (auto; lia). reflexivity.
Qed.
Lemma notify_agree k d ev : agree k f g -> notify f react k d ev = notify g react k d ev.
Proof.
  intros A. unfold notify. destruct (dm_handler d); [|reflexivity]. cbn [negb]. destruct (react k) as [|x t] eqn:R; [reflexivity|].
  rewrite (nested_agree k (x :: t)) by (auto; rewrite R; discriminate). reflexivity.
Qed.
Lemma forward_packet_agree k d p : agree k f g -> forward_packet_re f react k d p = forward_packet_re g react k d p.
Proof. intros A. unfold forward_packet_re. now rewrite notify_agree. Qed.
Lemma forward_all_agree l : forall k d, agree k f g -> forward_all_re f react k d l = forward_all_re g react k d l.
Proof.
  induction l as [|p t IH]; intros k d A; cbn [forward_all_re]; [reflexivity|]. rewrite <- forward_packet_agree by exact A.
  destruct (forward_packet_re f react k d p) as [[[d1 e1] k1]| | |] eqn:E; cbn [bind]; try reflexivity. apply forward_packet_rising in E. rewrite IH; [reflexivity|]. eapply agree_le; [|exact A]. lia.
Qed.
Lemma announce_agree l : forall k d, agree k f g -> announce_re f react k d l = announce_re g react k d l.
Proof.
  induction l as [|p t IH]; intros k d A; cbn [announce_re]; [reflexivity|]. rewrite <- notify_agree by exact A.
  destruct (notify f react k d _) as [[[d1 e1] k1]| | |] eqn:E; cbn [bind]; try reflexivity. apply notify_rising in E. rewrite IH; [reflexivity|]. eapply agree_le; [|exact A]. lia.
Qed.
Lemma complete_agree k o d : agree k f g -> on_probe_complete_re f react k o d = on_probe_complete_re g react k o d.
Proof.
  intros A. unfold on_probe_complete_re. destruct (dm_completed d); [reflexivity|]. cbv zeta. destruct (dm_tracks _); [now apply notify_agree|].
  rewrite <- announce_agree by exact A. destruct (announce_re _ _ _ _ _) as [[[d2 e1] k1]| | |] eqn:E1; cbn [bind]; try reflexivity. apply announce_rising in E1. assert (A1 : agree k1 f g) by (eapply agree_le; eauto).
  rewrite <- notify_agree by exact A1. destruct (notify _ _ _ _ _) as [[[d3 e2] k2]| | |] eqn:E2; cbn [bind]; try reflexivity. apply notify_rising in E2. rewrite <- forward_all_agree; [reflexivity|]. eapply agree_le; [|exact A1]. lia.
Qed.
Lemma step_with_agree k o d a : agree k f g -> step_with f react k o d a = step_with g react k o d a.
Proof.
  intros A. rewrite !step_with_eq. destruct (op_front o d a) as [[d1 e1|d1 p|d1]| | |]; cbn [bind]; try reflexivity.
  - rewrite !process_re_eq. destruct (decide o d1 p) as [[d2|d2 q|d2]| | |]; cbn [bind]; try reflexivity; [now rewrite forward_packet_agree|now rewrite complete_agree].
  - now apply complete_agree.
Qed.
End fuel.
Lemma step_re_rising react f : rising (step_re f react).
Proof. induction f as [|f IH]; [intros k o d a d' e k' S; discriminate S|]. exact (step_with_rising react _ IH). Qed.
(** A handler that makes calls during the first [n] callbacks only needs [n] levels of calls. *)
Lemma step_re_depth react n : (forall j, (n <= j)%nat -> react j = []) -> forall f k o d a, (n - k < f)%nat -> step_re f react k o d a = step_re (S (n - k)) react k o d a.
Proof.
  intros R f. induction f as [f IH] using (well_founded_induction Nat.lt_wf_0). intros k o d a L. destruct f as [|f]; [lia|]. cbn [step_re].
  apply step_with_agree; [apply step_re_rising|]. intros i I N k' o' d' a' K.
  assert (i < n)%nat. { destruct (Nat.lt_ge_cases i n); [assumption|]. now destruct N; apply R. }
  destruct (n - k)%nat as [|m] eqn:M; [lia|]. rewrite (IH f) by lia. symmetry. apply IH; lia.
Qed.
Lemma run_re_depth react n : (forall j, (n <= j)%nat -> react j = []) -> forall f h k d, (n < f)%nat -> run_re f react k d h = run_re (S n) react k d h.
Proof.
  intros R f h. induction h as [|[o a] t IH]; intros k d L; cbn [run_re]; [reflexivity|].
  rewrite (step_re_depth react n R f), (step_re_depth react n R (S n)) by lia. destruct (step_re _ _ _ _ _ _) as [[[d1 e1] k1]| | |]; cbn [bind]; try reflexivity. now rewrite IH.
Qed.

(** ** After the probe every track stays in order *)
Definition slots (d : demuxer) : Prop := forall i, (length (nth i (dm_packets d) []) <= 1)%nat /\ Forall (fun p => pk_index p = Z.of_nat i) (nth i (dm_packets d) []).
(** What track [i] had waiting and then received leaves in that order, each packet with the distance to the next one; the last waits. *)
Definition fifo (flight : list packet) (d : demuxer) (e : list event) (d' : demuxer) : Prop := forall i,
  let received := nth i (dm_packets d) [] ++ of_index (Z.of_nat i) (accepted e) in
  of_index (Z.of_nat i) (delivered e) = of_index (Z.of_nat i) flight ++ removelast (durs received) /\ nth i (dm_packets d') [] = only_last received.
Definition steady (flight : list packet) (d : demuxer) (e : list event) (d' : demuxer) : Prop :=
  aligned e -> dm_completed d = true -> slots d -> dm_completed d' = true /\ slots d' /\ fifo flight d e d'.

Lemma single_cut l : (length l <= 1)%nat -> only_last l = l /\ removelast (durs l) = [].
Proof. destruct l as [|a [|b t]]; cbn; intros; try lia; auto. Qed.
Lemma only_last_cons a b t : only_last (a :: b :: t) = only_last (b :: t).
Proof. unfold only_last. f_equal. revert b. induction t as [|c t IH]; intros b; [reflexivity|]. cbn [last] in *. destruct t; [reflexivity|apply (IH b)]. Qed.
Lemma removelast_durs_cons a b t : removelast (durs (a :: b :: t)) = set_duration a (i64 (pk_dts b - pk_dts a)) :: removelast (durs (b :: t)).
Proof. change (durs (a :: b :: t)) with (set_duration a (i64 (pk_dts b - pk_dts a)) :: durs (b :: t)). destruct (durs (b :: t)) eqn:E; [destruct t; discriminate E|reflexivity]. Qed.
Lemma durs_cut a : forall x, removelast (durs (x ++ a)) = removelast (durs x) ++ removelast (durs (only_last x ++ a)) /\ only_last (x ++ a) = only_last (only_last x ++ a).
Proof.
  intros x. induction x as [|q x IH]; [auto|]. destruct x as [|r x]; [auto|]. rewrite only_last_cons. cbn [app] in *. rewrite !removelast_durs_cons, only_last_cons. destruct IH as [-> ->]. auto.
Qed.
Lemma aligned_app a b : aligned (a ++ b) -> aligned a /\ aligned b.
Proof. apply Forall_app. Qed.

Lemma steady_refl d : steady [] d [] d.
Proof. intros _ C S. split; [exact C|]. split; [exact S|]. intros i. cbv zeta. cbn. rewrite app_nil_r. destruct (single_cut _ (proj1 (S i))) as [-> ->]. auto. Qed.
Lemma steady_trans f d e1 d1 e2 d2 : steady f d e1 d1 -> steady [] d1 e2 d2 -> steady f d (e1 ++ e2) d2.
Proof.
  intros A B Al C S. apply aligned_app in Al as [Al1 Al2]. destruct (A Al1 C S) as (C1 & S1 & F1). destruct (B Al2 C1 S1) as (C2 & S2 & F2). split; [exact C2|]. split; [exact S2|].
  intros i. cbv zeta. destruct (F1 i) as [G1 G2]. destruct (F2 i) as [H1 H2]. rewrite accepted_app, delivered_app, !of_index_app, app_assoc. rewrite G2 in H1, H2.
  destruct (durs_cut (of_index (Z.of_nat i) (accepted e2)) (nth i (dm_packets d) [] ++ of_index (Z.of_nat i) (accepted e1))) as [-> ->]. rewrite G1, H1, H2. cbn [of_index filter app]. rewrite app_assoc. auto.
Qed.
Lemma steady_mute_r f d e d' x : accepted [x] = [] -> delivered [x] = [] -> steady f d e d' -> steady f d (e ++ [x]) d'.
Proof.
  intros X Y A Al C S. apply aligned_app in Al as [Al _]. destruct (A Al C S) as (C1 & S1 & F1). split; [exact C1|]. split; [exact S1|].
  intros i. rewrite accepted_app, delivered_app, X, Y, !app_nil_r. apply F1.
Qed.

Section steady.
Variable inner : inner_call.
Variable react : reaction.
Hypothesis Inner : forall k o d a d' e k', inner k o d a = Ok (d', e, k') -> steady [] d e d'.

Lemma nested_steady l : forall k d d' e k', nested inner k d l = Ok (d', e, k') -> steady [] d e d'.
Proof.
  induction l as [|[o a] t IH]; intros k d d' e k' N; cbn [nested] in N.
  - injection N as <- <- <-. apply steady_refl.
  - destruct (inner k o d a) as [[[d1 e1] k1]| | |] eqn:E; cbn [bind] in N; try discriminate N. destruct (nested inner k1 d1 t) as [[[d2 e2] k2]| | |] eqn:E2; cbn [bind] in N; try discriminate N.
    injection N as <- <- <-. exact (steady_trans [] _ _ _ _ _ (Inner _ _ _ _ _ _ _ E) (IH _ _ _ _ _ E2)).
Qed.
Lemma forward_packet_steady k d p d' e k' : forward_packet_re inner react k d p = Ok (d', e, k') -> steady [p] d e d'.
Proof.
  unfold forward_packet_re, notify. destruct (dm_handler d); cbn [negb]; [|discriminate]. destruct (nested _ _ _ _) as [[[d1 e1] k1]| | |] eqn:E; cbn [bind]; try discriminate.
  apply nested_steady in E. assert (G : steady [p] d (EvPacket p :: e1) d1).
  { intros Al C S. change (EvPacket p :: e1) with ([EvPacket p] ++ e1) in *. apply aligned_app in Al as [_ Al]. destruct (E Al C S) as (C1 & S1 & F1). split; [exact C1|]. split; [exact S1|].
    intros i. destruct (F1 i) as [G1 G2]. rewrite accepted_app, delivered_app. cbn [accepted delivered flat_map app]. fold (accepted e1) (delivered e1). cbv zeta. split; [|exact G2].
    change (p :: delivered e1) with ([p] ++ delivered e1). rewrite of_index_app, G1. reflexivity. }
  destruct (dm_autofree d1); [destruct (map_find _ _) as [b|]; try discriminate|]; intros [= <- <- <-]; [|exact G].
  exact (steady_mute_r _ _ _ _ (EvDiscardHead b) eq_refl eq_refl G).
Qed.
Lemma process_steady k o d p d' e k' : process_buffered_packet_re inner react k o d p = Ok (d', e, k') -> steady [] d e d'.
Proof.
  rewrite process_re_eq. destruct (decide o d p) as [pl| | |] eqn:D; cbn [bind]; try discriminate. apply decide_cases in D as (n & l & N & K & D). cbv zeta in D.
  assert (Hn : (n < length (base_lists d p))%nat) by (apply nth_error_Some; congruence).
  assert (N' : nth n (dm_packets d) [] = l) by (rewrite <- (nth_base d p); now apply nth_error_nth).
  assert (Nth : forall l' i, nth i (dm_packets (with_packets d (set_nth n l' (base_lists d p)))) [] = if (i =? n)%nat then l' else nth i (dm_packets d) []).
  { intros l' i. cbn [dm_packets with_packets]. rewrite nth_set_nth by exact Hn. rewrite nth_base. reflexivity. }
  assert (Al0 : forall r, aligned (EvAdd p (zlen (dm_packets d)) :: r) -> aligned r /\ pk_index p = Z.of_nat n).
  { intros r AL. unfold aligned in AL. rewrite Forall_cons_iff in AL. destruct AL as [A1 A2]. split; [exact A2|lia]. }
  assert (St : forall i : nat, pk_index p = Z.of_nat n -> of_index (Z.of_nat i) [p] = if (i =? n)%nat then [p] else []).
  { intros i E. cbn [of_index filter]. rewrite E. destruct (Nat.eqb_spec i n) as [->|X]; [now rewrite Z.eqb_refl|]. destruct (Z.eqb_spec (Z.of_nat n) (Z.of_nat i)); auto. lia. }
  assert (Sl : pk_index p = Z.of_nat n -> slots d -> slots (with_packets d (set_nth n [p] (base_lists d p)))).
  { intros E S i. rewrite Nth. destruct (Nat.eqb_spec i n) as [->|X]; [|apply S]. split; [cbn; lia|]. repeat constructor. exact E. }
  destruct D as [(-> & L)|[(C & l' & q & -> & ->)|(C & ->)]].
  - intros [= <- <- <-] Al C S. destruct (Al0 _ Al) as [_ E]. destruct L as [->|L]; [|congruence]. cbn [stamp]. split; [exact C|]. split; [now apply Sl|].
    intros i. cbv zeta. rewrite Nth. cbn [accepted delivered flat_map app]. rewrite St by exact E. destruct (Nat.eqb_spec i n) as [->|X].
    + rewrite N'. auto.
    + rewrite app_nil_r. destruct (single_cut _ (proj1 (S i))) as [-> ->]. auto.
  - destruct (forward_packet_re _ _ _ _ _) as [[[d2 e2] k2]| | |] eqn:F; cbn [bind]; try discriminate. intros [= <- <- <-] Al _ S. destruct (Al0 _ Al) as [Al1 E]. apply forward_packet_steady in F.
    assert (L' : l' = []). { pose proof (proj1 (S n)) as L. rewrite N', app_length in L. cbn in L. destruct l'; [reflexivity|cbn in L; lia]. } subst l'. cbn [app] in *.
    destruct (F Al1 C (Sl E S)) as (C2 & S2 & F2). split; [exact C2|]. split; [exact S2|]. intros i. destruct (F2 i) as [G1 G2]. rewrite Nth in G1, G2. cbv zeta. cbn [accepted delivered flat_map app]. fold (accepted e2) (delivered e2).
    change (p :: accepted e2) with ([p] ++ accepted e2). rewrite of_index_app, St by exact E. rewrite G1, G2. pose proof (proj2 (S n)) as Q. rewrite N' in Q. apply Forall_inv in Q. cbn [of_index filter]. change (pk_index (set_duration q _)) with (pk_index q). rewrite Q. clear G1 G2.
    destruct (Nat.eqb_spec i n) as [E0|X].
    + rewrite E0, N', Z.eqb_refl. cbn [app]. rewrite removelast_durs_cons, only_last_cons. auto.
    + destruct (Z.eqb_spec (Z.of_nat n) (Z.of_nat i)); [lia|]. auto.
  - destruct (on_probe_complete_re _ _ _ _ _) as [[[d2 e2] k2]| | |] eqn:F; cbn [bind]; try discriminate. intros _ _ X. congruence.
Qed.
Lemma step_with_steady k o d a d' e k' : step_with inner react k o d a = Ok (d', e, k') -> steady [] d e d'.
Proof.
  rewrite step_with_eq. destruct (op_front o d a) as [fr| | |] eqn:F; cbn [bind]; try discriminate. apply front_cases in F. destruct fr as [d1 e1|d1 p|d1].
  - intros [= <- <- <-] _ C S. destruct F as ((P & C1 & _) & A & B & _). split; [congruence|]. split; [unfold slots; now rewrite P|]. intros i. cbv zeta. rewrite A, B, P. cbn [of_index filter app]. rewrite app_nil_r. destruct (single_cut _ (proj1 (S i))) as [-> ->]. auto.
  - destruct F as ((P & C1 & _) & _). intros N Al C S. apply process_steady in N. destruct (N Al) as (C2 & S2 & F2); [congruence|unfold slots; now rewrite P|]. split; [exact C2|]. split; [exact S2|]. intros i. specialize (F2 i). now rewrite P in F2.
  - subst d1. unfold on_probe_complete_re. intros N Al C. rewrite C in N. injection N as <- <- <-. revert Al C. apply steady_refl.
Qed.
End steady.
Lemma step_re_steady react f : forall k o d a d' e k', step_re f react k o d a = Ok (d', e, k') -> steady [] d e d'.
Proof. induction f as [|f IH]; intros k o d a d' e k' S; cbn [step_re] in S; [discriminate S|]. eapply step_with_steady; eauto. Qed.
Lemma run_re_steady f react h : forall k d d' e k', run_re f react k d h = Ok (d', e, k') -> steady [] d e d'.
Proof.
  induction h as [|[o a] t IH]; intros k d d' e k' N; cbn [run_re] in N.
  - injection N as <- <- <-. apply steady_refl.
  - destruct (step_re f react k o d a) as [[[d1 e1] k1]| | |] eqn:E; cbn [bind] in N; try discriminate N. destruct (run_re f react k1 d1 t) as [[[d2 e2] k2]| | |] eqn:E2; cbn [bind] in N; try discriminate N.
    injection N as <- <- <-. exact (steady_trans [] _ _ _ _ _ (step_re_steady _ _ _ _ _ _ _ _ _ E) (IH _ _ _ _ _ E2)).
Qed.
Lemma reach_slots name h d evs : Forall sorting h -> run (dm_new name) h = Ok (d, evs) -> aligned evs -> dm_completed d = true -> slots d.
Proof.
  intros F R Al C i. destruct (reach_balanced _ _ _ _ F R) as (_ & _ & [_ B] & St). destruct (St Al i) as [_ S]. destruct (S C) as (L & _). split.
  - specialize (B C). destruct (Nat.lt_ge_cases i (length (dm_packets d))) as [X|X]; [|rewrite nth_overflow by lia; cbn; lia]. rewrite Forall_forall in B. apply B. now apply nth_In.
  - rewrite L. pose proof (of_index_idx (Z.of_nat i) (accepted evs)) as Q. apply (Forall_durs (fun z => z = Z.of_nat i)) in Q. destruct (durs _) as [|a t]; [constructor|]. unfold only_last. repeat constructor.
    rewrite Forall_forall in Q. apply Q. destruct t as [|b t]; [now left|]. right. clear. revert b. induction t as [|c t IH]; intros b; [now left|]. right. change (last (b :: c :: t) a) with (last (c :: t) a). apply IH.
Qed.

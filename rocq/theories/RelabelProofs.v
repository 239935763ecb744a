From Verif Require Import Base NaluModel RecordModel AacModel FloatModel PacketModel DemuxModel DemuxProofs UtilModel HandlerModel ReentModel ReentProofs RelabelSpec.
From Coq Require Import String List Permutation Sorted.
Import ListNotations.
Local Open Scope list_scope.

Section relabel.
Variable r : relabel.
Hypothesis Hr : relabel_ok r.
Notation RP := (rl_packet r).
Notation RD := (rl_dm r).
Notation RE := (rl_event r).
Notation RO := (rl_oracle r).

Lemma rl_inj a b : (rl_buf r a =? rl_buf r b) = (a =? b).
Proof. destruct (Z.eqb_spec a b) as [->|N]; [apply Z.eqb_refl|]. apply Z.eqb_neq. intros E. apply N. rewrite <- (proj1 Hr a), <- (proj1 Hr b). now f_equal. Qed.
Lemma rl_back_packet p : rl_back r (RP p) = p.
Proof. destruct p. unfold rl_back, rl_packet, pts_move. cbn. rewrite (proj1 Hr). f_equal; lia. Qed.
Lemma rl_packet_back p : RP (rl_back r p) = p.
Proof. destruct p. unfold rl_back, rl_packet, pts_move. cbn. rewrite (proj2 Hr). f_equal; lia. Qed.
Lemma rl_back_all l : map (rl_back r) (map RP l) = l.
Proof. induction l as [|p t IH]; cbn [map]; [reflexivity|]. now rewrite rl_back_packet, IH. Qed.
Lemma rl_all_back l : map RP (map (rl_back r) l) = l.
Proof. induction l as [|p t IH]; cbn [map]; [reflexivity|]. now rewrite rl_packet_back, IH. Qed.
Lemma rl_sort o l : or_sort (RO o) (map RP l) = map RP (or_sort o l).
Proof. cbn. now rewrite rl_back_all. Qed.
Lemma rl_oracle_ok o : oracle_ok o -> oracle_ok (RO o).
Proof.
  intros O l. cbn. destruct (O (map (rl_back r) l)) as [P S]. split.
  - rewrite <- (rl_all_back l) at 1. now apply Permutation_map.
  - clear P. induction S as [|a t S IH H]; [constructor|]. cbn [map]. constructor; [exact IH|]. clear IH S. destruct t as [|b t]; [constructor|]. cbn [map]. constructor. inversion H; subst.
    unfold dts_le in *. change (pk_dts (RP a)) with (pk_dts a + rl_dts r). change (pk_dts (RP b)) with (pk_dts b + rl_dts r). lia.
Qed.

Lemma rl_first codec l : first_packet_of codec (map (map RP) l) = option_map RP (first_packet_of codec l).
Proof. induction l as [|[|p t] l IH]; cbn [map first_packet_of]; auto. change (pk_codec (RP p)) with (pk_codec p). destruct (_ =? _); auto. Qed.
Lemma rl_ms o p : pk_ms (RO o) (RP p) = pk_ms o p.
Proof. reflexivity. Qed.
Lemma rl_prepare o ps ts : prepare_tracks (RO o) (map (map RP) ps) ts = prepare_tracks o ps ts.
Proof.
  unfold prepare_tracks, calculate_g726_bit_rate, calculate_pcm_frequency. rewrite !rl_first.
  destruct (first_packet_of AVCodecIdPCMS16LE ps) as [p|]; destruct (first_packet_of AVCodecIdADPCMG726 ps) as [q|]; reflexivity.
Qed.
Lemma rl_map_find m k : map_find (map (fun e => (fst e, rl_buf r (snd e))) m) k = option_map (rl_buf r) (map_find m k).
Proof. induction m as [|[a b] t IH]; cbn [map map_find fst snd]; [reflexivity|]. destruct (_ =? _); auto. Qed.
Lemma rl_map_set m k v : map (fun e => (fst e, rl_buf r (snd e))) (map_set m k v) = map_set (map (fun e => (fst e, rl_buf r (snd e))) m) k (rl_buf r v).
Proof. unfold map_set. rewrite map_app. f_equal. induction m as [|[a b] t IH]; cbn [map filter fst snd]; [reflexivity|]. destruct (negb _); cbn [map fst snd]; now rewrite IH. Qed.

Lemma rl_forward d p : forward_packet (RD d) (RP p) = (e <- forward_packet d p;; Ok (map RE e)).
Proof.
  unfold forward_packet. cbn [rl_dm dm_handler dm_autofree dm_map]. destruct (dm_handler d); [|reflexivity]. cbn [negb]. destruct (dm_autofree d); [|reflexivity].
  change (pk_index (RP p)) with (pk_index p). rewrite rl_map_find. destruct (map_find _ _); reflexivity.
Qed.
Lemma rl_forward_all d l : forward_all (RD d) (map RP l) = (e <- forward_all d l;; Ok (map RE e)).
Proof.
  induction l as [|p t IH]; cbn [map forward_all]; [reflexivity|]. rewrite rl_forward. destruct (forward_packet d p) as [e| | |]; cbn [bind]; try reflexivity. rewrite IH.
  destruct (forward_all d t) as [e'| | |]; cbn [bind]; try reflexivity. now rewrite map_app.
Qed.
Lemma rl_concat {A B} (f : A -> B) ls : map f (List.concat ls) = List.concat (map (map f) ls).
Proof. induction ls as [|l t IH]; cbn [List.concat map]; [reflexivity|]. now rewrite map_app, IH. Qed.
Lemma rl_removelast l : removelast (map RP l) = map RP (removelast l).
Proof. induction l as [|a [|b t] IH]; [reflexivity..|]. cbn [map removelast] in *. now rewrite IH. Qed.
Lemma rl_only_last l : only_last (map RP l) = map RP (only_last l).
Proof. destruct l as [|a t]; [reflexivity|]. cbn [map only_last]. f_equal. revert a. induction t as [|b t IH]; intros a; [reflexivity|]. cbn [map last]. destruct t as [|c t]; [reflexivity|]. apply (IH a). Qed.
Lemma rl_complete o d : on_probe_complete (RO o) (RD d) = rl_res r (on_probe_complete o d).
Proof.
  unfold on_probe_complete. change (dm_completed (RD d)) with (dm_completed d). destruct (dm_completed d); [reflexivity|]. cbv zeta.
  change (dm_tracks (with_completed (RD d))) with (dm_tracks d). change (dm_tracks (with_completed d)) with (dm_tracks d). change (dm_packets (with_completed (RD d))) with (map (map RP) (dm_packets d)). change (dm_packets (with_completed d)) with (dm_packets d).
  rewrite rl_prepare.
  assert (H : forall t m, dm_handler (with_tracks (with_completed (RD d)) t m) = dm_handler d) by reflexivity. rewrite H. clear H. assert (H : forall t m, dm_handler (with_tracks (with_completed d) t m) = dm_handler d) by reflexivity. rewrite H. clear H.
  change (dm_handler (with_completed (RD d))) with (dm_handler d). change (dm_handler (with_completed d)) with (dm_handler d).
  assert (H : forall t m, dm_packets (with_tracks (with_completed (RD d)) t m) = map (map RP) (dm_packets d)) by reflexivity. rewrite H. clear H. assert (H : forall t m, dm_packets (with_tracks (with_completed d) t m) = dm_packets d) by reflexivity. rewrite H. clear H.
  set (ts := prepare_tracks o (dm_packets d) (dm_tracks d)). destruct (dm_handler d); cbn [negb]; [|destruct (dm_tracks d); reflexivity]. destruct (dm_tracks d) as [|s t]; [reflexivity|].
  set (d3 := with_packets (with_tracks (with_completed d) ts (dm_map d)) (map only_last (dm_packets d))).
  assert (R : map all_but_last (map (map RP) (dm_packets d)) = map (map RP) (map all_but_last (dm_packets d))) by (rewrite !map_map; apply map_ext; intros; apply rl_removelast).
  assert (L : map only_last (map (map RP) (dm_packets d)) = map (map RP) (map only_last (dm_packets d))) by (rewrite !map_map; apply map_ext; intros; apply rl_only_last).
  rewrite R, L, <- rl_concat, rl_sort. change (with_packets _ (map (map RP) (map only_last (dm_packets d)))) with (RD d3). rewrite rl_forward_all.
  change (with_packets _ (map only_last (dm_packets d))) with d3. destruct (forward_all d3 _) as [e| | |]; cbn [bind rl_res]; try reflexivity.
  rewrite map_app. cbn [map]. do 3 f_equal. rewrite map_map. apply map_ext. reflexivity.
Qed.

Definition rl_plan (pl : plan) : plan := match pl with Stay d => Stay (RD d) | Forward d q => Forward (RD d) (RP q) | Probe d => Probe (RD d) end.
Definition rl_front (fr : front) : front := match fr with Quiet d e => Quiet (RD d) (map RE e) | Packet d p => Packet (RD d) (RP p) | Complete d => Complete (RD d) end.
Definition lift {A B} (f : A -> B) (x : res A) : res B := match x with Ok a => Ok (f a) | Err => Err | Panic => Panic | NoFuel => NoFuel end.

Lemma zlen_map {A B} (f : A -> B) l : zlen (map f l) = zlen l.
Proof. unfold zlen. now rewrite map_length. Qed.
Lemma idx_map {A B} (f : A -> B) l i : idx (map f l) i = option_map f (idx l i).
Proof. unfold idx. destruct (i <? 0); [reflexivity|]. apply nth_error_map. Qed.
Lemma set_nth_map {A B} (f : A -> B) l : forall i x, set_nth i (f x) (map f l) = map f (set_nth i x l).
Proof. induction l as [|a t IH]; intros [|i] x; cbn [map set_nth]; try reflexivity. now rewrite IH. Qed.
Lemma upd_map {A B} (f : A -> B) l i x : upd (map f l) i (f x) = option_map (map f) (upd l i x).
Proof.
  unfold upd. rewrite ?zlen_map. destruct (_ && _); [|reflexivity]. cbn [option_map]. now rewrite set_nth_map.
Qed.
Lemma rl_total o l : total_ms (RO o) (map RP l) = total_ms o l.
Proof. unfold total_ms. generalize 0. induction l as [|p t IH]; intros a; cbn [map fold_left]; [reflexivity|]. apply IH. Qed.
Lemma rl_decide o d p : decide (RO o) (RD d) (RP p) = lift rl_plan (decide o d p).
Proof.
  unfold decide. cbn [rl_dm dm_packets dm_completed dm_probe]. rewrite zlen_map. change (pk_index (RP p)) with (pk_index p). cbv zeta.
  replace (if pk_index p <? zlen (dm_packets d) then map (map RP) (dm_packets d) else map (map RP) (dm_packets d) ++ [[]]) with (map (map RP) (if pk_index p <? zlen (dm_packets d) then dm_packets d else dm_packets d ++ [[]]))
    by (destruct (_ <? _); [reflexivity|now rewrite map_app]).
  set (base := if pk_index p <? zlen (dm_packets d) then dm_packets d else dm_packets d ++ [[]]). set (i := if pk_index p <? zlen (dm_packets d) then pk_index p else zlen (dm_packets d)). rewrite idx_map. destruct (idx base i) as [l|]; cbn [of_opt bind option_map lift]; [|reflexivity].
  change [RP p] with (map RP [p]). rewrite <- map_app, zlen_map. set (l1 := l ++ [p]). set (prev := zlen l1 - 2).
  destruct (prev <? 0). { rewrite upd_map. destruct (upd base i l1); reflexivity. }
  rewrite idx_map. destruct (idx l1 prev) as [q|]; cbn [of_opt bind option_map lift]; [|reflexivity].
  replace (set_duration (RP q) (i64 (pk_dts (RP p) - pk_dts (RP q)))) with (RP (set_duration q (i64 (pk_dts p - pk_dts q)))) by (unfold rl_packet, set_duration; cbn; do 2 f_equal; lia).
  rewrite upd_map. destruct (upd l1 prev _) as [l2|]; cbn [of_opt bind option_map lift]; [|reflexivity].
  destruct (dm_completed d).
  - rewrite firstn_map, skipn_map, <- map_app, upd_map. destruct (upd base i _); reflexivity.
  - rewrite upd_map. destruct (upd base i l2) as [ps|]; cbn [of_opt bind option_map]; [|reflexivity]. cbn [with_packets dm_probe]. rewrite firstn_map, rl_total. destruct (_ <=? _); reflexivity.
Qed.
Lemma rl_process o d p : process_buffered_packet (RO o) (RD d) (RP p) = rl_res r (process_buffered_packet o d p).
Proof.
  rewrite !process_eq, rl_decide. cbn [rl_dm dm_packets]. rewrite zlen_map. destruct (decide o d p) as [[d1|d1 q|d1]| | |]; cbn [lift rl_plan bind]; try reflexivity.
  - rewrite rl_forward. destruct (forward_packet d1 q); reflexivity.
  - rewrite rl_complete. destruct (on_probe_complete o d1) as [[d2 e]| | |]; reflexivity.
Qed.
Definition rl_made (x : demuxer * option stream) : demuxer * option stream := (RD (fst x), snd x).
Lemma rl_add_track d s buf : add_track (RD d) s (rl_buf r buf) = rl_made (add_track d s buf).
Proof. unfold add_track. cbn [rl_dm dm_completed]. destruct (dm_completed d) eqn:C; [reflexivity|]. unfold rl_made. cbn [fst snd]. unfold rl_dm at 1, with_tracks, rl_dm. cbn. rewrite rl_map_set, C. reflexivity. Qed.
Lemma rl_create_audio d buf id tb extra c : create_audio_track (RD d) (rl_buf r buf) id tb extra c = lift rl_made (create_audio_track d buf id tb extra c).
Proof.
  unfold create_audio_track. cbv zeta. change (dm_tracks (RD d)) with (dm_tracks d). destruct (_ && _).
  - destruct extra as [x|]; [|reflexivity]. destruct (parse_asc x); cbn [lift]; try reflexivity. now rewrite rl_add_track.
  - now rewrite rl_add_track.
Qed.
Lemma rl_create_video o d buf id tb extra : create_video_track (RO o) (RD d) (rl_buf r buf) id tb extra = lift rl_made (create_video_track o d buf id tb extra).
Proof.
  unfold create_video_track. change (dm_tracks (RD d)) with (dm_tracks d). change (dm_name (RD d)) with (dm_name d). change (or_grow (RO o)) with (or_grow o).
  destruct (generate_video_codec_data _ _ _ _); cbn [lift]; try reflexivity. now rewrite rl_add_track.
Qed.
Lemma rl_find_track o d buf : find_track (RO o) (RD d) (rl_buf r buf) = find_track o d buf.
Proof.
  unfold find_track. cbn [rl_dm dm_map dm_tracks rl_oracle or_pick].
  assert (E : filter (fun e => snd e =? rl_buf r buf) (map (fun e : Z * Z => (fst e, rl_buf r (snd e))) (dm_map d)) = map (fun e => (fst e, rl_buf r (snd e))) (filter (fun e => snd e =? buf) (dm_map d))).
  { induction (dm_map d) as [|[a b] t IH]; cbn [map filter fst snd]; [reflexivity|]. rewrite rl_inj. destruct (_ =? _); cbn [map fst snd]; now rewrite IH. }
  rewrite E, map_length, nth_error_map. destruct (nth_error _ _) as [[i b]|]; reflexivity.
Qed.
Lemma rl_discard_if b buf : discard_if b (rl_buf r buf) = map RE (discard_if b buf).
Proof. destruct b; reflexivity. Qed.
Lemma rl_op_front o d a : op_front (RO o) (RD d) (rl_op r a) = lift rl_front (op_front o d a).
Proof.
  destruct a; cbn [rl_op op_front step]; try reflexivity.
  - unfold on_new_audio_track. change (dm_tracks (RD d)) with (dm_tracks d). change (dm_name (RD d)) with (dm_name d). rewrite rl_create_audio, rl_discard_if.
    destruct (tm_find_type _ _); [destruct (_ =? _)%string|]; try reflexivity; destruct (create_audio_track _ _ _ _ _ _) as [[d1 t]| | |]; reflexivity.
  - unfold on_new_video_track. change (dm_tracks (RD d)) with (dm_tracks d). change (dm_name (RD d)) with (dm_name d). rewrite rl_create_video, rl_discard_if.
    destruct (tm_find_type _ _); [destruct (_ =? _)%string|]; try reflexivity; destruct (create_video_track _ _ _ _ _ _) as [[d1 t]| | |]; reflexivity.
  - unfold audio_front. rewrite rl_find_track. destruct (find_track o d buf) as [[s|]| | |]; cbn [bind lift]; try reflexivity. cbn [rl_dm dm_completed].
    destruct (dm_completed d); [reflexivity|]. destruct (extract_audio_extra_data id data) as [[[x y] c]| | |]; cbn [bind lift]; try reflexivity. change (dm_name (RD d)) with (dm_name d).
    destruct (get_timebase (dm_name d)); cbn [bind lift]; try reflexivity. change (mkDm (dm_tracks d) (dm_handler d) (dm_name d) (dm_ordered d) (dm_probe d) (dm_completed d) (map (map RP) (dm_packets d)) _ _ _) with (RD d).
    rewrite rl_create_audio. destruct (create_audio_track _ _ _ _ _ _) as [[d1 [s|]]| | |]; reflexivity.
  - unfold video_front. rewrite rl_find_track. destruct (find_track o d buf) as [[s|]| | |]; cbn [bind lift]; try reflexivity.
    + change (dm_pre (RD d)) with (option_map (rl_hook r) (dm_pre d)). change (dm_name (RD d)) with (dm_name d). cbn [lift rl_front]. do 2 f_equal.
      destruct (dm_pre d) as [f|]; cbn [option_map]; [|reflexivity]. unfold rl_hook. f_equal. f_equal. rewrite <- rl_back_packet. reflexivity.
    + change (dm_completed (RD d)) with (dm_completed d). change (dm_name (RD d)) with (dm_name d). change (dm_tracks (RD d)) with (dm_tracks d).
      destruct (_ && _); [|reflexivity]. match goal with |- bind (bind ?x _) _ = _ => destruct x as [ex| | |] end; cbn [bind lift]; try reflexivity.
      match goal with |- bind (bind ?x _) _ = _ => destruct x as [[ex1|]| | |] end; cbn [bind lift]; try reflexivity.
      destruct (get_timebase (dm_name d)); cbn [bind lift]; try reflexivity. rewrite rl_create_video. destruct (create_video_track _ _ _ _ _ _) as [[d1 [s|]]| | |]; cbn [bind lift rl_made fst snd]; try reflexivity.
      change (dm_pre (RD d1)) with (option_map (rl_hook r) (dm_pre d1)). change (dm_name (RD d1)) with (dm_name d1). cbn [lift rl_front]. do 2 f_equal.
      destruct (dm_pre d1) as [f|]; cbn [option_map]; [|reflexivity]. unfold rl_hook. f_equal. f_equal. rewrite <- rl_back_packet. reflexivity.
  - assert (N : need_more (RD d) = need_more d).
    { unfold need_more. change (dm_tracks (RD d)) with (dm_tracks d). induction (dm_tracks d) as [|s t IH]; cbn [existsb]; [reflexivity|]. rewrite IH. do 2 f_equal. cbn [rl_dm dm_packets]. rewrite idx_map. destruct (idx _ _); cbn [option_map]; [now rewrite zlen_map|reflexivity]. }
    rewrite N. destruct (need_more d); reflexivity.
  - unfold find_buffer_index. change (dm_ordered (RD d)) with (dm_ordered d). destruct (marker_index _ _ _); reflexivity.
Qed.
Lemma rl_step o d a : step (RO o) (RD d) (rl_op r a) = rl_res r (step o d a).
Proof.
  rewrite !step_eq, rl_op_front. destruct (op_front o d a) as [[d1 e|d1 p|d1]| | |]; cbn [lift rl_front bind]; try reflexivity; [apply rl_process|apply rl_complete].
Qed.
Lemma rl_run h : forall d, run (RD d) (map (rl_call r) h) = rl_res r (run d h).
Proof.
  induction h as [|[o a] t IH]; intros d; [reflexivity|]. cbn [map rl_call fst snd run]. rewrite rl_step. destruct (step o d a) as [[d1 e]| | |]; cbn [rl_res bind]; try reflexivity.
  rewrite IH. destruct (run d1 t) as [[d2 e']| | |]; cbn [rl_res bind]; try reflexivity. now rewrite map_app.
Qed.

(** The file handler looks neither at times nor at buffers. *)
Lemma rl_to_annexb s p : avcc_packet_to_annexb s (RP p) = lift (fun x => (RP (fst x), snd x)) (avcc_packet_to_annexb s p).
Proof.
  unfold avcc_packet_to_annexb. change (pk_media (RP p)) with (pk_media p). change (pk_type (RP p)) with (pk_type p). change (pk_key (RP p)) with (pk_key p). change (pk_annexb (RP p)) with (pk_annexb p).
  change (pk_data (RP p)) with (pk_data p). change (pk_codec (RP p)) with (pk_codec p). assert (Al : forall n, alloc (RP p) n = alloc p n) by reflexivity. rewrite !Al. clear Al.
  destruct (assert _) as [u| | |]; cbn [bind lift]; try reflexivity. destruct (_ || _).
  - destruct (pk_key p && _), (st_params s) as [c|], (pk_annexb p) as [b|] eqn:B; cbn [bind]; change (pk_annexb (RP p)) with (pk_annexb p); rewrite ?B; try reflexivity.
    cbv zeta. destruct (first_header (cd_annexb c)) as [h1| | |]; cbn [bind lift]; try reflexivity. destruct (first_header (pk_data p)) as [h2| | |]; cbn [bind lift]; try reflexivity.
    destruct (negb _); [|cbn [bind]; change (pk_annexb (RP p)) with (pk_annexb p); rewrite ?B; reflexivity]. destruct (copy_at _ _ _); cbn [of_opt bind lift]; reflexivity.
  - destruct (pk_annexb p); [reflexivity|]. cbv zeta. match goal with |- bind ?x _ = lift _ (bind ?y _) => change y with x; destruct x as [[bytes n]| | |] end; cbn [bind lift]; try reflexivity.
    destruct (of_opt (st_params s)) as [c| | |]; cbn [bind lift]; try reflexivity. destruct (of_opt (slice bytes _ _)) as [hd| | |]; cbn [bind lift]; try reflexivity. destruct (of_opt (slice _ _ _)) as [x| | |]; reflexivity.
Qed.
Lemma rl_on_packet h p : fh_on_packet h (RP p) = lift (fun x => (fst x, RP (snd x))) (fh_on_packet h p).
Proof.
  unfold fh_on_packet. change (pk_media (RP p)) with (pk_media p). change (pk_index (RP p)) with (pk_index p). change (pk_data (RP p)) with (pk_data p). destruct (media_string _) as [m| | |]; cbn [bind lift]; try reflexivity. destruct (_ =? _).
  - destruct (tm_get _ _) as [s| | |]; cbn [bind lift]; try reflexivity. rewrite rl_to_annexb. destruct (avcc_packet_to_annexb s p) as [[p1 data]| | |]; cbn [bind lift fst snd]; try reflexivity.
    change (pk_key (RP p1)) with (pk_key p1). change (pk_type (RP p1)) with (pk_type p1). change (pk_index (RP p1)) with (pk_index p1).
    match goal with |- bind ?x _ = lift _ (bind ?y _) => change y with x; destruct x as [h1| | |] end; cbn [bind lift]; try reflexivity. destruct (fh_write h1 _ _); reflexivity.
  - destruct (fh_write h _ _); reflexivity.
Qed.
Lemma rl_session path l : forall h, fh_session path h (map RE l) = fh_session path h l.
Proof.
  induction l as [|e t IH]; intros h; cbn [map fh_session]; [reflexivity|].
  assert (E : fh_event path h (RE e) = fh_event path h e) by (destruct e; cbn [rl_event fh_event]; try reflexivity; rewrite rl_on_packet; destruct (fh_on_packet h p) as [[h1 p1]| | |]; reflexivity).
  rewrite E. destruct (fh_event path h e); cbn [bind]; try reflexivity. apply IH.
Qed.
End relabel.

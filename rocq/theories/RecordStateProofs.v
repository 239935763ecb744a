(** * RecordStateProofs: Unmarshal into a used record. *)
From Verif Require Import Base BufioModel BytesSpec BytesProofs NaluModel NaluSpec NaluProofs SplitProofs AvccProofs RecordModel RecordSpec CursorProofs RecordProofs HevcRecordProofs HevcListsSpec
  RecordStateModel RecordStateSpec.

Lemma keep_unit {S B} (s : S) (k : bytes_buffer -> list Z -> S * res B) out rest : small out rest -> bytes_ok rest ->
  keep s (try_ (rd_uint 2 (mkw out rest))) (fun '(r1, length) => keep s (try_ (rd_bytes r1 length)) (fun '(r2, bytes) => k r2 bytes)) =
  match rest with
  | a :: b :: t => let size := Z.to_nat (256 * a + b) in
    if (length t <? size)%nat then (s, Err) else k (mkw (out ++ [a; b] ++ firstn size t) (skipn size t)) (firstn size t)
  | _ => (s, Err)
  end.
Proof.
  intros Sm Bo. destruct rest as [|a [|b t]]; [rewrite rd_uint_short by (auto; reflexivity || lia); reflexivity..|].
  apply Forall_cons_iff in Bo as [Ba Bo]. apply Forall_cons_iff in Bo as [Bb Bo]. unfold byte_ok in Ba, Bb.
  pose proof (rd_uint_app 2 out [a; b] t Sm ltac:(lia) eq_refl) as E. cbn [app] in E. rewrite E. clear E. unfold try_ at 1. cbn [fst snd keep]. change (be_value [a; b]) with ((0 * 256 + a) * 256 + b).
  replace ((0 * 256 + a) * 256 + b) with (256 * a + b) by lia. set (n := 256 * a + b) in *. cbv zeta. apply (small_app out [a; b] t) in Sm.
  destruct (Nat.ltb_spec (length t) (Z.to_nat n)) as [L|L].
  - rewrite rd_bytes_short; [reflexivity|exact Sm|unfold zlen; lia].
  - rewrite <- (firstn_skipn (Z.to_nat n) t) in Sm |- * at 1. replace n with (zlen (firstn (Z.to_nat n) t)) at 3 by (unfold zlen; rewrite firstn_length; lia).
    rewrite rd_bytes_app by exact Sm. unfold try_. cbn [fst snd keep]. now rewrite <- app_assoc.
Qed.

Lemma read_sets_st_spec : forall n out rest acc, small out rest -> bytes_ok rest ->
  let '(l, r) := take_units n rest in
  exists out', read_sets_st n (mkw out rest) acc = (acc ++ with4s l, match r with Some t => Ok (mkw out' t) | None => Err end) /\
    forall t, r = Some t -> small out' t /\ bytes_ok t.
Proof.
  induction n as [|n IH]; intros out rest acc Sm Bo; cbn [take_units read_sets_st].
  - exists out. cbn [with4s map]. rewrite app_nil_r. split; [reflexivity|]. now intros t [= <-].
  - rewrite (keep_unit acc (fun r2 bytes => keep acc (with_start_code bytes) (fun s => read_sets_st n r2 (acc ++ [s]))) out rest Sm Bo).
    destruct rest as [|a [|b t]]; [exists out; cbn [with4s map]; rewrite app_nil_r; split; [reflexivity|discriminate]..|]. cbv zeta.
    set (m := Z.to_nat (256 * a + b)). destruct (length t <? m)%nat eqn:L; [exists out; cbn [with4s map]; rewrite app_nil_r; split; [reflexivity|discriminate]|].
    rewrite with_start_code_ok. cbn [keep].
    assert (Sm' : small (out ++ [a; b] ++ firstn m t) (skipn m t)).
    { apply small_app. rewrite <- app_assoc, firstn_skipn. exact Sm. }
    assert (Bo' : bytes_ok (skipn m t)).
    { apply Forall_cons_iff in Bo as [_ Bo]. apply Forall_cons_iff in Bo as [_ Bo]. rewrite <- (firstn_skipn m t) in Bo. now apply bytes_ok_app in Bo. }
    specialize (IH (out ++ [a; b] ++ firstn m t) (skipn m t) (acc ++ [sc true ++ firstn m t]) Sm' Bo'). destruct (take_units n (skipn m t)) as [l r].
    destruct IH as (out' & E & H). exists out'. split; [|exact H]. rewrite E. cbn [with4s map]. now rewrite <- app_assoc.
Qed.

(** What is left in an H.264 record. *)
Definition avc_after (a : avc_record) (data : list Z) : avc_record * res unit :=
  if (length data <? 5)%nat then (a, Err)
  else
    let '(sps, pps, whole) := avc_parts (skipn 5 data) in
    if whole : bool then (avc_record_of a (firstn 5 data) sps pps, Ok tt)
    else (with_lists a (ar_sps a ++ with4s sps) (ar_pps a ++ with4s pps), Err).

Lemma with_lists_same a : with_lists a (ar_sps a) (ar_pps a) = a.
Proof. now destruct a. Qed.

Lemma avc_state_spec a data : bytes_ok data -> zlen data < 2 ^ 63 -> avc_unmarshal_st a data = avc_after a data.
Proof.
  intros Bo Lt. assert (Sm : small [] data) by (now apply small_nil). unfold avc_unmarshal_st, avc_after. rewrite bb_new_mkw.
  destruct (Nat.ltb_spec (length data) 5) as [L|L]; [rewrite seek_short by (auto; unfold zlen; lia); reflexivity|].
  destruct data as [|d0 [|d1 [|d2 [|d3 [|d4 body]]]]]; cbn [length] in L; try lia. clear L.
  change (d0 :: d1 :: d2 :: d3 :: d4 :: body) with ([d0; d1; d2; d3; d4] ++ body) in Sm, Bo |- * at 1. rewrite seek_ok by auto. cbn [keep]. apply small_app in Sm. apply bytes_ok_app in Bo as [_ Bo].
  cbn [app] in Sm |- *. change (skipn 5 (d0 :: d1 :: d2 :: d3 :: d4 :: body)) with body. change (firstn 5 (d0 :: d1 :: d2 :: d3 :: d4 :: body)) with [d0; d1; d2; d3; d4].
  destruct body as [|c t]; cbn [avc_parts].
  { rewrite rd_u8_nil by auto. cbn. now rewrite !app_nil_r, with_lists_same. }
  rewrite rd_u8_ok by auto. cbn [keep]. rewrite land31'. pose proof (Z.mod_pos_bound c 32 ltac:(lia)) as Mb. apply Forall_cons_iff in Bo as [Bc Bo].
  destruct (Z.eqb_spec (c mod 32) 0) as [E0|N0]; [rewrite E0; cbn [with4s map]; now rewrite !app_nil_r, with_lists_same|]. replace (c mod 32 <? 1) with false by lia.
  apply (small_app [d0; d1; d2; d3; d4] [c]) in Sm. pose proof (read_sets_st_spec (Z.to_nat (c mod 32)) _ t (ar_sps a) Sm Bo) as R. destruct (take_units (Z.to_nat (c mod 32)) t) as [sps r].
  destruct R as (out1 & E1 & H1). cbn [app] in E1 |- *. rewrite E1. cbn [with_lists ar_sps ar_pps].
  destruct r as [[|p t']|]; cbn [keep].
  - destruct (H1 _ eq_refl) as [Sm1 _]. rewrite rd_u8_nil by auto. cbn [with4s map keep try_ fst snd]. now rewrite app_nil_r.
  - destruct (H1 _ eq_refl) as [Sm1 Bo1]. rewrite rd_u8_ok by auto. cbn [keep]. apply Forall_cons_iff in Bo1 as [Bp Bo1]. unfold byte_ok in Bp.
    destruct (Z.eqb_spec p 0) as [->|Np]; [cbn [with4s map]; now rewrite app_nil_r|]. replace (p <? 1) with false by lia.
    apply (small_app out1 [p]) in Sm1. pose proof (read_sets_st_spec (Z.to_nat p) _ t' (ar_pps a) Sm1 Bo1) as R. destruct (take_units (Z.to_nat p) t') as [pps r2].
    destruct R as (out2 & E2 & _). rewrite E2. cbn [with_lists ar_sps ar_pps]. destruct r2; cbn [keep]; [|reflexivity].
    destruct (idx_head5 d0 d1 d2 d3 d4 (c :: t)) as (-> & -> & -> & -> & ->). cbn [of_opt bind keep]. unfold avc_record_of. cbn [nth]. do 2 f_equal. change 3 with (Z.ones 2). now rewrite Z.land_ones by lia.
  - cbn [with4s map]. now rewrite app_nil_r.
Qed.

(** It is the same function as in RecordModel. *)
Definition done {A} (x : A * res unit) : res A := match snd x with Ok _ => Ok (fst x) | Err => Err | Panic => Panic | NoFuel => NoFuel end.
Lemma read_sets_same : forall n r acc, read_sets n r acc = match read_sets_st n r acc with (l, Ok r1) => Ok (r1, l) | (_, Err) => Err | (_, Panic) => Panic | (_, NoFuel) => NoFuel end.
Proof.
  induction n as [|n IH]; intros r acc; cbn [read_sets read_sets_st]; [reflexivity|]. destruct (try_ (rd_uint 2 r)) as [[r1 len]| | |]; cbn [bind keep]; [|reflexivity..].
  destruct (try_ (rd_bytes r1 len)) as [[r2 b]| | |]; cbn [bind keep]; [|reflexivity..]. destruct (with_start_code b); cbn [bind keep]; [apply IH|reflexivity..].
Qed.
Lemma avc_state_same a data : avc_unmarshal a data = done (avc_unmarshal_st a data).
Proof.
  unfold avc_unmarshal, avc_unmarshal_st. destruct (try_w (bb_seek (bb_new data) 5)) as [r0| | |]; cbn [bind keep]; [|reflexivity..].
  destruct (try_ (rd_u8 r0)) as [[r1 c]| | |]; cbn [bind keep]; [|reflexivity..]. destruct (_ <? 1); [reflexivity|]. rewrite read_sets_same.
  destruct (read_sets_st _ r1 _) as [sps e1]. destruct e1 as [r2| | |]; cbn [bind keep]; [|reflexivity..].
  destruct (try_ (rd_u8 r2)) as [[r3 p]| | |]; cbn [bind keep]; [|reflexivity..]. destruct (_ <? 1); [reflexivity|]. rewrite read_sets_same. cbn [with_lists ar_sps ar_pps].
  destruct (read_sets_st _ r3 _) as [pps e2]. destruct e2 as [r4| | |]; cbn [bind keep]; [|reflexivity..].
  destruct (idx data 0), (idx data 1), (idx data 2), (idx data 3), (idx data 4); reflexivity.
Qed.

(* ---------------------------------------------------------------------------------------- *)
(** ** H.265 *)
Definition add_units grow (u : list (Z * list Z)) (s : hevc_sets) : hevc_sets := fold_left (fun s x => hevc_add grow s (fst x) (sc true ++ snd x)) u s.
Lemma add_units_app grow u v s : add_units grow (u ++ v) s = add_units grow v (add_units grow u s).
Proof. apply fold_left_app. Qed.

Lemma hevc_nalus_st_spec grow t : forall n out rest s, small out rest -> bytes_ok rest ->
  let '(l, r) := take_units n rest in
  exists out', hevc_read_nalus_st grow n t (mkw out rest) s = (add_units grow (map (fun x => (t, x)) l) s, match r with Some t => Ok (mkw out' t) | None => Err end) /\
    forall t, r = Some t -> small out' t /\ bytes_ok t.
Proof.
  induction n as [|n IH]; intros out rest s Sm Bo; cbn [take_units hevc_read_nalus_st].
  - exists out. split; [reflexivity|]. now intros x [= <-].
  - rewrite (keep_unit s (fun r2 bytes => keep s (with_start_code bytes) (fun nalu => hevc_read_nalus_st grow n t r2 (hevc_add grow s t nalu))) out rest Sm Bo).
    destruct rest as [|a [|b w]]; [exists out; split; [reflexivity|discriminate]..|]. cbv zeta.
    set (m := Z.to_nat (256 * a + b)). destruct (length w <? m)%nat eqn:L; [exists out; split; [reflexivity|discriminate]|].
    rewrite with_start_code_ok. cbn [keep].
    assert (Sm' : small (out ++ [a; b] ++ firstn m w) (skipn m w)).
    { apply small_app. rewrite <- app_assoc, firstn_skipn. exact Sm. }
    assert (Bo' : bytes_ok (skipn m w)).
    { apply Forall_cons_iff in Bo as [_ Bo]. apply Forall_cons_iff in Bo as [_ Bo]. rewrite <- (firstn_skipn m w) in Bo. now apply bytes_ok_app in Bo. }
    specialize (IH (out ++ [a; b] ++ firstn m w) (skipn m w) (hevc_add grow s t (sc true ++ firstn m w)) Sm' Bo'). destruct (take_units n (skipn m w)) as [l r]. exact IH.
Qed.
Lemma hevc_arrays_st_spec grow : forall n out rest s, small out rest -> bytes_ok rest ->
  let '(u, r) := take_arrays n rest in
  exists out', hevc_read_arrays_st grow n (mkw out rest) s = (add_units grow u s, match r with Some t => Ok (mkw out' t) | None => Err end).
Proof.
  induction n as [|n IH]; intros out rest s Sm Bo; cbn [take_arrays hevc_read_arrays_st]; [now exists out|].
  destruct rest as [|b rest]; [exists out; rewrite rd_u8_nil by auto; reflexivity|]. rewrite rd_u8_ok by auto. cbn [keep]. apply (small_app out [b]) in Sm. apply Forall_cons_iff in Bo as [Bb Bo].
  destruct rest as [|c [|d t]]; [exists out; rewrite rd_uint_short by (auto; reflexivity || lia); reflexivity..|].
  pose proof (rd_uint_app 2 _ [c; d] t Sm ltac:(lia) eq_refl) as E. cbn [app] in E. rewrite E. clear E. unfold try_. cbn [fst snd keep]. change (be_value [c; d]) with ((0 * 256 + c) * 256 + d).
  replace ((0 * 256 + c) * 256 + d) with (256 * c + d) by lia. rewrite land63. apply (small_app _ [c; d]) in Sm. apply Forall_cons_iff in Bo as [_ Bo]. apply Forall_cons_iff in Bo as [_ Bo].
  pose proof (hevc_nalus_st_spec grow (b mod 64) (Z.to_nat (256 * c + d)) _ t s Sm Bo) as R. destruct (take_units (Z.to_nat (256 * c + d)) t) as [l r]. destruct R as (out1 & E & H). rewrite E.
  destruct r as [r1|]; cbn [keep]; [|now exists out]. destruct (H _ eq_refl) as [Sm1 Bo1]. specialize (IH out1 r1 (add_units grow (map (fun x => (b mod 64, x)) l) s) Sm1 Bo1).
  destruct (take_arrays n r1) as [u' r']. rewrite add_units_app. exact IH.
Qed.

(** What is left in an H.265 record. *)
Definition hevc_after grow (x : hevc_header * hevc_sets) (data : list Z) : (hevc_header * hevc_sets) * res unit :=
  if (length data <? 23)%nat then (x, Err)
  else
    let '(u, r) := take_arrays (Z.to_nat (nth 22 data 0)) (skipn 23 data) in
    let s := add_units grow u (snd x) in
    ((header_of (firstn 23 data), s),
     match r with Some _ => if (ns_len (hs_sps s) =? 0)%nat || (ns_len (hs_pps s) =? 0)%nat || (ns_len (hs_vps s) =? 0)%nat then Err else Ok tt | None => Err end).

Lemma hevc_state_spec grow x data : bytes_ok data -> zlen data < 2 ^ 63 -> hevc_unmarshal_st grow x data = hevc_after grow x data.
Proof.
  intros Bo Lt. assert (Sm : small [] data) by (now apply small_nil). unfold hevc_unmarshal_st, hevc_after. rewrite bb_new_mkw.
  destruct (Nat.ltb_spec (length data) 23) as [L|L]; [rewrite seek_short by (auto; unfold zlen; lia); reflexivity|].
  assert (Lh : zlen (firstn 23 data) = 23) by (unfold zlen; rewrite firstn_length; lia).
  rewrite <- (firstn_skipn 23 data) in Sm, Bo. rewrite <- (firstn_skipn 23 data) at 1. rewrite seek_ok by auto. cbn [keep]. apply small_app in Sm. apply bytes_ok_app in Bo as [Bh Bo].
  assert (Hh : hevc_read_header data = Ok (header_of (firstn 23 data))) by (rewrite <- (firstn_skipn 23 data) at 1; now apply hevc_read_header_ok).
  rewrite Hh. cbn [keep].
  assert (Ea : hh_arrays (header_of (firstn 23 data)) = nth 22 data 0).
  { apply idx22; auto. rewrite <- (firstn_skipn 23 data) at 2. rewrite app_nth1 by (rewrite firstn_length; lia). unfold idx. change (22 <? 0) with false. cbv iota. change (Z.to_nat 22) with 22%nat. apply nth_error_nth'. rewrite firstn_length. lia. }
  rewrite Ea. pose proof (hevc_arrays_st_spec grow (Z.to_nat (nth 22 data 0)) _ _ (snd x) Sm Bo) as R. destruct (take_arrays (Z.to_nat (nth 22 data 0)) (skipn 23 data)) as [u r].
  destruct R as (out' & E). cbn [app] in E |- *. rewrite E. destruct r; cbn [keep]; [|reflexivity]. repeat (destruct (_ =? _)%nat; cbn [orb]; [reflexivity|]). reflexivity.
Qed.

Lemma add_units_lists grow u : forall s, hs_wf s -> let s' := add_units grow u s in
  hs_wf s' /\ hs_V s' = hs_V s ++ with4s (typed 32 u) /\ hs_P s' = hs_P s ++ with4s (typed 34 u).
Proof.
  unfold add_units. induction u as [|[t n] u IH]; intros s W; cbn [fold_left fst snd].
  - cbn [typed filter map with4s]. rewrite !app_nil_r. auto.
  - destruct (hevc_add_spec grow s t (sc true ++ n) W) as (W' & EV & EP). destruct (IH _ W') as (W2 & EV2 & EP2). split; [exact W2|]. rewrite EV2, EP2, EV, EP.
    unfold typed. cbn [filter fst]. unfold only. destruct (t =? 32), (t =? 34); cbn [map snd with4s app]; rewrite <- ?app_assoc; auto.
Qed.
(** SPSList stays as it is, as a slice, unless there is an SPS. *)
Lemma add_units_sps grow u : forall s, let s' := add_units grow u s in ns_len (hs_sps s') = 0%nat <-> ns_len (hs_sps s) = 0%nat /\ typed 33 u = [].
Proof.
  unfold add_units. induction u as [|[t n] u IH]; intros s; cbn [fold_left fst snd]; [cbn; tauto|]. rewrite IH. unfold hevc_add, typed. change HevcNalVPS with 32. change HevcNalSPS with 33. change HevcNalPPS with 34.
  cbn [filter fst]. destruct (Z.eqb_spec t 32) as [->|]; [|destruct (Z.eqb_spec t 33) as [->|]; [|destruct (Z.eqb_spec t 34) as [->|]]].
  - change (32 =? 33) with false. destruct (ns_append _ _ _ _). cbn [hs_sps]. tauto.
  - destruct (ns_append grow (hs_heap s) (hs_pps s) (sc true ++ n)) as [h y] eqn:E. cbn [hs_sps map]. split; [intros [H _]|intros [_ H]; discriminate].
    unfold ns_append in E. destruct (ns_arr (hs_pps s)); [destruct (_ <? _)%nat|]; injection E as <- <-; discriminate H.
  - change (34 =? 33) with false. destruct (ns_append _ _ _ _). cbn [hs_sps]. tauto.
  - tauto.
Qed.

Lemma read_nalus_same grow t : forall n r s, hevc_read_nalus grow n t r s = match hevc_read_nalus_st grow n t r s with (x, Ok r1) => Ok (r1, x) | (_, Err) => Err | (_, Panic) => Panic | (_, NoFuel) => NoFuel end.
Proof.
  induction n as [|n IH]; intros r s; cbn [hevc_read_nalus hevc_read_nalus_st]; [reflexivity|]. destruct (try_ (rd_uint 2 r)) as [[r1 len]| | |]; cbn [bind keep]; [|reflexivity..].
  destruct (try_ (rd_bytes r1 len)) as [[r2 b]| | |]; cbn [bind keep]; [|reflexivity..]. destruct (with_start_code b); cbn [bind keep]; [apply IH|reflexivity..].
Qed.
Lemma read_arrays_same grow : forall n r s, hevc_read_arrays grow n r s = match hevc_read_arrays_st grow n r s with (x, Ok r1) => Ok (r1, x) | (_, Err) => Err | (_, Panic) => Panic | (_, NoFuel) => NoFuel end.
Proof.
  induction n as [|n IH]; intros r s; cbn [hevc_read_arrays hevc_read_arrays_st]; [reflexivity|]. destruct (try_ (rd_u8 r)) as [[r1 b]| | |]; cbn [bind keep]; [|reflexivity..].
  destruct (try_ (rd_uint 2 r1)) as [[r2 c]| | |]; cbn [bind keep]; [|reflexivity..]. rewrite read_nalus_same. destruct (hevc_read_nalus_st grow _ _ r2 s) as [s1 e]. destruct e; cbn [bind keep]; [apply IH|reflexivity..].
Qed.
Lemma hevc_state_same grow hd data : hevc_unmarshal grow data = done (hevc_unmarshal_st grow (hd, hevc_sets_zero) data).
Proof.
  unfold hevc_unmarshal, hevc_unmarshal_st. destruct (try_w (bb_seek (bb_new data) 23)) as [r0| | |]; cbn [bind keep]; [|reflexivity..].
  destruct (hevc_read_header data) as [h| | |]; cbn [bind keep]; [|reflexivity..]. rewrite read_arrays_same. cbn [snd]. destruct (hevc_read_arrays_st grow _ r0 hevc_sets_zero) as [s e].
  destruct e; cbn [bind keep]; [|reflexivity..]. repeat (destruct (_ =? _)%nat; [reflexivity|]). reflexivity.
Qed.

(** * HevcRecordProofs: the HEVC decoder configuration record. *)
From Verif Require Import Base BufioModel BytesSpec BytesProofs RingProofs NaluModel NaluSpec NaluProofs SplitProofs AvccProofs RecordModel RecordSpec CursorProofs RecordProofs.

(* ---------------------------------------------------------------------------------------- *)
(** ** append on slices of slices *)
Definition ns_wf (h : nheap) (s : nslice) : Prop :=
  match ns_arr s with None => ns_len s = 0%nat | Some a => (a < length h)%nat /\ (ns_len s <= length (nth a h []))%nat end.

(** [t] is not affected by an append to [s]: either another array, or a prefix of [s]. *)
Definition ns_sep (t s : nslice) : Prop := forall a, ns_arr t = Some a -> ns_arr s = Some a -> (ns_len t <= ns_len s)%nat.
Definition ns_disj (t s : nslice) : Prop := forall a, ns_arr t = Some a -> ns_arr s <> Some a.

Lemma nth_set_nth_same {A} n (v : A) l d : (n < length l)%nat -> nth n (set_nth n v l) d = v.
Proof. intros H. apply nth_error_nth. now apply set_nth_same. Qed.
Lemma nth_set_nth_other {A} n m (v : A) l d : n <> m -> nth m (set_nth n v l) d = nth m l d.
Proof.
  intros H. destruct (nth_error l m) as [x|] eqn:E.
  - rewrite (nth_error_nth l m d E). apply nth_error_nth. now rewrite set_nth_other.
  - rewrite (nth_overflow l) by (now apply nth_error_None). apply nth_overflow. rewrite set_nth_length. now apply nth_error_None.
Qed.
Lemma firstn_set_nth {A} n k (v : A) l : (n <= k)%nat -> firstn n (set_nth k v l) = firstn n l.
Proof. revert k l. induction n as [|n IH]; intros k l H; [reflexivity|]. destruct k as [|k]; [lia|]. destruct l as [|x l]; cbn [set_nth firstn]; [reflexivity|]. f_equal. apply IH. lia. Qed.
Lemma firstn_S_set {A} n (v : A) l : (n < length l)%nat -> firstn (S n) (set_nth n v l) = firstn n l ++ [v].
Proof. revert l. induction n as [|n IH]; intros l H; destruct l as [|x l]; cbn [length] in H; try lia; [reflexivity|]. cbn [set_nth]. rewrite !firstn_cons. rewrite IH by lia. reflexivity. Qed.

Lemma firstn_S_app {A} (l : list A) x r : firstn (S (length l)) (l ++ x :: r) = l ++ [x].
Proof. induction l as [|y l IH]; [reflexivity|]. cbn [length app]. rewrite firstn_cons. now rewrite IH. Qed.

Lemma ns_append_spec grow h s x h' s' : ns_wf h s -> ns_append grow h s x = (h', s') ->
  ns_wf h' s' /\ ns_read h' s' = ns_read h s ++ [x] /\ ns_len s' = S (ns_len s) /\
  (forall t, ns_wf h t -> ns_sep t s -> ns_wf h' t /\ ns_read h' t = ns_read h t /\ ns_sep t s') /\
  (forall t, ns_wf h t -> ns_disj t s -> ns_disj t s').
Proof.
  intros W E. unfold ns_append in E. unfold ns_wf in W. destruct (ns_arr s) as [a|] eqn:Ea.
  - destruct W as [La Ln]. destruct (Nat.ltb_spec (ns_len s) (length (nth a h []))) as [Lt|Ge]; injection E as <- <-.
    + unfold ns_wf, ns_read, ns_array at 1 2. cbn [ns_arr ns_len]. rewrite Ea. rewrite set_nth_length, !nth_set_nth_same, set_nth_length by lia.
      split; [lia|]. split; [now apply firstn_S_set|]. split; [reflexivity|]. split.
      * intros t Wt St. destruct (ns_arr t) as [b|] eqn:Eb; [|split; [exact Wt|split; [|intros c Hc; congruence]]; unfold ns_array; now rewrite Eb].
        destruct (Nat.eq_dec a b) as [<-|N].
        -- rewrite nth_set_nth_same, set_nth_length by lia. specialize (St a Eb Ea). split; [exact Wt|]. split.
           ++ unfold ns_array. rewrite Eb, nth_set_nth_same by lia. now apply firstn_set_nth.
           ++ intros c Hc1 Hc2. cbn [ns_len]. lia.
        -- rewrite nth_set_nth_other by auto. split; [exact Wt|]. split.
           ++ unfold ns_array. now rewrite Eb, nth_set_nth_other by auto.
           ++ intros c Hc1 Hc2. cbn [ns_arr] in Hc2. congruence.
      * intros t Wt D c Hc. cbn [ns_arr]. rewrite <- Ea. now apply D.
    + assert (Hh : forall t, ns_wf h t -> ns_wf (h ++ [ns_read h s ++ [x] ++ repeat [] (grow (S (ns_len s)))]) t /\ ns_read (h ++ [ns_read h s ++ [x] ++ repeat [] (grow (S (ns_len s)))]) t = ns_read h t /\ (forall n, ns_disj t {| ns_arr := Some (length h); ns_len := n |})).
      { intros t Wt. unfold ns_wf in *. unfold ns_read, ns_array, ns_disj. cbn [ns_arr]. destruct (ns_arr t) as [b|]; [|split; [exact Wt|split; [reflexivity|intros; discriminate]]].
        rewrite app_length, app_nth1 by lia. split; [lia|]. split; [reflexivity|]. intros n c Hc1 Hc2. injection Hc1 as <-. injection Hc2 as Hc. lia. }
      assert (Lrd : length (ns_read h s) = ns_len s) by (unfold ns_read, ns_array; rewrite Ea, firstn_length; lia).
      split; [|split; [|split; [reflexivity|split]]].
      * unfold ns_wf. cbn [ns_arr ns_len]. rewrite app_length, app_nth2, Nat.sub_diag by lia. cbn [nth length]. rewrite !app_length, Lrd. cbn [length]. lia.
      * set (rd := ns_read h s) in *. unfold ns_read, ns_array. cbn [ns_arr ns_len]. rewrite app_nth2, Nat.sub_diag by lia. cbn [nth app]. rewrite <- Lrd at 1. apply firstn_S_app.
      * intros t Wt St. destruct (Hh t Wt) as (W1 & R1 & D1). split; [exact W1|]. split; [exact R1|]. intros c Hc1 Hc2. now elim (D1 (S (ns_len s)) c Hc1).
      * intros t Wt _. apply Hh, Wt.
  - injection E as <- <-.
    assert (Hh : forall t, ns_wf h t -> ns_wf (h ++ [[x] ++ repeat [] (grow 1%nat)]) t /\ ns_read (h ++ [[x] ++ repeat [] (grow 1%nat)]) t = ns_read h t /\ (forall n, ns_disj t {| ns_arr := Some (length h); ns_len := n |})).
    { intros t Wt. unfold ns_wf in *. unfold ns_read, ns_array, ns_disj. cbn [ns_arr]. destruct (ns_arr t) as [b|]; [|split; [exact Wt|split; [reflexivity|intros; discriminate]]].
      rewrite app_length, app_nth1 by lia. split; [lia|]. split; [reflexivity|]. intros n c Hc1 Hc2. injection Hc1 as <-. injection Hc2 as Hc. lia. }
    split; [|split; [|split; [cbn [ns_len]; lia|split]]].
    + unfold ns_wf. cbn [ns_arr ns_len]. rewrite app_length, app_nth2, Nat.sub_diag by lia. cbn [nth length app]. lia.
    + unfold ns_read, ns_array. cbn [ns_arr ns_len]. rewrite Ea, W, app_nth2, Nat.sub_diag by lia. reflexivity.
    + intros t Wt St. destruct (Hh t Wt) as (W1 & R1 & D1). split; [exact W1|]. split; [exact R1|]. intros c Hc1 Hc2. now elim (D1 1%nat c Hc1).
    + intros t Wt _. apply Hh, Wt.
Qed.

(* ---------------------------------------------------------------------------------------- *)
(** ** The three lists *)
Definition hs_V (s : hevc_sets) := ns_read (hs_heap s) (hs_vps s).
Definition hs_S (s : hevc_sets) := ns_read (hs_heap s) (hs_sps s).
Definition hs_P (s : hevc_sets) := ns_read (hs_heap s) (hs_pps s).

Definition hs_wf (s : hevc_sets) : Prop :=
  ns_wf (hs_heap s) (hs_vps s) /\ ns_wf (hs_heap s) (hs_sps s) /\ ns_wf (hs_heap s) (hs_pps s) /\
  ns_disj (hs_vps s) (hs_sps s) /\ ns_disj (hs_vps s) (hs_pps s).

Lemma ns_disj_sym t s : ns_disj t s -> ns_disj s t.
Proof. intros D a H1 H2. exact (D a H2 H1). Qed.
Lemma ns_disj_sep t s : ns_disj t s -> ns_sep t s.
Proof. intros D a H1 H2. now elim (D a H1). Qed.

Definition only {A} (b : bool) (x : A) : list A := if b then [x] else [].

Lemma hevc_add_spec grow s t x : hs_wf s -> hs_wf (hevc_add grow s t x) /\
  hs_V (hevc_add grow s t x) = hs_V s ++ only (t =? 32) x /\ hs_P (hevc_add grow s t x) = hs_P s ++ only (t =? 34) x.
Proof.
  intros (WV & WS & WP & DS & DP). unfold hevc_add. change HevcNalVPS with 32. change HevcNalSPS with 33. change HevcNalPPS with 34.
  destruct (t =? 32) eqn:E32; [|destruct (t =? 33) eqn:E33; [|destruct (t =? 34) eqn:E34]].
  - replace (t =? 34) with false by lia. cbn [only]. rewrite app_nil_r. destruct (ns_append grow (hs_heap s) (hs_vps s) x) as [h' v'] eqn:Ea.
    destruct (ns_append_spec _ _ _ _ _ _ WV Ea) as (W' & R' & _ & K & D). unfold hs_wf, hs_V, hs_P. cbn [hs_heap hs_vps hs_sps hs_pps].
    destruct (K (hs_sps s) WS (ns_disj_sep _ _ (ns_disj_sym _ _ DS))) as (W1 & R1 & _). destruct (K (hs_pps s) WP (ns_disj_sep _ _ (ns_disj_sym _ _ DP))) as (W2 & R2 & _).
    repeat split; auto; apply ns_disj_sym, D; auto using ns_disj_sym.
  - replace (t =? 34) with false by lia. cbn [only]. rewrite !app_nil_r. destruct (ns_append grow (hs_heap s) (hs_pps s) x) as [h' p'] eqn:Ea.
    destruct (ns_append_spec _ _ _ _ _ _ WP Ea) as (W' & R' & _ & K & D). unfold hs_wf, hs_V, hs_P. cbn [hs_heap hs_vps hs_sps hs_pps].
    destruct (K (hs_vps s) WV (ns_disj_sep _ _ DP)) as (W1 & R1 & _). destruct (K (hs_pps s) WP) as (W2 & R2 & _); [intros a _ _; lia|].
    repeat split; auto.
  - cbn [only]. rewrite app_nil_r. destruct (ns_append grow (hs_heap s) (hs_pps s) x) as [h' p'] eqn:Ea.
    destruct (ns_append_spec _ _ _ _ _ _ WP Ea) as (W' & R' & _ & K & D). unfold hs_wf, hs_V, hs_P. cbn [hs_heap hs_vps hs_sps hs_pps].
    destruct (K (hs_vps s) WV (ns_disj_sep _ _ DP)) as (W1 & R1 & _).
    assert (W2 : ns_wf h' (hs_sps s)).
    { clear - Ea WS WP. unfold ns_append in Ea. unfold ns_wf in *. destruct (ns_arr (hs_sps s)) as [b|]; [|exact WS]. destruct (ns_arr (hs_pps s)) as [a|].
      - destruct (_ <? _)%nat; injection Ea as <- _; [|rewrite app_length, app_nth1 by lia; lia]. rewrite set_nth_length. destruct (Nat.eq_dec a b) as [<-|N].
        + rewrite nth_set_nth_same, set_nth_length by lia. exact WS.
        + rewrite nth_set_nth_other by auto. exact WS.
      - injection Ea as <- _. rewrite app_length, app_nth1 by lia. lia. }
    repeat split; auto.
  - replace (t =? 34) with false by lia. cbn [only]. rewrite !app_nil_r. repeat split; auto.
Qed.

(** The units of an array, appended one by one. *)
Definition add_array grow (s : hevc_sets) (a : Z * list (list Z)) : hevc_sets :=
  fold_left (fun s n => hevc_add grow s (fst a mod 64) (sc true ++ n)) (snd a) s.
Definition add_arrays grow (arrs : list (Z * list (list Z))) (s : hevc_sets) : hevc_sets := fold_left (add_array grow) arrs s.

(** All units of the arrays of one type. *)
Definition of_type (t : Z) (arrs : list (Z * list (list Z))) : list (list Z) :=
  concat (map (fun a => if fst a mod 64 =? t then snd a else []) arrs).

Lemma add_array_spec grow b l : forall s, hs_wf s -> let s' := add_array grow s (b, l) in
  hs_wf s' /\ hs_V s' = hs_V s ++ with4s (if b mod 64 =? 32 then l else []) /\ hs_P s' = hs_P s ++ with4s (if b mod 64 =? 34 then l else []).
Proof.
  unfold add_array. cbn [fst snd]. induction l as [|n l IH]; intros s W; cbn [fold_left].
  - repeat split; try apply W; destruct (_ =? _); cbn [with4s map]; now rewrite app_nil_r.
  - destruct (hevc_add_spec grow s (b mod 64) (sc true ++ n) W) as (W' & V' & P'). destruct (IH _ W') as (W2 & V2 & P2). cbv zeta.
    split; [exact W2|]. rewrite V2, P2, V', P', <- !app_assoc. split; f_equal.
    + now destruct (b mod 64 =? 32).
    + now destruct (b mod 64 =? 34).
Qed.

Lemma with4s_app a b : with4s (a ++ b) = with4s a ++ with4s b.
Proof. apply map_app. Qed.

Lemma add_arrays_spec grow arrs : forall s, hs_wf s -> let s' := add_arrays grow arrs s in
  hs_wf s' /\ hs_V s' = hs_V s ++ with4s (of_type 32 arrs) /\ hs_P s' = hs_P s ++ with4s (of_type 34 arrs).
Proof.
  unfold add_arrays, of_type. induction arrs as [|[b l] arrs IH]; intros s W; cbn [fold_left map concat fst snd].
  - cbn [with4s map]. rewrite !app_nil_r. auto.
  - destruct (add_array_spec grow b l s W) as (W' & V' & P'). destruct (IH _ W') as (W2 & V2 & P2). cbv zeta. split; [exact W2|]. rewrite V2, P2, V', P', !with4s_app, <- !app_assoc. auto.
Qed.

Lemma hs_wf_zero : hs_wf hevc_sets_zero.
Proof. repeat split; intros a H; discriminate H. Qed.

(** An SPS appended while PPSList is nil is alone in a fresh list. *)
Lemma add_sps_first grow s n : hs_wf s -> hs_pps s = ns_nil -> let s' := hevc_add grow s 33 n in
  hs_S s' = [n] /\ hs_pps s' = ns_nil.
Proof.
  intros W E. unfold hevc_add. change (33 =? HevcNalVPS) with false. change (33 =? HevcNalSPS) with true. cbv iota. rewrite E.
  destruct W as (_ & _ & WP & _). rewrite E in WP. destruct (ns_append grow (hs_heap s) ns_nil n) as [h' x] eqn:Ea. destruct (ns_append_spec _ _ _ _ _ _ WP Ea) as (_ & R & _).
  unfold hs_S. cbn [hs_heap hs_sps hs_pps]. rewrite R. auto.
Qed.

Lemma add_sps_list grow l : forall s, hs_wf s -> hs_pps s = ns_nil -> l <> [] -> let s' := add_array grow s (33, l) in
  hs_S s' = [sc true ++ last l []] /\ hs_pps s' = ns_nil.
Proof.
  unfold add_array. cbn [fst snd]. change (33 mod 64) with 33. induction l as [|n l IH]; intros s W E Hl; [congruence|]. cbn [fold_left].
  destruct (add_sps_first grow s (sc true ++ n) W E) as (S' & E'). destruct l as [|m l]; [cbn [fold_left last]; auto|].
  apply (IH (hevc_add grow s 33 (sc true ++ n))); [apply hevc_add_spec, W|exact E'|congruence].
Qed.

(** VPS and PPS arrays leave SPSList alone when it does not share its array with PPSList. *)
Lemma add_vps_keep grow l : forall s, hs_wf s -> hs_pps s = ns_nil -> let s' := add_array grow s (32, l) in hs_S s' = hs_S s /\ hs_pps s' = ns_nil.
Proof.
  unfold add_array. cbn [fst snd]. change (32 mod 64) with 32. induction l as [|n l IH]; intros s W E; cbn [fold_left]; [auto|].
  destruct (IH (hevc_add grow s 32 (sc true ++ n)) (proj1 (hevc_add_spec grow s 32 (sc true ++ n) W))) as (S' & E').
  - unfold hevc_add. change (32 =? HevcNalVPS) with true. cbv iota. now destruct (ns_append _ _ _ _).
  - cbv zeta. split; [|exact E']. rewrite S'. unfold hevc_add. change (32 =? HevcNalVPS) with true. cbv iota.
    destruct W as (WV & WS & WP & DS & DP). destruct (ns_append grow (hs_heap s) (hs_vps s) (sc true ++ n)) as [h' x] eqn:Ea.
    destruct (ns_append_spec _ _ _ _ _ _ WV Ea) as (_ & _ & _ & K & _). apply (K (hs_sps s) WS (ns_disj_sep _ _ (ns_disj_sym _ _ DS))).
Qed.

Lemma add_pps_keep grow l : forall s, hs_wf s -> ns_disj (hs_sps s) (hs_pps s) -> let s' := add_array grow s (34, l) in hs_S s' = hs_S s /\ ns_disj (hs_sps s') (hs_pps s').
Proof.
  unfold add_array. cbn [fst snd]. change (34 mod 64) with 34. induction l as [|n l IH]; intros s W D; cbn [fold_left]; [auto|].
  assert (D' : hs_S (hevc_add grow s 34 (sc true ++ n)) = hs_S s /\ ns_disj (hs_sps (hevc_add grow s 34 (sc true ++ n))) (hs_pps (hevc_add grow s 34 (sc true ++ n)))).
  { unfold hevc_add. change (34 =? HevcNalVPS) with false. change (34 =? HevcNalSPS) with false. change (34 =? HevcNalPPS) with true. cbv iota.
    destruct W as (WV & WS & WP & DS & DP). destruct (ns_append grow (hs_heap s) (hs_pps s) (sc true ++ n)) as [h' x] eqn:Ea.
    destruct (ns_append_spec _ _ _ _ _ _ WP Ea) as (_ & _ & _ & K & KD). split; [apply (K (hs_sps s) WS (ns_disj_sep _ _ D))|apply KD; auto]. }
  destruct D' as [S' D']. destruct (IH _ (proj1 (hevc_add_spec grow s 34 (sc true ++ n) W)) D') as (S2 & D2). cbv zeta. now rewrite S2, S'.
Qed.

(* ---------------------------------------------------------------------------------------- *)
(** ** Parsing *)
Lemma hevc_read_nalus_app grow t S : forall out r s, small out (lp 2 S ++ r) -> Forall set_ok S ->
  hevc_read_nalus grow (length S) t (mkw out (lp 2 S ++ r)) s = Ok (mkw (out ++ lp 2 S) r, fold_left (fun s n => hevc_add grow s t (sc true ++ n)) S s).
Proof.
  induction S as [|n S IH]; intros out r s B F; cbn [lp length hevc_read_nalus fold_left]; [now rewrite app_nil_r|].
  apply Forall_cons_iff in F as [[Bn Ln] F]. cbn [lp] in B. rewrite <- !app_assoc in B |- *.
  destruct (rd_set out n (lp 2 S ++ r) B Ln) as [E1 E2]. rewrite E1. cbn [bind]. rewrite E2. cbn [bind]. rewrite with_start_code_ok. cbn [bind].
  rewrite IH; [now rewrite <- !app_assoc|rewrite (app_assoc _ n) in B; now apply small_app in B|exact F].
Qed.

Lemma hevc_read_nalus_dec grow t : forall n out rest s, small out rest -> bytes_ok rest ->
  (exists S r, rest = lp 2 S ++ r /\ length S = n /\ Forall set_ok S) \/ hevc_read_nalus grow n t (mkw out rest) s = Err.
Proof.
  induction n as [|n IH]; intros out rest s B Ok; [left; exists [], rest; repeat split; constructor|].
  destruct (rd_set_dec out rest B Ok) as [(x & r & -> & Hx)|E].
  - destruct (IH (out ++ be_bytes 2 (zlen x) ++ x) r (hevc_add grow s t (sc true ++ x))) as [(S & u & -> & L & F)|E].
    + rewrite app_assoc in B. now apply small_app in B.
    + rewrite app_assoc in Ok. now apply bytes_ok_app in Ok.
    + left. exists (x :: S), u. cbn [lp length]. rewrite <- !app_assoc. split; [reflexivity|]. split; [now rewrite L|]. now constructor.
    + right. cbn [hevc_read_nalus]. destruct Hx as [Bx Lx]. destruct (rd_set out x r B Lx) as [E1 E2]. rewrite E1. cbn [bind]. rewrite E2. cbn [bind].
      rewrite with_start_code_ok. cbn [bind]. exact E.
  - right. cbn [hevc_read_nalus]. exact (E _ (fun p => let '(r2, bytes) := p in nalu <- with_start_code bytes;; hevc_read_nalus grow n t r2 (hevc_add grow s t nalu))).
Qed.

Lemma land63 b : Z.land b 63 = b mod 64.
Proof. change 63 with (Z.ones 6). now rewrite Z.land_ones by lia. Qed.

Lemma be2_count {A} (l : list A) : zlen l < 2 ^ 16 -> be_value (be_bytes 2 (zlen l)) = zlen l.
Proof. intros H. pose proof (zlen_nonneg l). rewrite be_bytes_value. apply Z.mod_small. change (256 ^ Z.of_nat 2) with (2 ^ 16). lia. Qed.

Lemma hevc_read_arrays_app grow arrs : forall out r s, small out (concat (map harray arrs) ++ r) -> Forall harray_ok arrs ->
  hevc_read_arrays grow (length arrs) (mkw out (concat (map harray arrs) ++ r)) s = Ok (mkw (out ++ concat (map harray arrs)) r, add_arrays grow arrs s).
Proof.
  induction arrs as [|[b l] arrs IH]; intros out r s B F; cbn [map concat length hevc_read_arrays]; [now rewrite app_nil_r|].
  apply Forall_cons_iff in F as [(Bb & Ll & Fl) F]. cbn [fst snd] in *. cbn [map concat] in B. change (harray (b, l)) with ([b] ++ be_bytes 2 (zlen l) ++ lp 2 l) in *. rewrite <- !app_assoc in B |- *. cbn [app] in B |- *. rewrite rd_u8_ok by exact B. cbn [bind]. apply (small_app out [b]) in B.
  rewrite rd_uint_app; [|exact B|lia|apply be_bytes_length]. unfold try_ at 1. cbn [fst snd bind]. rewrite be2_count by auto. apply small_app in B.
  replace (Z.to_nat (zlen l)) with (length l) by (unfold zlen; lia). rewrite hevc_read_nalus_app by auto. cbn [bind]. apply small_app in B.
  rewrite IH by auto. rewrite land63. unfold add_arrays. cbn [fold_left]. rewrite <- !app_assoc. reflexivity.
Qed.

Lemma hevc_read_arrays_dec grow : forall n out rest s, small out rest -> bytes_ok rest ->
  (exists arrs r, rest = concat (map harray arrs) ++ r /\ length arrs = n /\ Forall harray_ok arrs) \/ hevc_read_arrays grow n (mkw out rest) s = Err.
Proof.
  induction n as [|n IH]; intros out rest s B Ok; [left; exists [], rest; repeat split; constructor|]. cbn [hevc_read_arrays].
  destruct rest as [|b d]; [right; rewrite rd_u8_nil by auto; reflexivity|]. inversion Ok as [|? ? Bb Bd]; subst. rewrite rd_u8_ok by auto. cbn [bind]. apply (small_app out [b]) in B.
  destruct (Z_lt_dec (zlen d) 2) as [Sh|L2]; [right; rewrite rd_uint_short by (auto; lia); reflexivity|].
  destruct (app_split d 2) as (h & t & -> & Lh); [lia|]. apply bytes_ok_app in Bd as [Bh Bt]. assert (Lh' : length h = 2%nat) by (unfold zlen in Lh; lia).
  rewrite rd_uint_app by (auto; lia). unfold try_ at 1. cbn [fst snd bind]. apply small_app in B. pose proof (be_value_bound h Bh) as V. rewrite Lh in V. change (256 ^ 2) with (2 ^ 16) in V.
  destruct (hevc_read_nalus_dec grow (Z.land b 63) (Z.to_nat (be_value h)) _ t s B Bt) as [(S & r & -> & LS & FS)|E]; [|right; rewrite E; reflexivity].
  rewrite <- LS, hevc_read_nalus_app by auto. cbn [bind]. apply small_app in B. apply bytes_ok_app in Bt as [_ Bt].
  destruct (IH _ r (fold_left (fun s n => hevc_add grow s (Z.land b 63) (sc true ++ n)) S s) B Bt) as [(arrs & u & -> & La & Fa)|E]; [|right; exact E].
  left. exists ((b, S) :: arrs), u. cbn [map concat length]. change (harray (b, S)) with ([b] ++ be_bytes 2 (zlen S) ++ lp 2 S).
  assert (zlen S = be_value h) as Zl by (unfold zlen; rewrite LS; lia). 
  assert (Eh : be_bytes 2 (zlen S) = h) by (rewrite Zl, <- Lh'; now apply be_value_bytes). split.
  - rewrite Eh. cbn [app]. now rewrite <- !app_assoc.
  - split; [now rewrite La|]. constructor; [|exact Fa]. split; [exact Bb|]. cbn [snd]. split; [lia|exact FS].
Qed.

(* ---------------------------------------------------------------------------------------- *)
(** ** Header fields *)
Lemma field_split a b c o w k : bytes_ok a -> bytes_ok b -> bytes_ok c -> 0 <= k -> 0 <= w -> k + w <= 8 * zlen b -> o = 8 * zlen a + 8 * zlen b - k - w ->
  field (a ++ b ++ c) o w = (be_value b / 2 ^ k) mod 2 ^ w.
Proof.
  intros Ba Bb Bc Hk Hw Hb ->. unfold field. rewrite !zlen_app. pose proof (zlen_nonneg c) as Nc. pose proof (zlen_nonneg b) as Nb.
  replace (8 * (zlen a + (zlen b + zlen c)) - (8 * zlen a + 8 * zlen b - k - w) - w) with (8 * zlen c + k) by lia.
  rewrite !be_value_app, zlen_app. pose proof (be_value_bound c Bc) as Vc.
  assert (P : forall n, 0 <= n -> 256 ^ n = 2 ^ (8 * n)) by (intros n Hn; rewrite Z.pow_mul_r by lia; reflexivity).
  rewrite !P in * by lia. rewrite Z.pow_add_r by lia. rewrite <- Z.div_div by (try apply Z.pow_nonzero; try apply Z.pow_pos_nonneg; lia).
  set (M := 2 ^ (8 * zlen c)) in *. assert (0 < M) by (apply Z.pow_pos_nonneg; lia).
  replace (8 * (zlen b + zlen c)) with (8 * zlen b + 8 * zlen c) by lia. rewrite Z.pow_add_r by lia. fold M.
  replace (be_value a * (2 ^ (8 * zlen b) * M) + (be_value b * M + be_value c)) with ((be_value a * 2 ^ (8 * zlen b) + be_value b) * M + be_value c) by ring.
  rewrite Z.div_add_l, (Z.div_small (be_value c)), Z.add_0_r by lia.
  replace (8 * zlen b) with ((8 * zlen b - k - w) + w + k) by lia. rewrite !Z.pow_add_r by lia.
  replace (be_value a * (2 ^ (8 * zlen b - k - w) * 2 ^ w * 2 ^ k) + be_value b) with (be_value a * 2 ^ (8 * zlen b - k - w) * 2 ^ w * 2 ^ k + be_value b) by ring.
  rewrite Z.div_add_l by (apply Z.pow_nonzero; lia). rewrite Z.add_comm, Z.mod_add by (apply Z.pow_nonzero; lia). reflexivity.
Qed.

Definition header_of (hdr : list Z) : hevc_header :=
  {| hh_version := field hdr 0 8; hh_space := field hdr 8 2; hh_tier := field hdr 10 1; hh_profile := field hdr 11 5;
     hh_compat := field hdr 16 32; hh_constraint := field hdr 48 48; hh_level := field hdr 96 8;
     hh_min_spatial := field hdr 108 12; hh_parallelism := field hdr 126 2; hh_chroma := field hdr 134 2;
     hh_luma := field hdr 141 3; hh_chroma_depth := field hdr 149 3; hh_avg_rate := field hdr 152 16;
     hh_const_rate := field hdr 168 2; hh_layers := field hdr 170 3; hh_nested := field hdr 173 1;
     hh_length_size := field hdr 174 2 + 1; hh_arrays := field hdr 176 8 |}.

Lemma land_mod b n w : n = Z.ones w -> 0 <= w -> Z.land b n = b mod 2 ^ w.
Proof. intros -> H. now rewrite Z.land_ones. Qed.

Lemma get_be_app n a b c : zlen a = n -> get_be (length b) (a ++ b ++ c) n = Ok (be_value b).
Proof. intros <-. unfold get_be. rewrite slice_from_app. cbn [of_opt bind]. now apply be_get_app. Qed.

(** The [n] bytes at [i] of the header, seen by the code and by [field]. *)
Lemma word_at hdr i n : bytes_ok hdr -> 0 <= i -> i + Z.of_nat n <= zlen hdr ->
  exists s, length s = n /\ bytes_ok s /\ (forall t, get_be n (hdr ++ t) i = Ok (be_value s)) /\
    (n = 1%nat -> forall t, idx (hdr ++ t) i = Some (be_value s)) /\
    (forall o w k, 0 <= k -> 0 <= w -> k + w <= 8 * Z.of_nat n -> o = 8 * i + 8 * Z.of_nat n - k - w -> field hdr o w = (be_value s / 2 ^ k) mod 2 ^ w).
Proof.
  intros B Hi Hn. destruct (app_split hdr i) as (a & r & -> & La); [lia|]. rewrite zlen_app in Hn. destruct (app_split r (Z.of_nat n)) as (s & c & -> & Ls); [lia|].
  apply bytes_ok_app in B as [Ba B]. apply bytes_ok_app in B as [Bs Bc]. assert (Ln : length s = n) by (unfold zlen in Ls; lia).
  exists s. split; [exact Ln|]. split; [exact Bs|]. split; [|split].
  - intros t. rewrite <- !app_assoc, <- Ln. now apply get_be_app.
  - intros -> t. destruct s as [|x [|y s]]; try discriminate Ln. rewrite <- !app_assoc, <- La. cbn [app]. rewrite idx_app_mid. unfold be_value. cbn [fold_left]. f_equal; try lia.
  - intros o w k H1 H2 H3 H4. apply field_split; auto; rewrite Ls; lia.
Qed.

Lemma byte_at hdr i : bytes_ok hdr -> 0 <= i < zlen hdr -> exists b, byte_ok b /\ (forall t, idx (hdr ++ t) i = Some b) /\
  (forall o w k, 0 <= k -> 0 <= w -> k + w <= 8 -> o = 8 * i + 8 - k - w -> field hdr o w = (b / 2 ^ k) mod 2 ^ w).
Proof.
  intros B H. destruct (word_at hdr i 1 B) as (s & L & Bs & _ & E & F); [lia|lia|]. exists (be_value s). split; [|split; [now apply E|intros; apply F; lia]].
  pose proof (be_value_bound s Bs) as V. unfold zlen in V. rewrite L in V. change (256 ^ Z.of_nat 1) with 256 in V. unfold byte_ok. lia.
Qed.

Lemma hevc_read_header_ok hdr t : bytes_ok hdr -> zlen hdr = 23 -> hevc_read_header (hdr ++ t) = Ok (header_of hdr).
Proof.
  intros B L.
  assert (LB : forall i, 0 <= i < 23 -> 0 <= i < zlen hdr) by (intros; lia). assert (LW : forall i n, i + Z.of_nat n <= 23 -> i + Z.of_nat n <= zlen hdr) by (intros; lia).
  destruct (byte_at hdr 0 B (LB 0 ltac:(easy))) as (b0 & B0 & I0 & F0). destruct (byte_at hdr 1 B (LB 1 ltac:(easy))) as (b1 & B1 & I1 & F1).
  destruct (word_at hdr 2 4 B ltac:(easy) (LW 2 4%nat ltac:(easy))) as (w2 & L2 & B2 & I2 & _ & F2).
  destruct (word_at hdr 6 4 B ltac:(easy) (LW 6 4%nat ltac:(easy))) as (w6 & L6 & B6 & I6 & _ & F6).
  destruct (word_at hdr 10 2 B ltac:(easy) (LW 10 2%nat ltac:(easy))) as (w10 & L10 & B10 & I10 & _ & F10).
  destruct (byte_at hdr 12 B (LB 12 ltac:(easy))) as (b12 & B12 & I12 & F12).
  destruct (word_at hdr 13 2 B ltac:(easy) (LW 13 2%nat ltac:(easy))) as (w13 & L13 & B13 & I13 & _ & F13).
  destruct (byte_at hdr 15 B (LB 15 ltac:(easy))) as (b15 & B15 & I15 & F15). destruct (byte_at hdr 16 B (LB 16 ltac:(easy))) as (b16 & B16 & I16 & F16).
  destruct (byte_at hdr 17 B (LB 17 ltac:(easy))) as (b17 & B17 & I17 & F17). destruct (byte_at hdr 18 B (LB 18 ltac:(easy))) as (b18 & B18 & I18 & F18).
  destruct (word_at hdr 19 2 B ltac:(easy) (LW 19 2%nat ltac:(easy))) as (w19 & L19 & B19 & I19 & _ & F19).
  destruct (byte_at hdr 21 B (LB 21 ltac:(easy))) as (b21 & B21 & I21 & F21). destruct (byte_at hdr 22 B (LB 22 ltac:(easy))) as (b22 & B22 & I22 & F22).
  unfold hevc_read_header, header_of. rewrite I0, I1. cbn [of_opt bind]. rewrite I2, I6, I10. cbn [bind]. rewrite I12. cbn [of_opt bind]. rewrite I13. cbn [bind]. rewrite I15, I16, I17, I18. cbn [of_opt bind]. rewrite I19. cbn [bind].
  rewrite I21, I22. cbn [of_opt bind].
  assert (Ec : field hdr 48 48 = be_value w6 * 2 ^ 16 + be_value w10).
  { clear - B L LW I6 I10 L6 L10. destruct (word_at hdr 6 6 B ltac:(easy) (LW 6 6%nat ltac:(easy))) as (s & Ls & Bs & Is & _ & Fs). rewrite (Fs 48 48 0) by lia. rewrite Z.div_1_r. pose proof (be_value_bound s Bs) as V. unfold zlen in V. rewrite Ls in V.
    rewrite Z.mod_small by exact V.
    destruct (app_split hdr 6) as (a & r & -> & La); [lia|]. rewrite zlen_app in L. destruct (app_split r 6) as (x & c & -> & Lx); [lia|]. destruct (app_split x 4) as (x1 & x2 & -> & Lx1); [lia|]. rewrite zlen_app in Lx.
    specialize (Is []). specialize (I6 []). specialize (I10 []). rewrite app_nil_r in Is, I6, I10.
    replace 6%nat with (length (x1 ++ x2)) in Is by (rewrite app_length; unfold zlen in *; lia). rewrite get_be_app in Is by auto.
    rewrite <- app_assoc in I6, I10. replace 4%nat with (length x1) in I6 by (unfold zlen in *; lia). rewrite get_be_app in I6 by auto. 
    rewrite (app_assoc a x1) in I10. replace 2%nat with (length x2) in I10 by (unfold zlen in *; lia). rewrite get_be_app in I10 by (rewrite zlen_app; lia).
    injection Is as <-. injection I6 as <-. injection I10 as <-. rewrite be_value_app. replace (zlen x2) with 2 by lia. reflexivity. }
  rewrite Ec. pose proof (be_value_bound w6 B6) as V6. unfold zlen in V6. rewrite L6 in V6. pose proof (be_value_bound w10 B10) as V10. unfold zlen in V10. rewrite L10 in V10.
  change (256 ^ Z.of_nat 4) with (2 ^ 32) in V6. change (256 ^ Z.of_nat 2) with (2 ^ 16) in V10.
  assert (W : forall s n, bytes_ok s -> length s = n -> be_value s mod 2 ^ (8 * Z.of_nat n) = be_value s).
  { clear. intros s n Bs Ls. apply Z.mod_small. pose proof (be_value_bound s Bs) as V. unfold zlen in V. rewrite Ls in V. rewrite Z.pow_mul_r by lia. exact V. }
  assert (Wb : forall b, byte_ok b -> b mod 2 ^ 8 = b) by (clear; intros b Hb; apply Z.mod_small; exact Hb).
  rewrite (F0 0 8 0), (F1 8 2 6), (F1 10 1 5), (F1 11 5 0), (F2 16 32 0), (F12 96 8 0), (F13 108 12 0), (F15 126 2 0), (F16 134 2 0), (F17 141 3 0), (F18 149 3 0), (F19 152 16 0),
    (F21 168 2 6), (F21 170 3 3), (F21 173 1 2), (F21 174 2 0), (F22 176 8 0) by (first [reflexivity | (vm_compute; congruence)]). clear F0 F1 F2 F6 F10 F12 F13 F15 F16 F17 F18 F19 F21 F22.
  rewrite !Z.pow_0_r, !Z.div_1_r. pose proof (W w2 4%nat B2 L2) as Q2. pose proof (W w19 2%nat B19 L19) as Q19. change (8 * Z.of_nat 4) with 32 in Q2. change (8 * Z.of_nat 2) with 16 in Q19. rewrite Q2, Q19, !Wb by auto. rewrite !Z.shiftr_div_pow2 by lia.
  rewrite !(fun b => land_mod b 3 2 eq_refl ltac:(easy)), !(fun b => land_mod b 1 1 eq_refl ltac:(easy)), !(fun b => land_mod b 31 5 eq_refl ltac:(easy)), !(fun b => land_mod b 4095 12 eq_refl ltac:(easy)), !(fun b => land_mod b 7 3 eq_refl ltac:(easy)).
  assert (Lor : Z.lor (u64 (Z.shiftl (be_value w6) 16)) (be_value w10) = be_value w6 * 2 ^ 16 + be_value w10).
  { rewrite Z.shiftl_mul_pow2 by lia. unfold u64. rewrite Z.mod_small by lia. rewrite <- Z.lxor_lor, Z.add_nocarry_lxor; [reflexivity| |].
    all: apply Z.bits_inj'; intros m Hm; rewrite Z.land_spec, Z.bits_0, Z.mul_pow2_bits by lia; destruct (Z_lt_dec m 16);
      [rewrite (Z.testbit_neg_r _ (m - 16)) by lia; reflexivity|].
    all: rewrite andb_comm; replace (Z.testbit (be_value w10) m) with false; [reflexivity|]; symmetry; destruct (Z.eq_dec (be_value w10) 0) as [->|N]; [apply Z.bits_0|];
      apply Z.bits_above_log2; [lia|]; assert (Z.log2 (be_value w10) < 16) by (apply Z.log2_lt_pow2; lia); lia. }
  rewrite Lor. assert (U : u8 (b21 mod 2 ^ 2 + 1) = b21 mod 2 ^ 2 + 1) by (unfold u8; pose proof (Z.mod_pos_bound b21 (2 ^ 2)); apply Z.mod_small; lia). rewrite U. reflexivity.
Qed.

(* ---------------------------------------------------------------------------------------- *)
(** ** Unmarshal *)
Definition hevc_result (hdr : list Z) (s : hevc_sets) : res (hevc_header * hevc_sets) :=
  if (ns_len (hs_sps s) =? 0)%nat then Err else if (ns_len (hs_pps s) =? 0)%nat then Err else if (ns_len (hs_vps s) =? 0)%nat then Err else Ok (header_of hdr, s).

Lemma idx22 hdr b : bytes_ok hdr -> zlen hdr = 23 -> idx hdr 22 = Some b -> hh_arrays (header_of hdr) = b.
Proof.
  intros B L E. destruct (byte_at hdr 22 B) as (b' & Bb & I & F); [lia|]. specialize (I []). rewrite app_nil_r, E in I. injection I as <-. cbn [header_of hh_arrays]. rewrite (F 176 8 0) by lia.
  rewrite Z.pow_0_r, Z.div_1_r. now apply Z.mod_small.
Qed.

Lemma hevc_unmarshal_layout grow data hdr arrs tail : bytes_ok data -> zlen data < 2 ^ 63 -> hevc_layout data hdr arrs tail ->
  hevc_unmarshal grow data = hevc_result hdr (add_arrays grow arrs hevc_sets_zero).
Proof.
  intros B L (Ed & Lh & Fa & E22). unfold hevc_unmarshal. rewrite bb_new_mkw. assert (Sm : small [] data) by (now apply small_nil).
  rewrite Ed in *. apply bytes_ok_app in B as [Bh B]. rewrite seek_ok by auto. cbn [bind]. rewrite hevc_read_header_ok by auto. cbn [bind]. rewrite (idx22 hdr _ Bh Lh E22). apply small_app in Sm.
  replace (Z.to_nat (zlen arrs)) with (length arrs) by (unfold zlen; lia). rewrite hevc_read_arrays_app by auto. reflexivity.
Qed.

Lemma hevc_unmarshal_dec grow data : bytes_ok data -> zlen data < 2 ^ 63 ->
  (exists hdr arrs tail, hevc_layout data hdr arrs tail) \/ hevc_unmarshal grow data = Err.
Proof.
  intros B L. unfold hevc_unmarshal. rewrite bb_new_mkw. assert (Sm : small [] data) by (now apply small_nil).
  destruct (Z_lt_dec (zlen data) 23) as [Sh|L23]; [right; rewrite seek_short by (auto; lia); reflexivity|]. destruct (app_split data 23) as (hdr & d & -> & Lh); [lia|].
  apply bytes_ok_app in B as [Bh B]. rewrite seek_ok by auto. cbn [bind]. rewrite hevc_read_header_ok by auto. cbn [bind]. apply small_app in Sm.
  destruct (hevc_read_arrays_dec grow (Z.to_nat (hh_arrays (header_of hdr))) _ d hevc_sets_zero Sm B) as [(arrs & r & -> & La & Fa)|E]; [|right; rewrite E; reflexivity].
  left. exists hdr, arrs, r. split; [reflexivity|]. split; [exact Lh|]. split; [exact Fa|].
  destruct (byte_at hdr 22 Bh) as (b & Bb & I & _); [lia|]. specialize (I []). rewrite app_nil_r in I. rewrite I. f_equal. rewrite (idx22 hdr b Bh Lh I) in La. unfold zlen, byte_ok in *. rewrite La. lia.
Qed.

(** *** ExtraDataToAnnexB *)
Definition ns_all (Q : list Z -> Prop) (h : nheap) : Prop := Forall (Forall Q) h.

Lemma Forall_set_nth {A} (Q : A -> Prop) n v l : Q v -> Forall Q l -> Forall Q (set_nth n v l).
Proof. intros Hv. revert n. induction l as [|x l IH]; intros n F; destruct n; cbn [set_nth]; auto; apply Forall_cons_iff in F as [Hx F]; constructor; auto. Qed.
Lemma Forall_nth_d {A} (Q : A -> Prop) l n d : Q d -> Forall Q l -> Q (nth n l d).
Proof. intros Hd F. destruct (nth_in_or_default n l d) as [H|H]; [eapply Forall_forall; eauto|now rewrite H]. Qed.
Lemma Forall_firstn' {A} (Q : A -> Prop) n l : Forall Q l -> Forall Q (firstn n l).
Proof. revert n. induction l as [|x l IH]; intros n F; destruct n; cbn [firstn]; auto. apply Forall_cons_iff in F as [Hx F]. constructor; auto. Qed.

Lemma ns_read_all (Q : list Z -> Prop) h s : ns_all Q h -> Forall Q (ns_read h s).
Proof. intros F. unfold ns_read, ns_array. apply Forall_firstn'. destruct (ns_arr s); [|constructor]. apply Forall_nth_d; [constructor|exact F]. Qed.

Lemma ns_append_all (Q : list Z -> Prop) grow h s x : Q [] -> Q x -> ns_all Q h -> ns_all Q (fst (ns_append grow h s x)).
Proof.
  intros Q0 Qx F. unfold ns_append. assert (R : forall n, Forall Q (repeat [] n)) by (intros n; apply Forall_forall; intros y Hy; apply repeat_spec in Hy; now subst).
  destruct (ns_arr s) as [a|]; [destruct (_ <? _)%nat|]; cbn [fst].
  - apply Forall_set_nth; [|exact F]. apply Forall_set_nth; [exact Qx|]. apply Forall_nth_d; [constructor|exact F].
  - apply Forall_app. split; [exact F|]. constructor; [|constructor]. apply Forall_app. split; [now apply ns_read_all|]. now constructor.
  - apply Forall_app. split; [exact F|]. constructor; [|constructor]. now constructor.
Qed.

Lemma add_arrays_all (Q : list Z -> Prop) grow : Q [] -> forall arrs s, Forall (fun a => Forall (fun n => Q (sc true ++ n)) (snd a)) arrs -> ns_all Q (hs_heap s) -> ns_all Q (hs_heap (add_arrays grow arrs s)).
Proof.
  intros Q0. unfold add_arrays. induction arrs as [|[b l] arrs IH]; intros s F A; cbn [fold_left]; [exact A|]. apply Forall_cons_iff in F as [Fl F]. apply IH; [exact F|]. cbn [snd] in Fl.
  unfold add_array. cbn [fst snd]. clear IH F. revert s A. induction l as [|n l IH]; intros s A; cbn [fold_left]; [exact A|]. apply Forall_cons_iff in Fl as [Hn Fl]. apply (IH Fl).
  unfold hevc_add. repeat (destruct (_ =? _); [match goal with |- context [ns_append grow ?h ?x ?y] => pose proof (ns_append_all Q grow h x y Q0 Hn A) as K; destruct (ns_append grow h x y); exact K end|]). exact A.
Qed.

Lemma hevc_extra_layout grow data hdr arrs tail : bytes_ok data -> zlen data < 2 ^ 63 -> hevc_layout data hdr arrs tail ->
  hevc_extra_to_annexb grow data =
  ('(_, s) <- hevc_result hdr (add_arrays grow arrs hevc_sets_zero);; or_err (zlen (concat (hs_V s ++ hs_S s ++ hs_P s)) <=? 1024) (concat (hs_V s ++ hs_S s ++ hs_P s))).
Proof.
  intros B L H. unfold hevc_extra_to_annexb. rewrite (hevc_unmarshal_layout _ _ _ _ _ B L H). destruct H as (_ & _ & Fa & _).
  set (s := add_arrays grow arrs hevc_sets_zero).
  assert (A : ns_all (fun x => zlen x < 2 ^ 63) (hs_heap s)).
  { apply add_arrays_all; [reflexivity| |constructor]. eapply Forall_impl; [|exact Fa]. intros a (_ & _ & F). eapply Forall_impl; [|exact F]. intros n [_ Ln]. rewrite zlen_app. change (zlen (sc true)) with 4. lia. }
  unfold hevc_result. destruct (_ =? _)%nat; [reflexivity|]. destruct (_ =? _)%nat; [reflexivity|]. destruct (_ =? _)%nat; [reflexivity|]. cbn [bind]. rewrite bb_new_mkw. fold (hs_V s). fold (hs_S s). fold (hs_P s).
  assert (FV : Forall (fun x => zlen x < 2 ^ 63) (hs_V s)) by (now apply ns_read_all). assert (FS : Forall (fun x => zlen x < 2 ^ 63) (hs_S s)) by (now apply ns_read_all). assert (FP : Forall (fun x => zlen x < 2 ^ 63) (hs_P s)) by (now apply ns_read_all).
  rewrite <- bind_assoc2, write_all2 by (auto using small_z1024). change 1024 with (zlen (zeros 1024)). 
  rewrite app_assoc. destruct (put_all_cases [] (zeros 1024) (hs_V s ++ hs_S s)) as [[w E]|E]; rewrite E; cbn [bind].
  - pose proof E as E'. apply put_all_ok in E' as [-> Lw]. rewrite write_all_spec; [|eapply small_shift; [|exact small_z1024]; now apply zlen_skip_fit|exact FP].
    rewrite <- (put_all_app _ _ _ _ _ E). apply put_all_slice.
  - apply (put_all_err _ _ _ (hs_P s)) in E. unfold put_all in E. unfold or_err. now destruct (_ <=? _).
Qed.

(* ---------------------------------------------------------------------------------------- *)
(** ** Marshal *)
Lemma zlen_lp2 ns : 2 * zlen ns <= zlen (lp 2 ns).
Proof. induction ns as [|n ns IH]; cbn [lp]; [vm_compute; congruence|]. rewrite !zlen_app, be2_len, zlen_cons. pose proof (zlen_nonneg n). lia. Qed.

Lemma hevc_type_byte b : Z.land (Z.shiftr b 1) 63 = (b / 2) mod 64.
Proof. rewrite land63, Z.shiftr_div_pow2 by lia. reflexivity. Qed.

Lemma Forall2_zlen {A B} (R : A -> B -> Prop) l m : Forall2 R l m -> zlen l = zlen m.
Proof. induction 1; [reflexivity|]. rewrite !zlen_cons. lia. Qed.

Lemma hevc_write_inv out rest data w' : small out rest -> zlen rest < 2 ^ 16 -> Forall go_bytes data -> hevc_write (mkw out rest) data = Ok w' ->
  exists ns, Forall2 strip data ns /\ Forall set_ok ns /\ ns <> [] /\ let a := harray (hevc_nal_type (hd [] ns), ns) in
    zlen a <= zlen rest /\ w' = mkw (out ++ a) (skipn (length a) rest).
Proof.
  intros B R F E. unfold hevc_write in E. destruct data as [|x data]; [discriminate E|]. rewrite idx_cons_0 in E. cbn [of_opt bind] in E.
  destruct (remove_start_code x) as [n| | |] eqn:En; try discriminate E. cbn [bind] in E. destruct n as [|b n]; [discriminate E|]. rewrite idx_cons_0 in E. cbn [of_opt bind] in E.
  rewrite hevc_type_byte in E. destruct rest as [|y rest]; [rewrite wr_u8_nil in E by auto; discriminate E|]. rewrite wr_u8_cons in E by auto. unfold try_w at 1 in E. cbn [fst snd bind] in E.
  set (t := (b / 2) mod 64) in *. rewrite zlen_cons in R. pose proof (zlen_nonneg rest) as Nr.
  assert (B1 : small (out ++ [t]) rest) by (eapply small_shift; [|exact B]; rewrite zlen_cons; change (zlen [t]) with 1; lia).
  destruct (Z_lt_dec (zlen rest) 2) as [Sh|L2]; [rewrite wr_uint_short in E by (auto; lia); discriminate E|]. rewrite wr_uint_fits in E by (auto; lia). unfold try_w at 1 in E. cbn [fst snd bind] in E.
  assert (Lr : zlen (skipn 2 rest) = zlen rest - 2) by (rewrite zlen_skipn_nat; unfold zlen in *; lia).
  assert (B2 : small ((out ++ [t]) ++ be_bytes 2 (u16 (zlen (x :: data)))) (skipn 2 rest)) by (eapply small_shift; [|exact B1]; rewrite be2_len; lia).
  destruct (write_sets _ (x :: data) None) as [[w3 l3]| | |] eqn:W; try discriminate E. cbn [bind] in E. injection E as <-.
  apply write_sets_inv in W as (ns & F2 & Fo & Ln & -> & _); [|exact B2|lia|exact F]. pose proof (zlen_lp2 ns) as Zl. pose proof (Forall2_zlen _ _ _ F2) as Zd.
  exists ns. split; [exact F2|]. split; [exact Fo|]. inversion F2 as [|? n0 ? ns0 Hs F2' E1 E2]. subst ns. split; [congruence|]. cbn [hd]. unfold strip in Hs. rewrite En in Hs. injection Hs as <-.
  change (hevc_nal_type (b :: n)) with t. cbv zeta. pose proof (zlen_nonneg ((b :: n) :: ns0)).
  assert (U : u16 (zlen (x :: data)) = zlen ((b :: n) :: ns0)) by (rewrite Zd; unfold u16; apply Z.mod_small; lia). rewrite U.
  set (ns := (b :: n) :: ns0) in *. unfold harray. cbn [fst snd]. rewrite !zlen_app, be2_len, (zlen_cons y rest). change (zlen [t]) with 1. split; [lia|].
  rewrite <- !app_assoc, !app_length, be_bytes_length. cbn [length]. rewrite skipn_skipn. f_equal.
Qed.

Definition hdr0 : list Z := 1 :: zeros 20 ++ [3; 3].

Lemma hevc_marshal_inv vpsList spsList ppsList d : Forall go_bytes vpsList -> Forall go_bytes spsList -> Forall go_bytes ppsList -> hevc_marshal vpsList spsList ppsList = Ok d ->
  exists V S P, Forall2 strip vpsList V /\ Forall2 strip spsList S /\ Forall2 strip ppsList P /\ Forall set_ok V /\ Forall set_ok S /\ Forall set_ok P /\ V <> [] /\ S <> [] /\ P <> [] /\
    d = hdr0 ++ harray (hevc_nal_type (hd [] V), V) ++ harray (hevc_nal_type (hd [] S), S) ++ harray (hevc_nal_type (hd [] P), P) /\ zlen d <= 1024.
Proof.
  intros FV FS FP E. unfold hevc_marshal in E. do 3 (destruct (_ =? 0); [discriminate E|]).
  assert (Ez : zeros 1024 = 0 :: zeros 20 ++ 0 :: 0 :: zeros 1001) by reflexivity. rewrite Ez in E.
  assert (U0 : upd (0 :: zeros 20 ++ 0 :: 0 :: zeros 1001) 0 1 = Some (1 :: zeros 20 ++ 0 :: 0 :: zeros 1001)) by (vm_compute; reflexivity). rewrite U0 in E. cbn [of_opt bind] in E.
  assert (U1 : upd (1 :: zeros 20 ++ 0 :: 0 :: zeros 1001) 21 3 = Some (1 :: zeros 20 ++ 3 :: 0 :: zeros 1001)) by (vm_compute; reflexivity). rewrite U1 in E. cbn [of_opt bind] in E.
  assert (U2 : upd (1 :: zeros 20 ++ 3 :: 0 :: zeros 1001) 22 3 = Some (hdr0 ++ zeros 1001)) by (vm_compute; reflexivity). rewrite U2 in E. cbn [of_opt bind] in E.
  assert (Sm : small [] (hdr0 ++ zeros 1001)) by (vm_compute; congruence).
  rewrite bb_new_mkw in E. rewrite (seek_ok [] hdr0 (zeros 1001) 23) in E by (auto; reflexivity). cbn [bind app] in E. apply small_app in Sm. cbn [app] in Sm.
  assert (Lz : zlen (zeros 1001) = 1001) by reflexivity. assert (Lh : zlen hdr0 = 23) by reflexivity. assert (Lh' : (length hdr0 = 23)%nat) by reflexivity. set (z := zeros 1001) in *. set (h := hdr0) in *. clearbody z h.
  destruct (hevc_write (mkw h z) vpsList) as [w1| | |] eqn:E1; try discriminate E. cbn [bind] in E.
  apply hevc_write_inv in E1 as (V & F1 & O1 & N1 & L1 & ->); [|exact Sm|lia|exact FV]. set (a1 := harray (hevc_nal_type (hd [] V), V)) in *. pose proof (zlen_skip_fit _ _ L1) as Z1. pose proof (zlen_nonneg a1).
  apply (small_shift _ a1 _ (skipn (length a1) z)) in Sm; [|lia]. set (z1 := skipn _ z) in *. clearbody z1.
  destruct (hevc_write _ spsList) as [w2| | |] eqn:E2; try discriminate E. cbn [bind] in E.
  apply hevc_write_inv in E2 as (S & F2 & O2 & N2 & L2 & ->); [|exact Sm|lia|exact FS]. set (a2 := harray (hevc_nal_type (hd [] S), S)) in *. pose proof (zlen_skip_fit _ _ L2) as Z2. pose proof (zlen_nonneg a2).
  apply (small_shift _ a2 _ (skipn (length a2) z1)) in Sm; [|lia]. set (z2 := skipn _ z1) in *. clearbody z2.
  destruct (hevc_write _ ppsList) as [w3| | |] eqn:E3; try discriminate E. cbn [bind] in E.
  apply hevc_write_inv in E3 as (P & F3 & O3 & N3 & L3 & ->); [|exact Sm|lia|exact FP]. set (a3 := harray (hevc_nal_type (hd [] P), P)) in *.
  cbn [mkw bb_data bb_offset] in E. pose proof (slice_app_mid [] (((h ++ a1) ++ a2) ++ a3) (skipn (length a3) z2)) as Sl. cbn [app] in Sl. change (zlen (@nil Z)) with 0 in Sl. rewrite Z.add_0_l in Sl. rewrite Sl in E.
  injection E as <-. exists V, S, P. repeat (split; [assumption|]). split; [now rewrite <- !app_assoc|]. rewrite !zlen_app. lia.
Qed.

(** What Unmarshal makes of the output of Marshal, when the units have the types of their lists. *)
Lemma hevc_round_trip grow vpsList spsList ppsList d : Forall go_bytes vpsList -> Forall go_bytes spsList -> Forall go_bytes ppsList -> hevc_marshal vpsList spsList ppsList = Ok d ->
  exists V S P, Forall2 strip vpsList V /\ Forall2 strip spsList S /\ Forall2 strip ppsList P /\
    (hevc_nal_type (hd [] V) = 32 -> hevc_nal_type (hd [] S) = 33 -> hevc_nal_type (hd [] P) = 34 ->
     exists s, hevc_unmarshal grow d = Ok (header_of hdr0, s) /\ hs_V s = with4s V /\ hs_S s = [sc true ++ last S []] /\ hs_P s = with4s P).
Proof.
  intros FV FS FP E. destruct (hevc_marshal_inv _ _ _ _ FV FS FP E) as (V & S & P & F1 & F2 & F3 & O1 & O2 & O3 & N1 & N2 & N3 & Ed & Ld). exists V, S, P. repeat (split; [assumption|]). intros T1 T2 T3. rewrite T1, T2, T3 in Ed.
  assert (Len : forall l a b c, zlen (a ++ harray (b, l) ++ c) <= 1024 -> zlen l < 2 ^ 16).
  { intros l a b c Hl. rewrite !zlen_app in Hl. unfold harray in Hl. cbn [fst snd] in Hl. rewrite !zlen_app in Hl. pose proof (zlen_lp2 l). pose proof (zlen_nonneg a). pose proof (zlen_nonneg c). pose proof (zlen_nonneg (be_bytes 2 (zlen l))). pose proof (zlen_nonneg [b]). lia. }
  assert (A1 : harray_ok (32, V)) by (split; [unfold byte_ok; cbn; lia|]; split; [cbn [snd]; apply (Len V hdr0 32 (harray (33, S) ++ harray (34, P))); rewrite <- Ed; exact Ld|exact O1]).
  assert (A2 : harray_ok (33, S)) by (split; [unfold byte_ok; cbn; lia|]; split; [cbn [snd]; apply (Len S (hdr0 ++ harray (32, V)) 33 (harray (34, P))); rewrite <- app_assoc, <- Ed; exact Ld|exact O2]).
  assert (A3 : harray_ok (34, P)) by (split; [unfold byte_ok; cbn; lia|]; split; [cbn [snd]; apply (Len P ((hdr0 ++ harray (32, V)) ++ harray (33, S)) 34 []); rewrite app_nil_r, <- !app_assoc, <- Ed; exact Ld|exact O3]).
  assert (Hb : forall a, harray_ok a -> bytes_ok (harray a)).
  { intros [b l] (Hb & _ & Hl). unfold harray. cbn [fst snd] in *. apply bytes_ok_app. split; [now constructor|]. apply bytes_ok_app. split; [apply be_bytes_ok|]. apply lp_ok. eapply Forall_impl; [|exact Hl]. intros n [Hn _]. exact Hn. }
  assert (Bd : bytes_ok d).
  { rewrite Ed. apply bytes_ok_app. split; [repeat constructor; unfold byte_ok; lia|]. apply bytes_ok_app. split; [auto|]. apply bytes_ok_app. auto. }
  assert (Lay : hevc_layout d hdr0 [(32, V); (33, S); (34, P)] []).
  { split; [rewrite Ed; cbn [map concat]; now rewrite !app_nil_r|]. split; [reflexivity|]. split; [auto using Forall_cons, Forall_nil|reflexivity]. }
  rewrite (hevc_unmarshal_layout grow d _ _ _ Bd ltac:(lia) Lay).
  set (s := add_arrays grow [(32, V); (33, S); (34, P)] hevc_sets_zero).
  destruct (add_arrays_spec grow [(32, V); (33, S); (34, P)] _ hs_wf_zero) as (W & HV & HP). fold s in W, HV, HP.
  assert (EV : hs_V s = with4s V) by (rewrite HV; unfold of_type; cbn [map concat fst snd]; cbn; now rewrite app_nil_r).
  assert (EP : hs_P s = with4s P) by (rewrite HP; unfold of_type; cbn [map concat fst snd]; cbn; now rewrite app_nil_r).
  assert (ES : hs_S s = [sc true ++ last S []]).
  { unfold s, add_arrays. cbn [fold_left]. destruct (add_vps_keep grow V _ hs_wf_zero eq_refl) as (_ & K1). pose proof (proj1 (add_array_spec grow 32 V _ hs_wf_zero)) as W1. set (s1 := add_array grow hevc_sets_zero (32, V)) in *.
    destruct (add_sps_list grow S s1 W1 K1 N2) as (K2 & K3). pose proof (proj1 (add_array_spec grow 33 S _ W1)) as W2. set (s2 := add_array grow s1 (33, S)) in *.
    rewrite <- K2. apply add_pps_keep; [exact W2|]. rewrite K3. intros a _ Ha. discriminate Ha. }
  assert (Ne : forall h x, ns_wf h x -> ns_read h x <> [] -> (ns_len x =? 0)%nat = false).
  { clear. intros h x _ N. apply Nat.eqb_neq. intros Z0. apply N. unfold ns_read. now rewrite Z0. }
  exists s. destruct W as (WV & WS & WP & _). unfold hevc_result.
  rewrite (Ne (hs_heap s) _ WS), (Ne (hs_heap s) _ WP), (Ne (hs_heap s) _ WV); [auto| | |].
  - fold (hs_V s). rewrite EV. destruct V; [congruence|discriminate].
  - fold (hs_P s). rewrite EP. destruct P; [congruence|discriminate].
  - fold (hs_S s). rewrite ES. discriminate.
Qed.

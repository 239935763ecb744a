(** * HevcListsProofs: what SPSList holds after hevc Unmarshal. *)
From Verif Require Import Base BufioModel BytesSpec BytesProofs RingProofs NaluModel NaluSpec NaluProofs SplitProofs AvccProofs RecordModel RecordSpec HevcListsSpec CursorProofs RecordProofs HevcRecordProofs.

Lemma add_units grow arrs : forall s, add_arrays grow arrs s = fold_left (fun s u => hevc_add grow s (fst u) (snd u)) (units_of arrs) s.
Proof.
  unfold add_arrays, units_of. induction arrs as [|[b l] arrs IH]; intros s; [reflexivity|]. cbn [fold_left map concat fst snd]. rewrite fold_left_app, IH. f_equal.
  unfold add_array. cbn [fst snd]. clear. revert s. induction l as [|n l IH]; intros s; [reflexivity|]. cbn [fold_left map fst snd]. apply IH.
Qed.
Lemma typed_app t l m : typed t (l ++ m) = typed t l ++ typed t m.
Proof. unfold typed. now rewrite filter_app, map_app. Qed.
Lemma typed_units t arrs : typed t (units_of arrs) = with4s (of_type t arrs).
Proof.
  unfold units_of, of_type. induction arrs as [|[b l] arrs IH]; [reflexivity|]. cbn [map concat fst snd]. rewrite typed_app, IH, with4s_app. f_equal. clear.
  unfold typed. induction l as [|n l IH]; cbn [map filter fst]; [now destruct (_ =? _)|]. destruct (b mod 64 =? t); cbn [map snd]; [|exact IH]. rewrite IH. reflexivity.
Qed.

Lemma append_length grow h s x h' s' t : ns_wf h t -> ns_append grow h s x = (h', s') -> length (ns_array h' t) = length (ns_array h t).
Proof.
  intros W E. unfold ns_append in E. unfold ns_wf, ns_array in *. destruct (ns_arr t) as [b|]; [|reflexivity]. destruct (ns_arr s) as [a|].
  - destruct (_ <? _)%nat; injection E as <- _; [|now rewrite app_nth1 by lia]. destruct (Nat.eq_dec a b) as [<-|N].
    + rewrite nth_set_nth_same by lia. apply set_nth_length.
    + now rewrite nth_set_nth_other by auto.
  - injection E as <- _. now rewrite app_nth1 by lia.
Qed.
Lemma append_cap grow h s x h' s' : ns_wf h s -> ns_append grow h s x = (h', s') -> length (ns_array h s) = cap_after grow (ns_len s) ->
  length (ns_array h' s') = cap_after grow (ns_len s') /\
  (if spare grow (ns_len s) then exists a, ns_arr s = Some a /\ ns_arr s' = Some a else ns_disj s s').
Proof.
  intros W E C. unfold spare. rewrite <- C. unfold ns_append in E. unfold ns_wf, ns_array in W, C |- *. destruct (ns_arr s) as [a|] eqn:Ea.
  - destruct (_ <? _)%nat eqn:Lt; injection E as <- <-; cbn [ns_arr ns_len cap_after]; rewrite <- C, Lt.
    + rewrite nth_set_nth_same by lia. rewrite set_nth_length. eauto.
    + rewrite app_nth2, Nat.sub_diag by lia. cbn [nth]. apply Nat.ltb_ge in Lt. split.
      * assert (Lr : length (ns_read h s) = ns_len s) by (unfold ns_read, ns_array; rewrite Ea, firstn_length; lia). rewrite app_length, Lr. cbn [app length]. rewrite repeat_length. lia.
      * intros b Hb Hc. cbn [ns_arr] in Hc. injection Hc as Hc. rewrite Ea in Hb. injection Hb as Hb. lia.
  - injection E as <- <-. cbn [ns_arr ns_len length]. rewrite app_nth2, Nat.sub_diag by lia. cbn [nth app length cap_after]. rewrite repeat_length. split; [reflexivity|].
    replace (ns_len s <? 0)%nat with false by (symmetry; apply Nat.ltb_ge; lia). intros b Hb. congruence.
Qed.

(** [shared]: the last slot of SPSList is the next free slot of PPSList. *)
Definition hl_inv grow (s : hevc_sets) (shared : bool) : Prop :=
  hs_wf s /\ length (ns_array (hs_heap s) (hs_pps s)) = cap_after grow (ns_len (hs_pps s)) /\
  (if shared then exists a, ns_arr (hs_sps s) = Some a /\ ns_arr (hs_pps s) = Some a /\ ns_len (hs_sps s) = S (ns_len (hs_pps s)) else ns_sep (hs_sps s) (hs_pps s)).

Lemma read_length h s : ns_wf h s -> length (ns_read h s) = ns_len s.
Proof. unfold ns_wf, ns_read, ns_array. destruct (ns_arr s); [rewrite firstn_length; lia|]. intros ->. reflexivity. Qed.

Lemma hl_step grow s sh t x : hl_inv grow s sh ->
  let s' := hevc_add grow s t x in
  let sh' := if t =? 33 then spare grow (length (hs_P s)) else if t =? 34 then false else sh in
  hl_inv grow s' sh' /\
  hs_S s' = if t =? 33 then hs_P s ++ [x] else if t =? 34 then (if sh then hs_P s ++ [x] else hs_S s) else hs_S s.
Proof.
  intros (W & C & Sh). cbv zeta. destruct (hevc_add_spec grow s t x W) as (W' & _ & _). pose proof W as (WV & WS & WP & DS & DP).
  unfold hs_S, hs_P. unfold hl_inv. rewrite (read_length _ _ WP). revert W'. unfold hevc_add. change HevcNalVPS with 32. change HevcNalSPS with 33. change HevcNalPPS with 34.
  destruct (Z.eqb_spec t 32) as [->|N32]; [|destruct (Z.eqb_spec t 33) as [->|N33]; [|destruct (Z.eqb_spec t 34) as [->|N34]]].
  - cbn [Z.eqb Pos.eqb]. destruct (ns_append grow (hs_heap s) (hs_vps s) x) as [h' v'] eqn:Ea. cbn [hs_heap hs_vps hs_sps hs_pps]. intros W'. split.
    + split; [exact W'|]. split; [now rewrite (append_length _ _ _ _ _ _ _ WP Ea)|exact Sh].
    + destruct (ns_append_spec _ _ _ _ _ _ WV Ea) as (_ & _ & _ & K & _). now destruct (K (hs_sps s) WS (ns_disj_sep _ _ (ns_disj_sym _ _ DS))) as (_ & R & _).
  - cbn [Z.eqb Pos.eqb]. destruct (ns_append grow (hs_heap s) (hs_pps s) x) as [h' p'] eqn:Ea. cbn [hs_heap hs_vps hs_sps hs_pps]. intros W'.
    destruct (ns_append_spec _ _ _ _ _ _ WP Ea) as (_ & R' & L' & _ & _). destruct (append_cap _ _ _ _ _ _ WP Ea C) as [_ D]. split; [|exact R'].
    split; [exact W'|]. split; [now rewrite (append_length _ _ _ _ _ _ _ WP Ea)|].
    destruct (spare grow (ns_len (hs_pps s))).
    + destruct D as (a & D1 & D2). exists a. auto.
    + apply ns_disj_sep. now apply ns_disj_sym.
  - cbn [Z.eqb Pos.eqb]. destruct (ns_append grow (hs_heap s) (hs_pps s) x) as [h' p'] eqn:Ea. cbn [hs_heap hs_vps hs_sps hs_pps]. intros W'.
    destruct (ns_append_spec _ _ _ _ _ _ WP Ea) as (Wp & R' & L' & K & _). destruct (append_cap _ _ _ _ _ _ WP Ea C) as [C' D]. destruct sh.
    + destruct Sh as (a & E1 & E2 & E3). assert (Sp : spare grow (ns_len (hs_pps s)) = true).
      { unfold spare. rewrite <- C. unfold ns_wf, ns_array in *. rewrite E1 in WS. rewrite E2. apply Nat.ltb_lt. lia. }
      rewrite Sp in D. destruct D as (b & D1 & D2). assert (b = a) as -> by congruence.
      split; [split; [exact W'|split; [exact C'|intros c Hc1 Hc2; lia]]|]. rewrite <- R'. unfold ns_read, ns_array. now rewrite E1, D2, E3, L'.
    + destruct (K (hs_sps s) WS Sh) as (_ & R & Sp). split; [split; [exact W'|split; [exact C'|exact Sp]]|exact R].
  - replace (t =? 33) with false by lia. replace (t =? 34) with false by lia. intros W'. split; [split; [exact W'|split; [exact C|exact Sh]]|reflexivity].
Qed.

Definition add_all grow l s := fold_left (fun s u => hevc_add grow s (fst u) (snd u)) l s.
Lemma add_all_P grow l : forall s, hs_wf s -> hs_wf (add_all grow l s) /\ hs_P (add_all grow l s) = hs_P s ++ typed 34 l.
Proof.
  induction l as [|[t x] l IH]; intros s W; [split; [exact W|now rewrite app_nil_r]|]. cbn [add_all fold_left fst snd]. destruct (hevc_add_spec grow s t x W) as (W' & _ & P'). destruct (IH _ W') as [W2 P2].
  split; [exact W2|]. unfold add_all in P2. rewrite P2, P', <- app_assoc. unfold typed. cbn [filter fst]. now destruct (t =? 34).
Qed.
Lemma add_all_inv grow l : forall s sh, hl_inv grow s sh -> exists sh', hl_inv grow (add_all grow l s) sh'.
Proof. induction l as [|[t x] l IH]; intros s sh H; [eauto|]. cbn [add_all fold_left fst snd]. destruct (hl_step grow s sh t x H) as [H' _]. eapply IH; eauto. Qed.
Lemma add_all_S grow l : forall s sh, hl_inv grow s sh -> typed 33 l = [] ->
  hs_S (add_all grow l s) = match typed 34 l with y :: _ => if sh then hs_P s ++ [y] else hs_S s | [] => hs_S s end.
Proof.
  induction l as [|[t x] l IH]; intros s sh H N; [reflexivity|]. cbn [add_all fold_left fst snd]. fold (add_all grow l (hevc_add grow s t x)).
  assert (N33 : (t =? 33) = false) by (unfold typed in N; cbn [filter fst] in N; destruct (t =? 33); [discriminate N|reflexivity]).
  assert (Nl : typed 33 l = []) by (unfold typed in N |- *; cbn [filter fst] in N; now rewrite N33 in N).
  destruct (hl_step grow s sh t x H) as [H' S']. rewrite N33 in H', S'. rewrite (IH _ _ H' Nl), S'. unfold typed at 2. cbn [filter fst].
  destruct (Z.eqb_spec t 34) as [->|N34]; cbn [map snd].
  - destruct (typed 34 l); reflexivity.
  - fold (typed 34 l). destruct (typed 34 l) as [|y r]; [reflexivity|]. destruct sh; [|reflexivity].
    destruct (hevc_add_spec grow s t x (proj1 H)) as (_ & _ & ->). replace (t =? 34) with false by lia. cbn [only]. now rewrite app_nil_r.
Qed.

Lemma last_sps (l : list (Z * list Z)) : typed 33 l = [] \/ exists a x b, l = a ++ (33, x) :: b /\ typed 33 b = [].
Proof.
  induction l as [|[t x] l IH]; [now left|]. destruct IH as [N|(a & y & b & -> & N)]; [|right; exists ((t, x) :: a), y, b; auto].
  destruct (Z.eq_dec t 33) as [->|Nt]; [right; exists [], x, l; auto|]. left. unfold typed in *. cbn [filter fst]. replace (t =? 33) with false by lia. exact N.
Qed.
Lemma hl_zero grow : hl_inv grow hevc_sets_zero false.
Proof. split; [apply hs_wf_zero|]. split; [reflexivity|]. intros a H. discriminate H. Qed.

Lemma add_S grow arrs : let s := add_arrays grow arrs hevc_sets_zero in
  (typed 33 (units_of arrs) = [] -> hs_S s = []) /\
  (forall l x r, units_of arrs = l ++ (33, x) :: r -> typed 33 r = [] -> hs_S s = sps_list grow l x r).
Proof.
  cbv zeta. rewrite add_units. fold (add_all grow (units_of arrs) hevc_sets_zero). split.
  - intros N. rewrite (add_all_S grow _ _ _ (hl_zero grow) N). now destruct (typed 34 _).
  - intros l x r -> N. unfold add_all. rewrite fold_left_app. cbn [fold_left fst snd]. fold (add_all grow l hevc_sets_zero). destruct (add_all_inv grow l _ _ (hl_zero grow)) as (sh & H).
    destruct (add_all_P grow l _ hs_wf_zero) as [_ P]. cbn [app] in P. change (hs_P hevc_sets_zero) with (@nil (list Z)) in P. cbn [app] in P. set (s := add_all grow l hevc_sets_zero) in *.
    destruct (hl_step grow s sh 33 x H) as [H' S']. cbn [Z.eqb Pos.eqb] in H', S'. fold (add_all grow r (hevc_add grow s 33 x)). rewrite (add_all_S grow r _ _ H' N), S', P. unfold sps_list.
    destruct (typed 34 r) as [|y b]; [reflexivity|]. destruct (hevc_add_spec grow s 33 x (proj1 H)) as (_ & _ & ->). cbn [Z.eqb Pos.eqb only]. rewrite app_nil_r, P. destruct (spare grow (length (typed 34 l))); reflexivity.
Qed.
Lemma add_counts grow arrs : let s := add_arrays grow arrs hevc_sets_zero in
  (ns_len (hs_sps s) = 0%nat <-> of_type 33 arrs = []) /\ (ns_len (hs_pps s) = 0%nat <-> of_type 34 arrs = []) /\ (ns_len (hs_vps s) = 0%nat <-> of_type 32 arrs = []).
Proof.
  cbv zeta. destruct (add_arrays_spec grow arrs _ hs_wf_zero) as (W & V & P). destruct (add_S grow arrs) as [S0 S1]. set (s := add_arrays grow arrs hevc_sets_zero) in *. pose proof W as (WV & WS & WP & _).
  assert (Nil : forall l, length (with4s l) = 0%nat <-> l = []) by (intros [|y l]; cbn; split; (discriminate || reflexivity)).
  rewrite <- (read_length _ _ WV), <- (read_length _ _ WS), <- (read_length _ _ WP). fold (hs_S s) (hs_P s) (hs_V s). rewrite V, P. cbn [app hs_V hs_P hs_heap hs_vps hs_pps hevc_sets_zero]. unfold hs_V, hs_P. cbn. rewrite !Nil. split; [|split; reflexivity].
  pose proof (typed_units 33 arrs) as T. destruct (last_sps (units_of arrs)) as [N|(a & x & b & E & N)].
  - rewrite (S0 N). rewrite N in T. split; [|reflexivity]. intros _. destruct (of_type 33 arrs); [reflexivity|discriminate T].
  - rewrite (S1 _ _ _ E N). unfold sps_list. rewrite app_length. cbn [length]. split; [lia|]. intros Z. rewrite Z in T. rewrite E, typed_app in T. apply app_eq_nil in T as [_ T]. discriminate T.
Qed.

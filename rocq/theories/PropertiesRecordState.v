(** * PropertiesRecordState: C123, Unmarshal into a record that was used before. *)
From Verif Require Import Base BufioModel NaluModel NaluSpec RecordModel RecordSpec RecordProofs HevcRecordProofs HevcListsSpec PropertiesRecord RecordStateModel RecordStateSpec RecordStateProofs.

(* ---------------------------------------------------------------------------------------- *)
(** ** C123 Unmarshal leaves in the record what its input says *)
(** False for H.264: a second Unmarshal of the same bytes succeeds and leaves every parameter set twice in the record; and one that
    fails leaves the sets it has read, with the old header. *)
Definition C123_rec : list Z := [1; 66; 192; 30; 255; 225; 0; 2; 103; 66; 1; 0; 1; 104].
Theorem C123_avc_refuted :
  (exists a b, avc_unmarshal_st avc_record_zero C123_rec = (a, Ok tt) /\ avc_unmarshal_st a C123_rec = (b, Ok tt) /\
     ar_sps a = with4s [[103; 66]] /\ ar_sps b = with4s [[103; 66]; [103; 66]] /\ ar_pps b = with4s [[104]; [104]]) /\
  (exists a, avc_unmarshal_st avc_record_zero (firstn 13 C123_rec) = (a, Err) /\ ar_version a = 0 /\ ar_sps a = with4s [[103; 66]]).
Proof.
  split; [do 2 eexists|eexists]; (split; [vm_compute; reflexivity|]); [split; [vm_compute; reflexivity|]|]; repeat (split; [vm_compute; reflexivity|]); vm_compute; reflexivity.
Qed.
(** False for H.265: bytes with no parameter set at all are accepted when the record has some already, and a PPS takes the place of an
    SPS of an earlier input. *)
Definition C123_hdr (n : Z) : list Z := [1; 0; 0; 0; 0; 0; 0; 0; 0; 0; 0; 0; 0; 0; 0; 0; 0; 0; 0; 0; 0; 3; n].
Definition C123_all : list Z := C123_hdr 3 ++ harray (32, [[64; 1]]) ++ harray (34, [[68; 1]]) ++ harray (33, [[66; 1]]).
Definition C123_hd : hevc_header := header_of (zeros 23).
Theorem C123_hevc_refuted :
  hevc_unmarshal (fun n => n) (C123_hdr 0) = Err /\
  exists x y z, hevc_unmarshal_st (fun n => n) (C123_hd, hevc_sets_zero) C123_all = (x, Ok tt) /\ hs_S (snd x) = with4s [[68; 1]; [66; 1]] /\
    hevc_unmarshal_st (fun n => n) x (C123_hdr 0) = (y, Ok tt) /\ hs_S (snd y) = hs_S (snd x) /\
    hevc_unmarshal_st (fun n => n) x (C123_hdr 1 ++ harray (34, [[68; 2]])) = (z, Ok tt) /\ hs_S (snd z) = with4s [[68; 1]; [68; 2]].
Proof. split; [vm_compute; reflexivity|]. do 3 eexists. split; [vm_compute; reflexivity|]. split; [vm_compute; reflexivity|]. split; [vm_compute; reflexivity|]. split; [vm_compute; reflexivity|]. split; vm_compute; reflexivity. Qed.
Print Assumptions C123_avc_refuted.
Print Assumptions C123_hevc_refuted.

(** What is left, for every record and every input. H.264: every set that is there ([avc_parts]) is appended, the header is replaced
    only on success. *)
Theorem C123_avc_exact : forall a data, bytes_ok data -> zlen data < 2 ^ 63 ->
  avc_unmarshal_st a data =
  if zlen data <? 5 then (a, Err)
  else
    let '(sps, pps, whole) := avc_parts (skipn 5 data) in
    if whole : bool then
      ({| ar_version := nth 0 data 0; ar_profile := nth 1 data 0; ar_compat := nth 2 data 0; ar_level := nth 3 data 0; ar_length_size := nth 4 data 0 mod 4;
          ar_sps := ar_sps a ++ with4s sps; ar_pps := ar_pps a ++ with4s pps |}, Ok tt)
    else
      ({| ar_version := ar_version a; ar_profile := ar_profile a; ar_compat := ar_compat a; ar_level := ar_level a; ar_length_size := ar_length_size a;
          ar_sps := ar_sps a ++ with4s sps; ar_pps := ar_pps a ++ with4s pps |}, Err).
Proof.
  intros a data Bo L. rewrite (avc_state_spec a data Bo L). unfold avc_after. destruct (Nat.ltb_spec (length data) 5) as [S|S].
  - now replace (zlen data <? 5) with true by (unfold zlen; lia).
  - replace (zlen data <? 5) with false by (unfold zlen; lia). destruct data as [|d0 [|d1 [|d2 [|d3 [|d4 t]]]]]; cbn [length] in S; try lia. reflexivity.
Qed.
(** H.265: every set that is there is appended ([take_arrays]), SPSs behind the PPSs (C79); the header is replaced even on failure. *)
Theorem C123_hevc_exact : forall grow hd s data, hs_wf s -> bytes_ok data -> zlen data < 2 ^ 63 ->
  (zlen data < 23 -> hevc_unmarshal_st grow (hd, s) data = ((hd, s), Err)) /\
  (23 <= zlen data -> forall u r, take_arrays (Z.to_nat (nth 22 data 0)) (skipn 23 data) = (u, r) ->
   exists s' e, hevc_unmarshal_st grow (hd, s) data = ((header_of (firstn 23 data), s'), e) /\ hs_wf s' /\
     s' = fold_left (fun s x => hevc_add grow s (fst x) (sc true ++ snd x)) u s /\
     hs_V s' = hs_V s ++ with4s (typed 32 u) /\ hs_P s' = hs_P s ++ with4s (typed 34 u) /\ (e = Ok tt \/ e = Err) /\
     (e = Ok tt <-> r <> None /\ (hs_V s <> [] \/ typed 32 u <> []) /\ (hs_S s <> [] \/ typed 33 u <> []) /\ (hs_P s <> [] \/ typed 34 u <> []))).
Proof.
  intros grow hd s data W Bo L. rewrite (hevc_state_spec grow (hd, s) data Bo L). unfold hevc_after. split; intros S.
  - now replace (length data <? 23)%nat with true by (symmetry; apply Nat.ltb_lt; unfold zlen in S; lia).
  - intros u r E. replace (length data <? 23)%nat with false by (symmetry; apply Nat.ltb_ge; unfold zlen in S; lia). rewrite E. cbn [snd]. do 2 eexists. split; [reflexivity|].
    destruct (add_units_lists grow u s W) as (W' & EV & EP). pose proof (add_units_sps grow u s) as ES. cbv zeta in ES. split; [exact W'|]. split; [reflexivity|]. split; [exact EV|]. split; [exact EP|].
    set (s' := add_units grow u s) in *.
    assert (Ln : forall h x, ns_wf h x -> ns_len x = length (ns_read h x)).
    { intros h x Wx. unfold ns_wf, ns_read, ns_array in *. rewrite firstn_length. destruct (ns_arr x); [lia|]. rewrite Wx. reflexivity. }
    destruct W as (WV & WS & WP & _). destruct W' as (WV' & WS' & WP' & _).
    assert (NV : ns_len (hs_vps s') = 0%nat <-> hs_V s = [] /\ typed 32 u = []).
    { rewrite (Ln _ _ WV'). fold (hs_V s'). rewrite EV, app_length. unfold with4s. rewrite map_length. destruct (hs_V s), (typed 32 u); cbn [length]; split; try lia; try (intros [? ?]; discriminate); auto. }
    assert (NP : ns_len (hs_pps s') = 0%nat <-> hs_P s = [] /\ typed 34 u = []).
    { rewrite (Ln _ _ WP'). fold (hs_P s'). rewrite EP, app_length. unfold with4s. rewrite map_length. destruct (hs_P s), (typed 34 u); cbn [length]; split; try lia; try (intros [? ?]; discriminate); auto. }
    assert (NS : ns_len (hs_sps s') = 0%nat <-> hs_S s = [] /\ typed 33 u = []).
    { rewrite ES, (Ln _ _ WS). fold (hs_S s). destruct (hs_S s); cbn [length]; split; intros [? ?]; split; auto; try discriminate; lia. }
    destruct r as [r|]; [|split; [now right|split; [discriminate|intros [X _]; congruence]]].
    split; [destruct (_ || _); auto|].
    assert (T : forall (l m : list (list Z)) (k : nat), (k = 0%nat <-> l = [] /\ m = []) -> (if (k =? 0)%nat then l = [] /\ m = [] else l <> [] \/ m <> [])).
    { intros l m k Hk. destruct (Nat.eqb_spec k 0) as [Z|N]; [now apply Hk|]. destruct l, m; try (left; discriminate); try (right; discriminate). elim N. apply Hk. auto. }
    apply T in NV. apply T in NS. apply T in NP.
    destruct (ns_len (hs_sps s') =? 0)%nat, (ns_len (hs_pps s') =? 0)%nat, (ns_len (hs_vps s') =? 0)%nat; cbn [orb]; split; try discriminate; try (intros; repeat split; auto; discriminate).
    all: intros (_ & X1 & X2 & X3); exfalso; tauto.
Qed.
(** These are the functions of C39-C43 with the record made visible. *)
Theorem C123_same : forall grow a hd data,
  avc_unmarshal a data = match avc_unmarshal_st a data with (b, Ok _) => Ok b | (_, Err) => Err | (_, Panic) => Panic | (_, NoFuel) => NoFuel end /\
  hevc_unmarshal grow data = match hevc_unmarshal_st grow (hd, hevc_sets_zero) data with (x, Ok _) => Ok x | (_, Err) => Err | (_, Panic) => Panic | (_, NoFuel) => NoFuel end.
Proof.
  intros grow a hd data. split.
  - rewrite avc_state_same. unfold done. destruct (avc_unmarshal_st a data) as [b [| | |]]; reflexivity.
  - rewrite (hevc_state_same grow hd). unfold done. destruct (hevc_unmarshal_st grow (hd, hevc_sets_zero) data) as [b [| | |]]; reflexivity.
Qed.
Print Assumptions C123_avc_exact.
Print Assumptions C123_hevc_exact.
Print Assumptions C123_same.
(** A record cut inside its second SPS, one without PPSs, and an H.265 record cut inside its second array. *)
Example C123_example :
  avc_parts (skipn 5 [1; 66; 192; 30; 255; 226; 0; 2; 103; 66; 0; 3; 103; 77]) = ([[103; 66]], [], false) /\
  avc_parts (skipn 5 [1; 66; 192; 30; 255; 225; 0; 2; 103; 66; 0]) = ([[103; 66]], [], false) /\
  avc_parts (skipn 5 (C123_rec ++ [9])) = ([[103; 66]], [[104]], true) /\
  take_arrays 2 (harray (32, [[64; 1]; [64; 2]]) ++ [161; 0; 2; 0; 1; 7; 0; 5; 1]) = ([(32, [64; 1]); (32, [64; 2]); (33, [7])], None).
Proof. repeat (split; [vm_compute; reflexivity|]). vm_compute; reflexivity. Qed.

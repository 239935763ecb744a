(** * RewriteProofs: decoder configuration records that are read and written again. *)
From Verif Require Import Base BufioModel RingProofs NaluModel NaluSpec NaluProofs SplitProofs RecordModel RecordSpec RecordProofs HevcRecordProofs MarshalProofs PropertiesRecord PropertiesMarshal PropertiesSps.
Open Scope Z_scope.

Lemma bare_with4s l : map bare_of (with4s l) = l.
Proof. unfold with4s. rewrite map_map. induction l as [|x l IH]; [reflexivity|]. cbn [map]. now rewrite IH. Qed.
Lemma content_with4s l : Forall (content 0) (with4s l).
Proof. apply Forall_forall. intros x I. apply in_map_iff in I as (n & <- & _). exists n. split; [reflexivity|apply zlen_nonneg]. Qed.
Lemma fill_with4s l room : 0 <= room -> fill room (with4s l) = if zlen (lp 2 l) <=? room then Ok l else Err.
Proof. intros R. rewrite (fill_content 0) by (auto using content_with4s; lia). now rewrite bare_with4s. Qed.
Lemma zlen_with4s l : zlen (with4s l) = zlen l.
Proof. unfold zlen, with4s. now rewrite map_length. Qed.

(** What Marshal makes of H.264 parameter sets that were read from a record. *)
Definition avc_again (S P : list (list Z)) : res (list Z) :=
  if 1024 <? 7 + zlen (lp 2 S) + zlen (lp 2 P) then Err
  else match last S [] with
       | _ :: b1 :: b2 :: b3 :: _ => Ok ([1; b1; b2; b3; 255; 224 + zlen S] ++ lp 2 S ++ [zlen P] ++ lp 2 P)
       | _ => Panic
       end.
Lemma lor224 n : 0 <= n < 32 -> Z.lor 224 n = 224 + n.
Proof. intros H. assert (forallb (fun k => Z.lor 224 k =? 224 + k) (map Z.of_nat (seq 0 32)) = true) as A by reflexivity. rewrite forallb_forall in A. specialize (A n). apply Z.eqb_eq, A. apply in_map_iff. exists (Z.to_nat n). split; [lia|apply in_seq; lia]. Qed.
Lemma lp_room (l : list (list Z)) : l <> [] -> 2 <= zlen (lp 2 l).
Proof. destruct l as [|x l]; [congruence|]. intros _. cbn [lp]. rewrite !zlen_app. unfold zlen at 1. rewrite be_bytes_length. pose proof (zlen_nonneg x). pose proof (zlen_nonneg (lp 2 l)). lia. Qed.
Lemma set_go n : set_ok n -> go_bytes (sc true ++ n).
Proof. intros [B L]. split; [apply bytes_ok_app; split; [repeat constructor; unfold byte_ok; lia|exact B]|]. rewrite zlen_app. change (zlen (sc true)) with 4. lia. Qed.
Lemma sets_go l : Forall set_ok l -> Forall go_bytes (with4s l).
Proof. intros F. apply Forall_forall. intros x I. apply in_map_iff in I as (n & <- & I). rewrite Forall_forall in F. now apply set_go, F. Qed.
Lemma avc_again_exact S P : Forall set_ok S -> Forall set_ok P -> 1 <= zlen S < 32 -> 1 <= zlen P < 256 -> avc_marshal (with4s S) (with4s P) = avc_again S P.
Proof.
  intros FS FP LS LP. rewrite avc_marshal_exact by now apply sets_go. unfold avc_written, avc_again. rewrite !zlen_with4s.
  assert (S <> []) as NS by (intros ->; cbn in LS; lia). assert (P <> []) as NP by (intros ->; cbn in LP; lia). pose proof (lp_room P NP) as RP. pose proof (zlen_nonneg (lp 2 S)).
  destruct (with4s S) as [|y ys] eqn:ES; [destruct S; [congruence|discriminate]|]. destruct (with4s P) as [|z zs] eqn:EP; [destruct P; [congruence|discriminate]|]. rewrite <- ES, <- EP. rewrite fill_with4s by lia.
  unfold u8. rewrite !Z.mod_small by lia. rewrite lor224 by lia. destruct (Z.leb_spec (zlen (lp 2 S)) 1018); cbn [bind]; [|now replace (1024 <? _) with true by lia].
  destruct (Z.eqb_spec (zlen (lp 2 S)) 1018); [now replace (1024 <? _) with true by lia|]. rewrite fill_with4s by lia. destruct (Z.leb_spec (zlen (lp 2 P)) (1017 - zlen (lp 2 S))); cbn [bind]; [replace (1024 <? _) with false by lia|now replace (1024 <? _) with true by lia].
  reflexivity.
Qed.

(* ---------------------------------------------------------------------------------------- *)
(** ** H.265. *)
Definition sets_all (Q : list Z -> Prop) (s : hevc_sets) : Prop := hs_wf s /\ Forall Q (hs_V s) /\ Forall Q (hs_S s) /\ Forall Q (hs_P s).
Lemma hevc_add_all (Q : list Z -> Prop) grow s t x : Q x -> sets_all Q s -> sets_all Q (hevc_add grow s t x).
Proof.
  intros Lx (W & FV & FS & FP). destruct (hevc_add_spec grow s t x W) as (W' & V' & P'). split; [exact W'|]. split; [rewrite V'; apply Forall_app; split; [exact FV|destruct (t =? 32); cbn [HevcRecordProofs.only]; auto]|].
  split; [|rewrite P'; apply Forall_app; split; [exact FP|destruct (t =? 34); cbn [HevcRecordProofs.only]; auto]].
  destruct W as (WV & WS & WP & _). unfold hevc_add. destruct (t =? HevcNalVPS); [|destruct (t =? HevcNalSPS); [|destruct (t =? HevcNalPPS)]].
  - destruct (ns_append grow (hs_heap s) (hs_vps s) x) as [h' y] eqn:E. unfold hs_S. cbn [hs_heap hs_sps]. eapply ns_append_other; eauto.
  - destruct (ns_append grow (hs_heap s) (hs_pps s) x) as [h' y] eqn:E. unfold hs_S. cbn [hs_heap hs_sps]. destruct (ns_append_spec _ _ _ _ _ _ WP E) as (_ & R & _). rewrite R. apply Forall_app. split; [exact FP|auto].
  - destruct (ns_append grow (hs_heap s) (hs_pps s) x) as [h' y] eqn:E. unfold hs_S. cbn [hs_heap hs_sps]. eapply ns_append_other; eauto.
  - exact FS.
Qed.
Definition read_set (x : list Z) : Prop := exists n, x = sc true ++ n /\ set_ok n.
Lemma add_arrays_all grow arrs : Forall harray_ok arrs -> forall s, sets_all read_set s -> sets_all read_set (add_arrays grow arrs s).
Proof.
  unfold add_arrays. induction arrs as [|[b l] arrs IH]; intros F s H; cbn [fold_left]; [exact H|]. apply Forall_cons_iff in F as [(_ & _ & Fl) F]. apply IH; [exact F|]. unfold add_array. cbn [fst snd] in *.
  clear IH F. revert s H. induction l as [|n l IHl]; intros s H; cbn [fold_left]; [exact H|]. apply Forall_cons_iff in Fl as [Fn Fl]. apply (IHl Fl). apply hevc_add_all; [now exists n|exact H].
Qed.
Lemma read_sets_with4 l : Forall read_set l -> exists ns, l = with4s ns /\ Forall set_ok ns.
Proof. induction 1 as [|x l (n & -> & H) F (ns & -> & G)]; [exists []; auto|exists (n :: ns); auto]. Qed.
Lemma hevc_read_sets grow data h s : bytes_ok data -> zlen data < 2 ^ 63 -> hevc_unmarshal grow data = Ok (h, s) ->
  exists V S P, hs_V s = with4s V /\ hs_S s = with4s S /\ hs_P s = with4s P /\ Forall set_ok V /\ Forall set_ok S /\ Forall set_ok P.
Proof.
  intros B L E. destruct (hevc_unmarshal_dec grow data B L) as [(hdr & arrs & tail & Lay)|E']; [|congruence]. rewrite (hevc_unmarshal_layout grow _ _ _ _ B L Lay) in E. unfold hevc_result in E.
  repeat (destruct (_ =? _)%nat; [discriminate|]). injection E as _ <-. destruct Lay as (_ & _ & Fa & _). destruct (add_arrays_all grow arrs Fa hevc_sets_zero) as (_ & FV & FS & FP); [split; [apply hs_wf_zero|repeat split; constructor]|].
  destruct (read_sets_with4 _ FV) as (V & EV & OV). destruct (read_sets_with4 _ FS) as (S & ES & OS). destruct (read_sets_with4 _ FP) as (P & EP & OP). exists V, S, P. auto 10.
Qed.

Lemma zlen_hevc_array l : zlen (hevc_array l) = 3 + zlen (lp 2 l).
Proof. unfold hevc_array, harray. cbn [fst snd]. rewrite !zlen_app. unfold zlen at 1 2. rewrite be_bytes_length. cbn [length]. lia. Qed.
Lemma fill_array_with4s l room : fill_array room (with4s l) = match hd [] l with [] => Panic | _ => if 3 + zlen (lp 2 l) <=? room then Ok l else Err end.
Proof.
  unfold fill_array. destruct l as [|n l]; [reflexivity|]. unfold with4s at 1. cbn [map hd]. change (bare (sc true ++ n)) with (Some n). destruct n as [|b n]; [reflexivity|]. pose proof (zlen_nonneg (lp 2 ((b :: n) :: l))).
  destruct (Z.leb_spec 3 room); [|now replace (_ <=? room) with false by lia]. rewrite fill_with4s by lia. destruct (Z.leb_spec (zlen (lp 2 ((b :: n) :: l))) (room - 3)); [now replace (_ <=? room) with true by lia|now replace (_ <=? room) with false by lia].
Qed.
Definition hevc_bytes (V S P : list (list Z)) : list Z := (1 :: zeros 20 ++ [3; 3]) ++ hevc_array V ++ hevc_array S ++ hevc_array P.
(** What Marshal makes of H.265 parameter sets that were read from a record. *)
Lemma hevc_again V S P d : Forall set_ok V -> Forall set_ok S -> Forall set_ok P ->
  (hevc_marshal (with4s V) (with4s S) (with4s P) = Ok d <-> hd [] V <> [] /\ hd [] S <> [] /\ hd [] P <> [] /\ 32 + zlen (lp 2 V) + zlen (lp 2 S) + zlen (lp 2 P) <= 1024 /\ d = hevc_bytes V S P).
Proof.
  intros FV FS FP. rewrite hevc_marshal_exact by now apply sets_go. unfold hevc_written. pose proof (zlen_nonneg (lp 2 V)). pose proof (zlen_nonneg (lp 2 S)). pose proof (zlen_nonneg (lp 2 P)).
  destruct V as [|v V]; [cbn; split; [discriminate|intros (N & _); congruence]|]. destruct S as [|s S]; [cbn; split; [discriminate|intros (_ & N & _); congruence]|]. destruct P as [|p P]; [cbn; split; [discriminate|intros (_ & _ & N & _); congruence]|].
  unfold with4s at 1 2 3. cbn [map]. rewrite !(fill_array_with4s). cbn [hd].
  destruct v as [|vb v]; [cbn [bind]; split; [discriminate|intros (N & _); congruence]|]. destruct (Z.leb_spec (3 + zlen (lp 2 ((vb :: v) :: V))) 1001) as [LV|LV]; cbn [bind]; [|split; [discriminate|lia]].
  rewrite !zlen_hevc_array, fill_array_with4s. cbn [hd]. destruct s as [|sb s]; [cbn [bind]; split; [discriminate|intros (_ & N & _); congruence]|].
  destruct (Z.leb_spec (3 + zlen (lp 2 ((sb :: s) :: S))) (1001 - (3 + zlen (lp 2 ((vb :: v) :: V))))) as [LS|LS]; cbn [bind]; [|split; [discriminate|lia]].
  rewrite !zlen_hevc_array, fill_array_with4s. cbn [hd]. destruct p as [|pb p]; [cbn [bind]; split; [discriminate|intros (_ & _ & N & _); congruence]|].
  destruct (Z.leb_spec (3 + zlen (lp 2 ((pb :: p) :: P))) (1001 - (3 + zlen (lp 2 ((vb :: v) :: V))) - (3 + zlen (lp 2 ((sb :: s) :: S))))) as [LP|LP]; cbn [bind]; [|split; [discriminate|lia]].
  split; [intros [= <-]|intros (_ & _ & _ & _ & ->); reflexivity]. repeat split; try discriminate. lia.
Qed.
Lemma lp_last l : l <> [] -> zlen (lp 2 [last l []]) <= zlen (lp 2 l).
Proof.
  induction l as [|x l IH]; [congruence|]. intros _. destruct l as [|y l]; [cbn [last]; lia|]. change (last (x :: y :: l) []) with (last (y :: l) []). specialize (IH ltac:(discriminate)). cbn [lp] in *. rewrite !zlen_app in *. pose proof (zlen_nonneg x). pose proof (zlen_nonneg (be_bytes 2 (zlen x))). lia.
Qed.

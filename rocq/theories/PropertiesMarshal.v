(** * PropertiesMarshal: C99 - Marshal of decoder configuration records for arbitrary parameter sets. *)
From Verif Require Import Base BufioModel NaluModel NaluSpec RecordModel RecordSpec RecordProofs HevcRecordProofs MarshalProofs.

(* ---------------------------------------------------------------------------------------- *)
(** ** C99: the exact result of Marshal. *)

(** The full claim, Marshal returns a record or an error for all parameter sets, is false: it panics on an empty set, on a set that is only
    the beginning of a start code, on an H.264 SPS below 4 bytes and on an H.265 array that starts with an empty unit. *)
Theorem C99_marshal_refuted :
  avc_marshal [[103; 66; 0; 30]] [[]] = Panic /\ avc_marshal [[103; 66; 0; 30]; [0; 0; 0]] [[104]] = Panic /\ avc_marshal [[103; 66; 0]] [[104]] = Panic /\
  hevc_marshal [sc true ++ [64; 1]] [sc true] [sc true ++ [68; 1]] = Panic.
Proof. repeat split; vm_compute; reflexivity. Qed.

(** Marshal returns exactly what [avc_written] and [hevc_written] say, panics included. *)
Theorem C99_marshal_partial : forall vl sl pl, Forall go_bytes vl -> Forall go_bytes sl -> Forall go_bytes pl ->
  avc_marshal sl pl = avc_written sl pl /\ hevc_marshal vl sl pl = hevc_written vl sl pl.
Proof. intros vl sl pl FV FS FP. split; [now apply avc_marshal_exact|now apply hevc_marshal_exact]. Qed.

(** Hence for sets with content: a record whenever everything fits, otherwise an error. *)
Definition content (k : Z) (x : list Z) : Prop := exists n, bare x = Some n /\ k <= zlen n.
Definition bare_of (x : list Z) : list Z := match bare x with Some n => n | None => [] end.
Lemma fill_content k l : 0 <= k -> Forall (content k) l -> forall room, 0 <= room ->
  fill room l = if zlen (lp 2 (map bare_of l)) <=? room then Ok (map bare_of l) else Err.
Proof.
  intros K F. induction F as [|x l (n & En & Ln) F IH]; intros room R; cbn [fill map lp].
  - now replace (zlen [] <=? room) with true by (change (zlen (@nil Z)) with 0; lia).
  - rewrite En. replace (bare_of x) with n by (unfold bare_of; now rewrite En). rewrite !zlen_app. assert (Lb : zlen (be_bytes 2 (zlen n)) = 2) by (unfold zlen; now rewrite be_bytes_length). rewrite Lb.
    pose proof (zlen_nonneg (lp 2 (map bare_of l))). destruct (Z.leb_spec (2 + zlen n) room).
    + rewrite IH by lia. destruct (Z.leb_spec (zlen (lp 2 (map bare_of l))) (room - 2 - zlen n)); cbn [bind].
      * now replace (2 + (zlen n + zlen (lp 2 (map bare_of l))) <=? room) with true by lia.
      * now replace (2 + (zlen n + zlen (lp 2 (map bare_of l))) <=? room) with false by lia.
    + now replace (2 + (zlen n + zlen (lp 2 (map bare_of l))) <=? room) with false by lia.
Qed.
Theorem C99_fits : forall vl sl pl, vl <> [] -> sl <> [] -> pl <> [] -> Forall go_bytes vl -> Forall go_bytes sl -> Forall go_bytes pl ->
  (Forall (content 4) sl -> Forall (content 0) pl ->
   let size := 7 + zlen (lp 2 (map bare_of sl)) + zlen (lp 2 (map bare_of pl)) in
   (size <= 1024 -> exists d, avc_marshal sl pl = Ok d /\ zlen d = size) /\ (1024 < size -> avc_marshal sl pl = Err)) /\
  (Forall (content 1) vl -> Forall (content 1) sl -> Forall (content 1) pl ->
   let size := 32 + zlen (lp 2 (map bare_of vl)) + zlen (lp 2 (map bare_of sl)) + zlen (lp 2 (map bare_of pl)) in
   (size <= 1024 -> exists d, hevc_marshal vl sl pl = Ok d /\ zlen d = size) /\ (1024 < size -> hevc_marshal vl sl pl = Err)).
Proof.
  intros vl sl pl Nv Ns Np Gv Gs Gp. split.
  - intros Cs Cp size. unfold size. clear size. rewrite avc_marshal_exact by auto. unfold avc_written. destruct sl as [|s0 sl0] eqn:Es; [congruence|]. destruct pl as [|p0 pl0] eqn:Ep; [congruence|]. rewrite <- Es, <- Ep in *.
    set (A := lp 2 (map bare_of sl)) in *. set (B := lp 2 (map bare_of pl)) in *. pose proof (zlen_nonneg A). pose proof (zlen_nonneg B).
    rewrite (fill_content 4) by (auto; lia). fold A. destruct (Z.leb_spec (zlen A) 1018); cbn [bind]; [|split; [lia|reflexivity]]. fold A.
    destruct (Z.eqb_spec (zlen A) 1018); [split; [|reflexivity]|].
    { assert (2 <= zlen B). { unfold B. rewrite Ep. cbn [map lp]. rewrite !zlen_app. assert (Lb : zlen (be_bytes 2 (zlen (bare_of p0))) = 2) by (unfold zlen; now rewrite be_bytes_length). rewrite Lb.
        pose proof (zlen_nonneg (bare_of p0)). pose proof (zlen_nonneg (lp 2 (map bare_of pl0))). lia. } lia. }
    rewrite (fill_content 0) by (auto; lia). fold B. destruct (Z.leb_spec (zlen B) (1017 - zlen A)); cbn [bind]; [|split; [lia|reflexivity]]. fold B. split; [intros _|lia].
    assert (L4 : 4 <= zlen (last (map bare_of sl) [])).
    { assert (In (last (map bare_of sl) []) (map bare_of sl)) as I. { destruct (exists_last (l := map bare_of sl)) as (m & x & E); [rewrite Es; discriminate|]. rewrite E, last_last. apply in_or_app. right. now left. }
      apply in_map_iff in I as (x & <- & Ix). rewrite Forall_forall in Cs. destruct (Cs x Ix) as (n0 & En & Ln). unfold bare_of. now rewrite En. }
    destruct (last (map bare_of sl) []) as [|b0 [|b1 [|b2 [|b3 t]]]]; try (exfalso; unfold zlen in L4; cbn [length] in L4; lia). eexists. split; [reflexivity|].
    rewrite !zlen_app. change (zlen [u8 (zlen pl)]) with 1. change (zlen [1; b1; b2; b3; 255; Z.lor 224 (u8 (zlen sl))]) with 6. lia.
  - intros Cv Cs Cp size. unfold size. clear size. rewrite hevc_marshal_exact by auto. unfold hevc_written.
    assert (FA : forall l room, l <> [] -> Forall (content 1) l -> fill_array room l = if 3 + zlen (lp 2 (map bare_of l)) <=? room then Ok (map bare_of l) else Err).
    { intros l room N F. unfold fill_array. destruct l as [|x l]; [congruence|]. cbn [hd]. pose proof F as F'. apply Forall_cons_iff in F' as [(n & En & Ln) _]. rewrite En. destruct n as [|b n]; [unfold zlen in Ln; cbn [length] in Ln; lia|].
      set (C := lp 2 (map bare_of (x :: l))) in *. pose proof (zlen_nonneg C). destruct (Z.leb_spec 3 room).
      - rewrite (fill_content 1) by (auto; lia). fold C. destruct (Z.leb_spec (zlen C) (room - 3)); [now replace (3 + zlen C <=? room) with true by lia|now replace (3 + zlen C <=? room) with false by lia].
      - now replace (3 + zlen C <=? room) with false by lia. }
    assert (LA : forall ns, zlen (hevc_array ns) = 3 + zlen (lp 2 ns)). { intros ns. unfold hevc_array, harray. cbn [fst snd]. rewrite !zlen_app. unfold zlen at 2. rewrite be_bytes_length. change (zlen [_]) with 1. lia. }
    destruct vl as [|v0 vl0] eqn:Ev; [congruence|]. destruct sl as [|s0 sl0] eqn:Es; [congruence|]. destruct pl as [|p0 pl0] eqn:Ep; [congruence|]. rewrite <- Es, <- Ep, <- Ev in *.
    rewrite !FA by auto. pose proof (zlen_nonneg (lp 2 (map bare_of vl))). pose proof (zlen_nonneg (lp 2 (map bare_of sl))). pose proof (zlen_nonneg (lp 2 (map bare_of pl))).
    destruct (Z.leb_spec (3 + zlen (lp 2 (map bare_of vl))) 1001); cbn [bind]; [|split; [lia|reflexivity]].
    rewrite FA, LA by auto. destruct (Z.leb_spec (3 + zlen (lp 2 (map bare_of sl))) (1001 - (3 + zlen (lp 2 (map bare_of vl))))); cbn [bind]; [|split; [lia|reflexivity]].
    rewrite FA, LA by auto. destruct (Z.leb_spec (3 + zlen (lp 2 (map bare_of pl))) (1001 - (3 + zlen (lp 2 (map bare_of vl))) - (3 + zlen (lp 2 (map bare_of sl))))); cbn [bind]; [|split; [lia|reflexivity]].
    split; [intros _|lia]. eexists. split; [reflexivity|]. rewrite !zlen_app, !LA. change (zlen (1 :: zeros 20 ++ [3; 3])) with 23. lia.
Qed.
Example C99_example : avc_written [sc true ++ [103; 66; 0; 30; 7]] [[104; 1]; sc false ++ [104; 2; 3]] =
  Ok [1; 66; 0; 30; 255; 225; 0; 5; 103; 66; 0; 30; 7; 2; 0; 2; 104; 1; 0; 3; 104; 2; 3] /\
  avc_written [zeros 4 ++ zeros 1010] [[104; 1]] = Err /\
  hevc_written [sc true ++ [64; 1]] [sc false ++ [66; 1; 9]] [[68; 1]; [68]] =
  Ok (1 :: zeros 20 ++ [3; 3; 32; 0; 1; 0; 2; 64; 1; 33; 0; 1; 0; 3; 66; 1; 9; 34; 0; 2; 0; 2; 68; 1; 0; 1; 68]).
Proof. repeat split; vm_compute; reflexivity. Qed.
Print Assumptions C99_marshal_refuted.
Print Assumptions C99_marshal_partial.
Print Assumptions C99_fits.

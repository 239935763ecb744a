(** * PropertiesNalu: C25-C38, C44, C75, C78. *)
From Verif Require Import Base BufioModel BytesSpec BytesProofs RingProofs NaluModel NaluSpec NaluProofs SplitProofs SplitExact AvccProofs AnnexbProofs HevcMp4Proofs StretchSpec StretchProofs.

(** Decidable checks used by the examples. *)
Fixpoint pat_free (n : list Z) : bool :=
  match n with
  | 0 :: ((0 :: 1 :: _) as r) => false
  | _ :: r => pat_free r
  | [] => true
  end.
Lemma pat_cons x n k : pat (x :: n) (k + 1) -> 0 <= k -> pat n k.
Proof.
  intros (A & B & C) H. rewrite idx_cons_S in A by lia. replace (k + 1 + 1) with ((k + 1) + 1) in B by lia. rewrite idx_cons_S in B by lia.
  replace (k + 1 + 2) with ((k + 2) + 1) in C by lia. rewrite idx_cons_S in C by lia. repeat split; auto.
Qed.
Lemma pat_free_ok n : pat_free n = true -> no_pat n.
Proof.
  induction n as [|x n IH]; intros H k P.
  - destruct P as (P & _). apply idx_inv in P. change (zlen (@nil Z)) with 0 in P. lia.
  - pose proof P as (P0 & P1 & P2). pose proof (idx_inv _ _ _ P0) as R. destruct (Z.eq_dec k 0) as [->|Hk].
    + rewrite idx_cons_0 in P0. injection P0 as ->. destruct n as [|y [|z n]]; [discriminate P1|discriminate P2|].
      rewrite (idx_cons_S 0 (y :: z :: n) 0) in P1 by lia. rewrite idx_cons_0 in P1. injection P1 as ->.
      change (idx (0 :: 0 :: z :: n) (0 + 2)) with (Some z) in P2. injection P2 as ->. cbn in H. discriminate.
    + apply (IH ltac:(destruct x as [|?|?]; cbn [pat_free] in H; try exact H; destruct n as [|[|?|?] [|[|[?|?|]|?] ?]]; try exact H; try reflexivity; try discriminate) (k - 1)).
      apply (pat_cons x); [now replace (k - 1 + 1) with k by lia|lia].
Qed.
Lemma nalu_ok_check n : forallb (fun b => (0 <=? b) && (b <? 256)) n = true -> negb (is_nil n) = true -> negb (last n 1 =? 0) = true -> pat_free n = true -> nalu_ok n.
Proof.
  intros A B C D. split; [|split; [|split]].
  - apply Forall_forall. intros x Hx. rewrite forallb_forall in A. specialize (A x Hx). unfold byte_ok. lia.
  - destruct n; [discriminate|congruence].
  - lia.
  - now apply pat_free_ok.
Qed.
Ltac nok := repeat (apply Forall_cons || apply Forall_nil); try (apply nalu_ok_check; reflexivity).

(* ---------------------------------------------------------------------------------------- *)
(** ** C25 *)
Theorem C25_find_start_code : forall p, bytes_ok p ->
  (exists k, first_sc p k /\ find_start_code p = Ok (k + 3, sc_len_at p k)) \/
  ((forall k, ~ sc_at p k) /\ find_start_code p = Ok (-1, -1)).
Proof. exact fsc_spec. Qed.
Print Assumptions C25_find_start_code.

(** FindStartCode2: the position where the start code begins, its extra zero byte included. *)
Theorem C25_find_start_code2 : forall p, bytes_ok p ->
  (exists k, first_sc p k /\ find_start_code2 p = Ok (k + 3 - sc_len_at p k)) \/
  ((forall k, ~ sc_at p k) /\ find_start_code2 p = Ok (-1)).
Proof.
  intros p B. unfold find_start_code2. destruct (fsc_spec p B) as [(k & F & E)|[N E]]; rewrite E; cbn [bind]; [left|right; split; auto].
  exists k. split; [exact F|]. destruct F as [[[P _] _] _]. apply idx_inv in P. now replace (k + 3 <? 0) with false by lia.
Qed.
Print Assumptions C25_find_start_code2.
Example C25_example : find_start_code [5; 0; 0; 0; 1; 7; 0; 0; 1] = Ok (5, 4) /\ find_start_code [0; 0; 2; 0; 0; 1] = Ok (-1, -1) /\ find_start_code2 [5; 0; 0; 0; 1; 7] = Ok 1.
Proof. repeat split; vm_compute; reflexivity. Qed.

(* ---------------------------------------------------------------------------------------- *)
(** ** C26 *)
Theorem C26_split_lossless : forall data, bytes_ok data -> 3 <= zlen data ->
  exists x xs, split_nalu data = Ok (x :: xs) /\ concat (x :: xs) = data /\ Forall starts_sc xs.
Proof.
  intros data B L. destruct (split_total (S (length data)) [] data B L) as (x & xs & E & C & _ & F); [lia|]. exists x, xs. auto.
Qed.
Print Assumptions C26_split_lossless.
Theorem C26_split_units : forall l, l <> [] -> Forall unit_ok l -> split_nalu (annexb l) = Ok (map (fun u => sc (fst u) ++ snd u) l).
Proof. exact split_annexb. Qed.
Print Assumptions C26_split_units.
Theorem C26_split_short : forall data, zlen data < 3 -> split_nalu data = Panic.
Proof.
  intros data L. unfold split_nalu. cbn [split_nalu_loop]. rewrite slice_from_none by lia. reflexivity.
Qed.
Print Assumptions C26_split_short.
(** Arbitrary data is cut exactly at its start codes: the pieces after the first begin where [is_cut] says. *)
Theorem C26_split_cuts : forall data, bytes_ok data -> 3 <= zlen data ->
  exists x xs, split_nalu data = Ok (x :: xs) /\ concat (x :: xs) = data /\ Forall (fun y => 3 <= zlen y) (x :: xs) /\
    forall o, In o (offsets (zlen x) xs) <-> is_cut data o.
Proof.
  intros data B L. destruct (split_cuts (S (length data)) [] data B L) as (x & xs & E & C & Sx); [lia|]. exists x, xs. split; [exact E|]. split; [exact C|]. split; [|exact Sx].
  destruct (split_len3 (S (length data)) [] data B L) as (ys & E' & F); [lia|]. rewrite E in E'. injection E' as <-. exact F.
Qed.
Print Assumptions C26_split_cuts.
Example C26_example_cuts : is_cut [0; 0; 0; 0; 0; 1; 9; 0; 0; 0; 1; 7] 3 /\ is_cut [0; 0; 0; 0; 0; 1; 9; 0; 0; 0; 1; 7] 7 /\
  split_nalu [0; 0; 0; 0; 0; 1; 9; 0; 0; 0; 1; 7] = Ok [[0; 0; 0]; [0; 0; 1; 9]; [0; 0; 0; 1; 7]].
Proof.
  split; [exists 3; split; [lia|]; split; [split; [repeat split|reflexivity]|reflexivity]|]. split; [exists 8; split; [lia|]; split; [split; [repeat split|reflexivity]|reflexivity]|]. vm_compute. reflexivity.
Qed.
Example C26_example : Forall unit_ok [(true, [103; 1]); (false, [104; 0; 2]); (true, [101])] /\
  annexb [(true, [103; 1]); (false, [104; 0; 2]); (true, [101])] = [0;0;0;1;103;1;0;0;1;104;0;2;0;0;0;1;101] /\
  split_nalu [0;0;0;1;103;1;0;0;1;104;0;2;0;0;0;1;101] = Ok [[0;0;0;1;103;1]; [0;0;1;104;0;2]; [0;0;0;1;101]].
Proof. split; [nok|]. split; vm_compute; reflexivity. Qed.

(* ---------------------------------------------------------------------------------------- *)
(** ** C27 *)

(** The full statement is false: leading zero bytes of a unit are skipped, and an H.265 TRAIL_N slice begins
    with 00. *)
Theorem C27_annexb2avcc_refuted : exists l dst, l <> [] /\ Forall unit_ok l /\ zlen (avcc (map snd l)) <= zlen dst /\
  annexb2avcc dst (annexb l) <> Ok (avcc (map snd l) ++ skipn (length (avcc (map snd l))) dst, zlen (avcc (map snd l))).
Proof. exists [(true, [0; 1; 8])], (zeros 7). split; [congruence|]. split; [nok|]. split; [vm_compute; congruence|]. vm_compute. congruence. Qed.
Print Assumptions C27_annexb2avcc_refuted.

(** It is true for units whose header byte is not 0 (all H.264 units except the unspecified type 0). *)
Theorem C27_annexb2avcc_partial : forall l dst, l <> [] ->
  Forall (fun u => unit_ok u /\ hd 0 (snd u) <> 0 /\ zlen (snd u) < 2 ^ 32) l -> zlen (avcc (map snd l)) <= zlen dst ->
  annexb2avcc dst (annexb l) = Ok (avcc (map snd l) ++ skipn (length (avcc (map snd l))) dst, zlen (avcc (map snd l))).
Proof. exact annexb2avcc_units. Qed.
Print Assumptions C27_annexb2avcc_partial.
(** In general every unit loses exactly its leading zero bytes. *)
Theorem C27_annexb2avcc_exact : forall l dst, l <> [] ->
  Forall (fun u => unit_ok u /\ zlen (snd u) < 2 ^ 32) l -> zlen (avcc (map strip0 (map snd l))) <= zlen dst ->
  annexb2avcc dst (annexb l) = Ok (avcc (map strip0 (map snd l)) ++ skipn (length (avcc (map strip0 (map snd l)))) dst, zlen (avcc (map strip0 (map snd l)))).
Proof. exact annexb2avcc_any. Qed.
Print Assumptions C27_annexb2avcc_exact.
Example C27_example : annexb2avcc (zeros 20) (annexb [(true, [103; 1]); (false, [104; 0; 2]); (true, [101])]) =
  Ok ([0;0;0;2;103;1;0;0;0;3;104;0;2;0;0;0;1;101;0;0], 18).
Proof. vm_compute. reflexivity. Qed.

(* ---------------------------------------------------------------------------------------- *)
(** ** C28 *)
Theorem C28_annexb2avcc_wellformed : forall p dst, bytes_ok p -> zlen p < 2 ^ 32 -> zlen p + count_sc p <= zlen dst ->
  exists units, Forall avcc_unit_ok units /\ zlen (avcc units) <= zlen dst /\
    annexb2avcc dst p = Ok (avcc units ++ skipn (length (avcc units)) dst, zlen (avcc units)).
Proof. exact annexb2avcc_total. Qed.
Print Assumptions C28_annexb2avcc_wellformed.
(** Exactly, for all bytes and all buffers: the units found, stored as far as there is room. *)
Theorem C28_annexb2avcc_exact : forall p dst, bytes_ok p -> exists units, found_units p units /\
  annexb2avcc dst p = match stored (zlen dst) units with Some b => Ok (b ++ skipn (length b) dst, zlen (avcc units)) | None => Panic end.
Proof. exact annexb2avcc_all. Qed.
Print Assumptions C28_annexb2avcc_exact.
Theorem C28_found_units : forall p,
  (forall us1 us2, found_units p us1 -> found_units p us2 -> us1 = us2) /\
  (forall us, found_units p us -> Forall (fun u => u <> [] /\ hd 0 u <> 0) us) /\
  (forall l, Forall unit_ok l -> found_units (annexb l) (map strip0 (map snd l))).
Proof. intros p. split; [exact (found_unique p)|]. split; [exact (found_not_empty p)|exact found_annexb]. Qed.
Print Assumptions C28_found_units.
Example C28_exact_example : let p := [7;0;0;1;0;0;9;5;0;0;0;1;8;0;0;0] in found_units p [[9; 5]; [8; 0; 0; 0]] /\
  annexb2avcc (zeros 12) p = Ok ([0;0;0;2;9;5;0;0;0;4;8;0], 14) /\ annexb2avcc (zeros 9) p = Panic.
Proof.
  cbv zeta. split; [|split; vm_compute; reflexivity]. destruct (annexb2avcc_all [7;0;0;1;0;0;9;5;0;0;0;1;8;0;0;0] (zeros 14)) as (us & F & E); [repeat constructor; unfold byte_ok; lia|].
  right. exists 1. assert (F1 : forall q k, bytes_ok q -> find_start_code q = Ok (k + 3, sc_len_at q k) -> 0 <= k -> first_sc q k).
  { intros q k B Eq Hk. destruct (fsc_spec q B) as [(k' & F' & E')|[_ E']]; rewrite Eq in E'; injection E' as E1 E2; [|lia]. assert (k' = k) by lia. now subst k'. }
  split; [apply F1; [repeat constructor; unfold byte_ok; lia|vm_compute; reflexivity|lia]|].
  change (skipn _ _) with [0;0;9;5;0;0;0;1;8;0;0;0]. apply (St_next [0;0;9;5;0;0;0;1;8;0;0;0] 3).
  - apply F1; [cbn [strip0 Z.eqb]; repeat constructor; unfold byte_ok; lia|vm_compute; reflexivity|lia].
  - change (skipn _ _) with [8; 0; 0; 0]. apply (St_last [8; 0; 0; 0]); [cbn; congruence|]. intros k [(P & Q & R) L]. change (zlen _) with 4 in L. pose proof (idx_inv _ _ _ P). assert (k = 0) by lia. subst k. cbn in P. congruence.
Qed.
Example C28_example : count_sc [0;0;1;0;0;1;5;0;0;0;1;9;0;0;1] = 3 /\
  annexb2avcc (zeros 18) [0;0;1;0;0;1;5;0;0;0;1;9;0;0;1] = Ok ([0;0;0;2;1;5;0;0;0;4;9;0;0;1;0;0;0;0], 14).
Proof. split; vm_compute; reflexivity. Qed.

(* ---------------------------------------------------------------------------------------- *)
(** ** C29 *)
Theorem C29_avcc2annexb : forall units dst, Forall avcc_unit_ok units ->
  let R := annexb_norm (filter not_sei units) in
  zlen R <= zlen dst -> avcc2annexb dst (avcc units) [] = Ok (R ++ skipn (length R) dst, zlen R).
Proof.
  intros units dst F R L. pose proof (avcc2annexb_spec units [] dst [] F) as H. rewrite app_nil_r in H. apply H; [left; vm_compute; congruence|constructor| |exact L].
  symmetry. apply render_norm.
Qed.
Print Assumptions C29_avcc2annexb.
Example C29_example : avcc2annexb (zeros 20) (avcc [[103; 1]; [6; 9]; [101; 0]]) [] = Ok ([0;0;0;1;103;1;0;0;1;101;0;0;0;0;0;0;0;0;0;0], 11).
Proof. vm_compute. reflexivity. Qed.

(* ---------------------------------------------------------------------------------------- *)
(** ** C30 *)
Theorem C30_avcc2annexb_safe : forall p dst, bytes_ok p -> zlen p <= zlen dst ->
  exists out, zlen out <= zlen p /\ avcc2annexb dst p [] = Ok (out ++ skipn (length out) dst, zlen out).
Proof.
  intros p dst B L. destruct (avcc_dec p B) as (units & tail & -> & F & S). apply bytes_ok_app in B as [_ Bt].
  exists (render [] true (plan false (filter not_sei units))).
  pose proof (render_bound (filter not_sei units) true false) as H1. pose proof (avcc_filter not_sei units) as H2. rewrite zlen_app in L |- *. pose proof (zlen_nonneg tail).
  split; [lia|]. apply avcc2annexb_spec; auto. lia.
Qed.
Print Assumptions C30_avcc2annexb_safe.
(** What it writes: the units up to the first broken length. *)
Theorem C30_avcc2annexb_prefix : forall p dst, bytes_ok p -> zlen p <= zlen dst ->
  exists units tail, p = avcc units ++ tail /\ Forall avcc_unit_ok units /\ avcc_stop tail /\
  let R := annexb_norm (filter not_sei units) in avcc2annexb dst p [] = Ok (R ++ skipn (length R) dst, zlen R).
Proof.
  intros p dst B L. destruct (avcc_dec p B) as (units & tail & -> & F & S). apply bytes_ok_app in B as [_ Bt]. exists units, tail. repeat (split; [now auto|]).
  cbv zeta. rewrite <- (render_norm _ false).
  pose proof (render_bound (filter not_sei units) true false) as H1. pose proof (avcc_filter not_sei units) as H2. rewrite zlen_app in L. pose proof (zlen_nonneg tail).
  apply avcc2annexb_spec; auto. lia.
Qed.
Print Assumptions C30_avcc2annexb_prefix.
Example C30_example : avcc2annexb (zeros 13) [0;0;0;2;103;1;0;0;0;9;1;2;3] [] = Ok ([0;0;0;1;103;1;0;0;0;0;0;0;0], 6).
Proof. vm_compute. reflexivity. Qed.

(* ---------------------------------------------------------------------------------------- *)
(** ** C31 *)

Theorem C31_round_trip_refuted : exists n, nalu_ok n /\ not_sei n = true /\
  exists r k, annexb2avcc (zeros 20) (annexb [(true, n)]) = Ok (r, k) /\ firstn (Z.to_nat k) r <> avcc [n].
Proof. exists [0; 5]. split; [nok|]. split; [reflexivity|]. do 2 eexists. split; [vm_compute; reflexivity|]. vm_compute. congruence. Qed.
Print Assumptions C31_round_trip_refuted.

(** For units with a non-zero header byte: Annex-B -> AVCC -> Annex-B. *)
Theorem C31_annexb_avcc_annexb_partial : forall l dst1 dst2, l <> [] ->
  Forall (fun u => unit_ok u /\ hd 0 (snd u) <> 0 /\ zlen (snd u) < 2 ^ 32) l -> Forall (fun u => not_sei (snd u) = true) l ->
  zlen (avcc (map snd l)) <= zlen dst1 -> zlen (avcc (map snd l)) <= zlen dst2 ->
  exists d1 k1 d2 k2, annexb2avcc dst1 (annexb l) = Ok (d1, k1) /\ avcc2annexb dst2 (firstn (Z.to_nat k1) d1) [] = Ok (d2, k2) /\
    firstn (Z.to_nat k2) d2 = annexb_norm (map snd l).
Proof.
  intros l dst1 dst2 N F S L1 L2. rewrite (annexb2avcc_units l dst1 N F L1). do 2 eexists.
  assert (Ff : filter not_sei (map snd l) = map snd l).
  { clear -S. induction S as [|u l H S IH]; cbn [map filter]; [reflexivity|]. now rewrite H, IH. }
  assert (Hfst : forall A (a b : list A), firstn (Z.to_nat (zlen a)) (a ++ b) = a).
  { intros A a b. unfold zlen. rewrite Nat2Z.id, firstn_app, firstn_all, Nat.sub_diag. cbn. apply app_nil_r. }
  assert (Fu : Forall avcc_unit_ok (map snd l)).
  { clear -F. induction F as [|[four n] l ((B & Hn & _) & _ & Ln) F IH]; cbn [map snd] in *; constructor; [|exact IH]. split; [exact B|]. split; [|exact Ln].
    destruct n; [congruence|]. rewrite zlen_cons. pose proof (zlen_nonneg n). lia. }
  pose proof (C29_avcc2annexb (map snd l) dst2 Fu) as H. cbv zeta in H. rewrite Ff in H.
  pose proof (render_bound (map snd l) true false) as Rb. rewrite render_norm in Rb.
  do 2 eexists. split; [reflexivity|]. rewrite Hfst. split; [apply H; lia|]. apply Hfst.
Qed.
Print Assumptions C31_annexb_avcc_annexb_partial.

(** AVCC -> Annex-B -> AVCC. *)
Theorem C31_avcc_annexb_avcc_partial : forall l dst1 dst2, l <> [] ->
  Forall (fun n => nalu_ok n /\ hd 0 n <> 0 /\ zlen n < 2 ^ 32 /\ not_sei n = true) l ->
  zlen (avcc l) <= zlen dst1 -> zlen (avcc l) <= zlen dst2 ->
  exists d1 k1 d2 k2, avcc2annexb dst1 (avcc l) [] = Ok (d1, k1) /\ annexb2avcc dst2 (firstn (Z.to_nat k1) d1) = Ok (d2, k2) /\
    firstn (Z.to_nat k2) d2 = avcc l.
Proof.
  intros l dst1 dst2 N F L1 L2.
  assert (Ff : filter not_sei l = l).
  { clear -F. induction F as [|u l (_ & _ & _ & H) S IH]; cbn [filter]; [reflexivity|]. now rewrite H, IH. }
  assert (Hfst : forall A (a b : list A), firstn (Z.to_nat (zlen a)) (a ++ b) = a).
  { intros A a b. unfold zlen. rewrite Nat2Z.id, firstn_app, firstn_all, Nat.sub_diag. cbn. apply app_nil_r. }
  assert (Fu : Forall avcc_unit_ok l).
  { eapply Forall_impl; [|exact F]. intros n ((B & Hn & _) & _ & Ln & _). split; [exact B|]. split; [|exact Ln]. destruct n; [congruence|]. rewrite zlen_cons. pose proof (zlen_nonneg n). lia. }
  pose proof (C29_avcc2annexb l dst1 Fu) as H. cbv zeta in H. rewrite Ff in H. pose proof (render_bound l true false) as Rb. rewrite render_norm in Rb.
  do 4 eexists. split; [apply H; lia|]. rewrite Hfst. rewrite <- annexb_of_norm.
  split; [apply annexb2avcc_units|rewrite norm_snd; apply Hfst].
  - destruct l; [congruence|discriminate].
  - assert (G : forall b n, In n l -> a2a_unit (b, n)) by (intros b n Hn; rewrite Forall_forall in F; destruct (F n Hn) as (A & B & C & _); repeat split; auto; apply A).
    destruct l as [|n r]; [constructor|]. cbn [norm]. constructor; [apply G; now left|]. apply Forall_forall. intros u Hu. apply in_map_iff in Hu as (m & <- & Hm). apply G. now right.
  - now rewrite norm_snd.
Qed.
Print Assumptions C31_avcc_annexb_avcc_partial.

(** For all units: they lose their leading zero bytes in one direction and SEI units are dropped in the other. *)
Lemma firstn_zlen {A} (a b : list A) : firstn (Z.to_nat (zlen a)) (a ++ b) = a.
Proof. unfold zlen. rewrite Nat2Z.id, firstn_app, firstn_all, Nat.sub_diag. cbn. apply app_nil_r. Qed.
Lemma nalu_avcc n : nalu_ok n -> zlen n < 2 ^ 32 -> avcc_unit_ok n.
Proof. intros (B & Hn & _) Ln. split; [exact B|]. split; [|exact Ln]. destruct n; [congruence|]. rewrite zlen_cons. pose proof (zlen_nonneg n). lia. Qed.
Theorem C31_annexb_avcc_annexb_exact : forall l dst1 dst2, l <> [] ->
  Forall (fun u => unit_ok u /\ zlen (snd u) < 2 ^ 32) l ->
  let units := map strip0 (map snd l) in
  zlen (avcc units) <= zlen dst1 -> zlen (annexb_norm (filter not_sei units)) <= zlen dst2 ->
  exists d1 k1 d2 k2, annexb2avcc dst1 (annexb l) = Ok (d1, k1) /\ avcc2annexb dst2 (firstn (Z.to_nat k1) d1) [] = Ok (d2, k2) /\
    firstn (Z.to_nat k2) d2 = annexb_norm (filter not_sei units).
Proof.
  intros l dst1 dst2 N F units L1 L2. do 4 eexists. split; [apply annexb2avcc_any; auto|]. fold units. rewrite firstn_zlen. split; [apply C29_avcc2annexb|apply firstn_zlen]; [|exact L2].
  unfold units. rewrite map_map. apply Forall_forall. intros x Hx. apply in_map_iff in Hx as (u & <- & Hu). rewrite Forall_forall in F. destruct (F u Hu) as [U Lu].
  destruct (strip0_ok (snd u) U) as (A & _ & B). apply nalu_avcc; [exact A|lia].
Qed.
Print Assumptions C31_annexb_avcc_annexb_exact.
Theorem C31_avcc_annexb_avcc_exact : forall l dst1 dst2,
  Forall (fun n => nalu_ok n /\ zlen n < 2 ^ 32) l ->
  let units := filter not_sei l in
  zlen (annexb_norm units) <= zlen dst1 -> zlen (avcc (map strip0 units)) <= zlen dst2 ->
  exists d1 k1 d2 k2, avcc2annexb dst1 (avcc l) [] = Ok (d1, k1) /\ annexb2avcc dst2 (firstn (Z.to_nat k1) d1) = Ok (d2, k2) /\
    firstn (Z.to_nat k2) d2 = avcc (map strip0 units).
Proof.
  intros l dst1 dst2 F units L1 L2.
  assert (Fu : Forall (fun n => nalu_ok n /\ zlen n < 2 ^ 32) units) by (apply Forall_forall; intros n Hn; apply filter_In in Hn as [Hn _]; rewrite Forall_forall in F; auto).
  assert (Fa : Forall avcc_unit_ok l) by (eapply Forall_impl; [|exact F]; intros n [A B]; now apply nalu_avcc).
  pose proof (C29_avcc2annexb l dst1 Fa L1) as E1. fold units in E1.
  assert (D : units = [] \/ units <> []) by (destruct units; [now left|right; congruence]). destruct D as [Eu|Nu].
  { rewrite Eu in *. do 4 eexists. split; [exact E1|]. rewrite firstn_zlen. split; [vm_compute; reflexivity|reflexivity]. }
  do 4 eexists. split; [exact E1|]. rewrite firstn_zlen. rewrite <- annexb_of_norm. rewrite <- (norm_snd units) in L2.
  split; [apply annexb2avcc_any; [| |exact L2]|rewrite norm_snd; apply firstn_zlen].
  - clearbody units; destruct units; [congruence|discriminate].
  - apply Forall_forall. intros u Hu. rewrite Forall_forall in Fu. assert (In (snd u) units) as Hi by (rewrite <- (norm_snd units); now apply in_map). apply (Fu _ Hi).
Qed.
Print Assumptions C31_avcc_annexb_avcc_exact.
Example C31_exact_example : filter not_sei (map strip0 [[0; 0; 2; 9]; [103; 1]; [6; 5]; [0; 6; 1]]) = [[2; 9]; [103; 1]] /\
  annexb2avcc (zeros 30) (annexb [(true, [0; 0; 2; 9]); (false, [103; 1])]) = Ok (avcc [[2; 9]; [103; 1]] ++ zeros 18, 12).
Proof. split; vm_compute; reflexivity. Qed.
Example C31_example : exists d1 k1 d2 k2, annexb2avcc (zeros 30) (annexb [(false, [103; 1]); (true, [101; 0; 7])]) = Ok (d1, k1) /\
  avcc2annexb (zeros 30) (firstn (Z.to_nat k1) d1) [] = Ok (d2, k2) /\ firstn (Z.to_nat k2) d2 = [0;0;0;1;103;1;0;0;1;101;0;7].
Proof. do 4 eexists. repeat (split; [vm_compute; reflexivity|]). vm_compute. reflexivity. Qed.

(* ---------------------------------------------------------------------------------------- *)
(** ** C32 *)

(** Wanted: [plan_once].  An access unit with two IDR slices gets the extra data twice. *)
Theorem C32_extra_once_refuted : exists units extra dst, Forall avcc_unit_ok units /\ zlen (render extra true (plan_once false units)) + zlen extra <= zlen dst /\
  (exists d k, avcc2annexb dst (avcc units) extra = Ok (d, k) /\ firstn (Z.to_nat k) d <> render extra true (plan_once false (filter not_sei units))) /\
  (exists w, avc_mp4_to_annexb (bb_new dst) (avcc units) extra = Ok w /\ wr_written w <> Ok (render extra true (plan_once false units))).
Proof.
  exists [[101; 1]; [101; 2]], [0; 0; 0; 1; 103; 0; 0; 0; 1; 104], (zeros 40). split; [nok; (split; [nok; unfold byte_ok; lia|vm_compute; split; congruence])|].
  split; [vm_compute; congruence|]. split.
  - do 2 eexists. split; [vm_compute; reflexivity|]. vm_compute. congruence.
  - eexists. split; [vm_compute; reflexivity|]. vm_compute. congruence.
Qed.
Print Assumptions C32_extra_once_refuted.

(** What both functions do: the extra data goes before every IDR slice that has no SPS/PPS before it ... *)
Theorem C32_avcc2annexb_extra_partial : forall units dst extra, Forall avcc_unit_ok units ->
  let R := render extra true (plan false (filter not_sei units)) in
  zlen R <= zlen dst -> avcc2annexb dst (avcc units) extra = Ok (R ++ skipn (length R) dst, zlen R).
Proof.
  intros units dst extra F R L. pose proof (avcc2annexb_spec units [] dst extra F) as H. rewrite app_nil_r in H. apply H; [left; vm_compute; congruence|constructor|reflexivity|exact L].
Qed.
Print Assumptions C32_avcc2annexb_extra_partial.
(** ... which is exactly once, before the first IDR slice, when the access unit has one IDR slice. *)
Theorem C32_one_idr_partial : forall l, (idrs l <= 1)%nat -> plan false l = plan_once false l.
Proof. intros l H. now apply plan_once_ok. Qed.
Print Assumptions C32_one_idr_partial.
(** In general as many times as there are IDR slices (no SPS/PPS in the access unit), never after an SPS or PPS. *)
Theorem C32_count_partial : forall l, (forall n, In n l -> avc_nal_type n <> 7 /\ avc_nal_type n <> 8) -> extras (plan false l) = idrs l.
Proof. exact plan_counts. Qed.
Print Assumptions C32_count_partial.
Theorem C32_never_after_ps_partial : forall n l, avc_nal_type n = 7 \/ avc_nal_type n = 8 -> plan false (n :: l) = map CUnit (n :: l).
Proof.
  intros n l H. cbn [plan map orb]. replace ((avc_nal_type n =? 7) || (avc_nal_type n =? 8)) with true by lia. cbn [negb]. rewrite andb_false_r. cbn [app]. now rewrite plan_seen.
Qed.
Print Assumptions C32_never_after_ps_partial.
Example C32_example : idrs [[9]; [101; 1]; [65; 2]] = 1%nat /\
  avcc2annexb (zeros 30) (avcc [[9]; [101; 1]; [65; 2]]) [0;0;0;1;103;7] = Ok ([0;0;0;1;9;0;0;0;1;103;7;0;0;1;101;1;0;0;1;65;2;0;0;0;0;0;0;0;0;0], 21).
Proof. split; vm_compute; reflexivity. Qed.

(* ---------------------------------------------------------------------------------------- *)
(** ** C33 *)
(** A writer that already holds [out0] and has room for R. *)
Theorem C33_mp4_to_annexb : forall units out0 rest, Forall avcc_unit_ok units -> zlen (out0 ++ rest) < 2 ^ 63 ->
  forall extra, let R := render extra true (plan false units) in zlen R <= zlen rest ->
  avc_mp4_to_annexb (mkw out0 rest) (avcc units) extra = Ok (mkw (out0 ++ R) (skipn (length R) rest)).
Proof.
  intros units out0 rest F B extra R L. unfold avc_mp4_to_annexb.
  pose proof (mp4_loop_spec extra [] ltac:(left; vm_compute; congruence) ltac:(constructor) units (S (length (avcc units))) [] out0 rest false false 0 F) as H.
  cbn [app] in H. rewrite app_nil_r in H. apply H; [pose proof (avcc_length units); lia|exact B|lia|reflexivity|exact L].
Qed.
Print Assumptions C33_mp4_to_annexb.
(** Without extra data: every unit, 4-byte start code first, 3-byte ones after. *)
Theorem C33_mp4_every_unit : forall units out0 rest, Forall avcc_unit_ok units -> zlen (out0 ++ rest) < 2 ^ 63 ->
  let R := annexb_norm units in zlen R <= zlen rest ->
  avc_mp4_to_annexb (mkw out0 rest) (avcc units) [] = Ok (mkw (out0 ++ R) (skipn (length R) rest)).
Proof.
  intros units out0 rest F B R L. unfold R in *. rewrite <- (render_norm units false) in *. now apply C33_mp4_to_annexb.
Qed.
Print Assumptions C33_mp4_every_unit.
(** Arbitrary input, arbitrary writer: no panic, the writer stays consistent. *)
Theorem C33_mp4_never_panics : forall w data extra, bb_inv w -> bytes_ok data -> bytes_ok extra -> zlen data < 2 ^ 63 -> zlen extra < 2 ^ 63 ->
  exists w', avc_mp4_to_annexb w data extra = Ok w' /\ bb_inv w'.
Proof.
  intros w data extra I Bd Be Ld Le. unfold avc_mp4_to_annexb. apply mp4_total; auto; [lia|]. unfold zlen. lia.
Qed.
Print Assumptions C33_mp4_never_panics.
Example C33_example : (exists w, avc_mp4_to_annexb (bb_new (zeros 24)) (avcc [[6; 1]; [101; 2]]) [0;0;0;1;103] = Ok w /\
  wr_written w = Ok [0;0;0;1;6;1;0;0;0;1;103;0;0;1;101;2]) /\
  (* too small: errors ignored *)
  (exists w, avc_mp4_to_annexb (bb_new (zeros 3)) (avcc [[6; 1]; [101; 2]]) [] = Ok w /\ wr_written w = Ok [6; 1]).
Proof. split; (eexists; split; [vm_compute; reflexivity|]; vm_compute; reflexivity). Qed.

(* ---------------------------------------------------------------------------------------- *)
(** ** C34, C35 *)
Theorem C34_avc_key_frame : forall l, Forall unit_ok l ->
  avc_is_key_frame (annexb l) =
  Ok (match first_other avc_nal_type (fun t => (t =? 6) || (t =? 9) || (t =? 8) || (t =? 7)) (map snd l) with Some u => avc_nal_type u =? 5 | None => false end).
Proof. exact avc_key_units. Qed.
Print Assumptions C34_avc_key_frame.
Theorem C34_avc_key_frame_total : forall p, bytes_ok p -> exists b, avc_is_key_frame p = Ok b.
Proof. intros p B. apply avc_key_total; auto; [pose proof (zlen_nonneg p); lia|unfold zlen; lia]. Qed.
Print Assumptions C34_avc_key_frame_total.
Example C34_example : avc_is_key_frame (annexb [(true, [9; 16]); (false, [103; 1]); (false, [104; 2]); (true, [101; 3])]) = Ok true /\
  avc_is_key_frame (annexb [(true, [9; 16]); (true, [65; 3]); (false, [101; 3])]) = Ok false.
Proof. split; vm_compute; reflexivity. Qed.

Theorem C35_hevc_key_frame : forall l, Forall unit_ok l ->
  hevc_is_key_frame (annexb l) =
  Ok (match first_other hevc_nal_type (fun t => (t =? 33) || (t =? 34) || (t =? 32) || (t =? 39) || (t =? 40) || (t =? 35)) (map snd l)
      with Some u => (16 <=? hevc_nal_type u) && (hevc_nal_type u <=? 23) | None => false end).
Proof. exact hevc_key_units. Qed.
Print Assumptions C35_hevc_key_frame.
Theorem C35_hevc_key_frame_total : forall p, bytes_ok p -> exists b, hevc_is_key_frame p = Ok b.
Proof. intros p B. apply hevc_key_total; auto; [pose proof (zlen_nonneg p); lia|unfold zlen; lia]. Qed.
Print Assumptions C35_hevc_key_frame_total.
Example C35_example : hevc_is_key_frame (annexb [(true, [64; 1]); (false, [66; 1]); (false, [68; 1]); (true, [38; 1; 9])]) = Ok true /\
  hevc_is_key_frame (annexb [(true, [70; 1]); (true, [2; 1; 5]); (false, [38; 1])]) = Ok false.
Proof. split; vm_compute; reflexivity. Qed.

(* ---------------------------------------------------------------------------------------- *)
(** ** C36, C37, C38 *)
Definition with4 (o : option (list Z)) : option (list Z) := option_map (fun n => [0; 0; 0; 1] ++ n) o.

Theorem C36_avc_extra : forall l, l <> [] -> Forall unit_ok l ->
  avc_parse_extra_data (annexb l) =
  match with4 (last_of_type avc_nal_type 7 (map snd l)), with4 (last_of_type avc_nal_type 8 (map snd l)) with
  | Some s, Some p => Ok (s, p) | _, _ => Err end.
Proof.
  intros l N F. unfold avc_parse_extra_data. rewrite split_annexb by auto. cbn [bind]. rewrite avc_extra_units by auto. cbn [bind].
  change (found avc_nal_type H264NalSPS l) with (with4 (last_of_type avc_nal_type 7 (map snd l))).
  change (found avc_nal_type H264NalPPS l) with (with4 (last_of_type avc_nal_type 8 (map snd l))).
  destruct (with4 (last_of_type avc_nal_type 7 _)), (with4 (last_of_type avc_nal_type 8 _)); reflexivity.
Qed.
Print Assumptions C36_avc_extra.
Example C36_example : avc_parse_extra_data (annexb [(false, [103; 1]); (false, [104; 2]); (true, [103; 3]); (true, [101; 3])]) = Ok ([0;0;0;1;103;3], [0;0;0;1;104;2]) /\
  avc_parse_extra_data (annexb [(false, [103; 1]); (true, [101; 3])]) = Err.
Proof. split; vm_compute; reflexivity. Qed.

Theorem C37_hevc_extra : forall l, l <> [] -> Forall unit_ok l ->
  hevc_parse_extra_data (annexb l) =
  match with4 (last_of_type hevc_nal_type 32 (map snd l)), with4 (last_of_type hevc_nal_type 33 (map snd l)), with4 (last_of_type hevc_nal_type 34 (map snd l)) with
  | Some v, Some s, Some p => Ok (v, s, p) | _, _, _ => Err end.
Proof.
  intros l N F. unfold hevc_parse_extra_data. rewrite split_annexb by auto. cbn [bind]. rewrite hevc_extra_units by auto. cbn [bind].
  change (found hevc_nal_type HevcNalVPS l) with (with4 (last_of_type hevc_nal_type 32 (map snd l))).
  change (found hevc_nal_type HevcNalSPS l) with (with4 (last_of_type hevc_nal_type 33 (map snd l))).
  change (found hevc_nal_type HevcNalPPS l) with (with4 (last_of_type hevc_nal_type 34 (map snd l))).
  destruct (with4 (last_of_type hevc_nal_type 32 _)), (with4 (last_of_type hevc_nal_type 33 _)), (with4 (last_of_type hevc_nal_type 34 _)); reflexivity.
Qed.
Print Assumptions C37_hevc_extra.
Example C37_example : hevc_parse_extra_data (annexb [(true, [64; 1; 7]); (false, [66; 1; 8]); (false, [68; 1; 9]); (true, [38; 1; 9])]) =
  Ok ([0;0;0;1;64;1;7], [0;0;0;1;66;1;8], [0;0;0;1;68;1;9]).
Proof. vm_compute. reflexivity. Qed.

(** Two start codes in a row, or fewer than three bytes, panic. *)
Theorem C38_extra_never_panics_refuted :
  (exists p, bytes_ok p /\ avc_parse_extra_data p = Panic /\ hevc_parse_extra_data p = Panic /\ 3 <= zlen p) /\
  (forall p, zlen p < 3 -> avc_parse_extra_data p = Panic /\ hevc_parse_extra_data p = Panic).
Proof.
  split.
  - exists [0; 0; 1; 0; 0; 1; 101]. split; [nok; unfold byte_ok; lia|]. repeat split; vm_compute; congruence.
  - intros p L. unfold avc_parse_extra_data, hevc_parse_extra_data. rewrite C26_split_short by exact L. split; reflexivity.
Qed.
Print Assumptions C38_extra_never_panics_refuted.
Theorem C38_extra_no_panic_partial : forall data, bytes_ok data -> 4 <= zlen data -> no_empty_nal data ->
  ((exists r, avc_parse_extra_data data = Ok r) \/ avc_parse_extra_data data = Err) /\
  ((exists r, hevc_parse_extra_data data = Ok r) \/ hevc_parse_extra_data data = Err).
Proof.
  intros data B L N. destruct (split_good data N (S (length data)) [] data eq_refl B) as (xs & E & G); [left; auto|lia|].
  unfold avc_parse_extra_data, hevc_parse_extra_data, split_nalu. cbn [app] in E. change (zlen (@nil Z)) with 0 in E. rewrite E. cbn [bind].
  destruct (avc_extra_good xs G None None) as ([s p] & E1). destruct (hevc_extra_good xs G None None None) as ([[v s2] p2] & E2). rewrite E1, E2. cbn [bind].
  split; [destruct s, p; eauto|destruct v, s2, p2; eauto].
Qed.
Print Assumptions C38_extra_no_panic_partial.
(** Exactly when it panics. *)
Theorem C38_extra_panics_iff : forall data, bytes_ok data ->
  (avc_parse_extra_data data = Panic <-> zlen data < 3 \/ blank_unit data) /\
  (hevc_parse_extra_data data = Panic <-> zlen data < 3 \/ blank_unit data) /\
  avc_parse_extra_data data <> NoFuel /\ hevc_parse_extra_data data <> NoFuel.
Proof. exact extra_panics_iff. Qed.
Print Assumptions C38_extra_panics_iff.
Example C38_example_iff : blank_unit [7; 7; 7; 0; 0; 0; 1; 0; 0; 0; 1; 5] /\ avc_parse_extra_data [7; 7; 7; 0; 0; 0; 1; 0; 0; 0; 1; 5] = Panic /\
  avc_parse_extra_data [7; 7; 0; 0; 1; 0; 0; 1; 5] = Err /\ avc_parse_extra_data [7; 7; 7; 0; 0; 1; 0; 0; 1] = Err.
Proof. split; [right; right; exists [7; 7; 7; 0], true, 5, []; split; [vm_compute; congruence|reflexivity]|]. repeat split; vm_compute; reflexivity. Qed.
Example C38_example : avc_parse_extra_data [9; 9; 9; 9; 0; 0; 1; 103; 0; 0; 0; 0; 1; 104] = Ok ([0;0;0;1;103;0], [0;0;0;1;104]) /\
  avc_parse_extra_data [1; 2; 3; 4] = Err.
Proof. split; vm_compute; reflexivity. Qed.

(* ---------------------------------------------------------------------------------------- *)
(** ** C44 *)
Theorem C44_hevc_mp4_units : forall k units extra dst, (1 <= k <= 4)%nat -> Forall (lp_unit_ok k) units ->
  let R := with_extra extra units in
  zlen R <= zlen dst -> hevc_mp4_to_annexb dst (lp k units) extra (Z.of_nat k) = Ok (R ++ skipn (length R) dst, zlen R).
Proof.
  intros k units extra dst Hk F R L. unfold hevc_mp4_to_annexb.
  refine (hevc_mp4_units k extra Hk units _ [] [] dst false F _ R _ L).
  - enough (length units <= length (lp k units))%nat by lia. clear -F. induction F as [|n u (_ & Hn) F IH]; cbn [lp length]; [lia|]. rewrite !app_length.
    unfold zlen in Hn. lia.
  - symmetry. apply hout_with.
Qed.
Print Assumptions C44_hevc_mp4_units.
(** Reading of [with_extra]: the extra data once, before the first IRAP unit. *)
Theorem C44_extra_once : forall extra a n b, Forall (fun m => irap m = false) a -> irap n = true ->
  with_extra extra (a ++ n :: b) = annexb4 a ++ extra ++ annexb4 (n :: b).
Proof.
  intros extra a n b F I. unfold with_extra. assert (before_irap (a ++ n :: b) = (a, n :: b)) as ->; [|reflexivity].
  induction F as [|m a Hm F IH]; cbn [app before_irap]; [now rewrite I|]. now rewrite Hm, IH.
Qed.
Print Assumptions C44_extra_once.
Theorem C44_no_irap : forall extra a, Forall (fun m => irap m = false) a -> with_extra extra a = annexb4 a.
Proof.
  intros extra a F. unfold with_extra. assert (before_irap a = (a, [])) as ->; [|reflexivity].
  induction F as [|m a Hm F IH]; cbn [before_irap]; [reflexivity|]. now rewrite Hm, IH.
Qed.
Print Assumptions C44_no_irap.
(** Arbitrary data: an error, or a result, in which case the data was a complete sequence of units; never a panic. *)
Theorem C44_hevc_mp4_total : forall k data extra dst, (1 <= k <= 4)%nat -> bytes_ok data -> zlen extra + 2 * zlen data <= zlen dst ->
  hevc_mp4_to_annexb dst data extra (Z.of_nat k) = Err \/
  exists units, Forall (lp_unit_ok k) units /\ data = lp k units /\
    let R := with_extra extra units in hevc_mp4_to_annexb dst data extra (Z.of_nat k) = Ok (R ++ skipn (length R) dst, zlen R).
Proof.
  intros k data extra dst Hk B L. unfold hevc_mp4_to_annexb.
  destruct (hevc_mp4_total k extra Hk (S (length data)) [] data [] dst false B) as [E|(l & F & El & _ & E)]; [lia|exact L|now left|right].
  exists l. split; [exact F|]. split; [exact El|]. cbv zeta. rewrite <- hout_with. exact E.
Qed.
Print Assumptions C44_hevc_mp4_total.
Example C44_example : hevc_mp4_to_annexb (zeros 32) (lp 2 [[70; 1]; [38; 1; 9]; [40; 1]]) [7; 7] 2 =
  Ok ([0;0;0;1;70;1;7;7;0;0;0;1;38;1;9;0;0;0;1;40;1;0;0;0;0;0;0;0;0;0;0;0], 21) /\ hevc_mp4_to_annexb (zeros 30) [0; 5; 38; 1] [] 2 = Err.
Proof. split; vm_compute; reflexivity. Qed.

(* ---------------------------------------------------------------------------------------- *)
(** ** C75 *)
(** With a start code the loop runs for ever (no fuel is enough), without one it panics. *)
Theorem C75_parse_nal_units_never_returns : forall p, bytes_ok p ->
  (exists k, sc_at p k) /\ (forall f, parse_nal_units f p = NoFuel) \/
  (forall k, ~ sc_at p k) /\ (forall f, parse_nal_units (S f) p = Panic).
Proof. exact parse_nal_units_never. Qed.
Print Assumptions C75_parse_nal_units_never_returns.
Example C75_example : parse_nal_units 1000 [0; 0; 1; 101] = NoFuel /\ parse_nal_units 1000 [1; 2] = Panic.
Proof. split; vm_compute; reflexivity. Qed.

(* ---------------------------------------------------------------------------------------- *)
(** ** C78 *)
Theorem C78_start_code_reader : forall out rest, bytes_ok rest -> zlen (out ++ rest) < 2 ^ 63 ->
  ((forall k, ~ sc_at rest k) /\ find_start_code_with_reader (mkw out rest) = (mkw out rest, Ok (-1))) \/
  (exists a four h r, rest = a ++ sc four ++ h :: r /\ first_sc rest (zlen a + sc_len four - 3) /\
     find_start_code_with_reader (mkw out rest) = (mkw (out ++ a ++ sc four ++ [h]) r, Ok h)).
Proof.
  intros out rest B L. unfold find_start_code_with_reader.
  assert (R : bb_remaining (mkw out rest) = Ok rest) by (unfold bb_remaining, mkw; cbn [bb_data bb_offset]; now rewrite slice_from_app). rewrite R.
  destruct (fsc_dec rest B) as [[N E]|(a & four & c & r & Er & E)]; rewrite E; [left; split; [exact N|reflexivity]|right].
  exists a, four, c, r. split; [exact Er|]. pose proof (zlen_nonneg a) as Na. assert (3 <= sc_len four) as Hs by (destruct four; cbn; lia). split.
  { destruct (fsc_spec rest B) as [(k & F & E2)|[_ E2]]; rewrite E2 in E; injection E as E3 E4; [|lia]. now replace (zlen a + sc_len four - 3) with k by lia. }
  replace (zlen a + sc_len four <? 0) with false by lia.
  assert (Lr : zlen rest = zlen a + sc_len four + 1 + zlen r) by (rewrite Er, !zlen_app, zlen_sc, zlen_cons; lia). pose proof (zlen_nonneg r) as Nr. pose proof (zlen_nonneg out) as No.
  f_equal.
  - unfold bb_seek, peekN, mkw. cbn [bb_offset bb_length bb_data]. rewrite zlen_app in L. rewrite i64_id by (unfold is_i64; lia). rewrite zlen_app.
    replace ((_ <? _) || _) with false by lia. cbn [fst]. unfold bb_set_offset. cbn [bb_data bb_length].
    assert (Eo : out ++ rest = (out ++ a ++ sc four ++ [c]) ++ r) by (rewrite Er, <- !app_assoc; reflexivity). f_equal; [exact Eo|now rewrite <- Eo, zlen_app|].
    rewrite !zlen_app, zlen_sc. change (zlen [c]) with 1. lia.
  - rewrite Er, app_assoc. replace (zlen a + sc_len four) with (zlen (a ++ sc four)) by (now rewrite zlen_app, zlen_sc). now rewrite idx_app_mid.
Qed.
Print Assumptions C78_start_code_reader.
Example C78_example : find_start_code_with_reader (bb_new [9; 0; 0; 1; 103; 5]) = (bb_set_offset (bb_new [9; 0; 0; 1; 103; 5]) 5, Ok 103).
Proof. vm_compute. reflexivity. Qed.

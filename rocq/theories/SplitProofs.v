(** * SplitProofs: SplitNalU, RemoveStartCode and the extraction of parameter sets. *)
From Verif Require Import Base BufioModel RingProofs NaluModel NaluSpec NaluProofs.

Definition starts_sc (x : list Z) : Prop := exists four m, x = sc four ++ m.

Lemma idx_app_mid {A} (a : list A) x b : idx (a ++ x :: b) (zlen a) = Some x.
Proof. rewrite idx_app_r, Z.sub_diag by lia. apply idx_cons_0. Qed.

Lemma split_at {A} (p : list A) k : 0 <= k <= zlen p -> exists a b, p = a ++ b /\ zlen a = k.
Proof.
  intros H. exists (firstn (Z.to_nat k) p), (skipn (Z.to_nat k) p). split; [symmetry; apply firstn_skipn|]. now apply zlen_firstn.
Qed.

Lemma idx_hd {A} (b : list A) x a : idx (a ++ b) (zlen a) = Some x -> exists t, b = x :: t.
Proof.
  intros E. rewrite idx_app_r, Z.sub_diag in E by lia. destruct b as [|y t]; [discriminate|]. rewrite idx_cons_0 in E. injection E as ->. eauto.
Qed.

Lemma pat_split p k : sc_at p k -> exists a c r, p = a ++ 0 :: 0 :: 1 :: c :: r /\ zlen a = k.
Proof.
  intros [(P0 & P1 & P2) L]. pose proof (idx_inv _ _ _ P0) as R. destruct (split_at p k) as (a & b & -> & Ha); [lia|].
  subst k. destruct (idx_hd _ _ _ P0) as (t & ->). exists a.
  assert (E : a ++ 0 :: t = (a ++ [0]) ++ t) by now rewrite <- app_assoc. rewrite E in P1, P2, L |- *.
  assert (zlen (a ++ [0]) = zlen a + 1) as L1 by now rewrite zlen_app. rewrite <- L1 in P1. destruct (idx_hd _ _ _ P1) as (t2 & ->).
  assert (E2 : (a ++ [0]) ++ 0 :: t2 = (a ++ [0; 0]) ++ t2) by now rewrite <- !app_assoc. rewrite E2 in *.
  assert (zlen (a ++ [0; 0]) = zlen a + 2) as L2 by now rewrite zlen_app. rewrite <- L2 in P2. destruct (idx_hd _ _ _ P2) as (t3 & ->).
  assert (E3 : (a ++ [0; 0]) ++ 1 :: t3 = (a ++ [0; 0; 1]) ++ t3) by now rewrite <- !app_assoc. rewrite E3 in *.
  rewrite zlen_app in L. assert (zlen (a ++ [0; 0; 1]) = zlen a + 3) as L3 by now rewrite zlen_app. rewrite L3 in L.
  destruct t3 as [|c r]; [change (zlen []) with 0 in L; lia|]. exists c, r. now rewrite <- app_assoc.
Qed.

(** The position found, as a decomposition of the data. *)
Lemma fsc_dec q : bytes_ok q ->
  ((forall k, ~ sc_at q k) /\ find_start_code q = Ok (-1, -1)) \/
  (exists a four c r, q = a ++ sc four ++ c :: r /\ find_start_code q = Ok (zlen a + sc_len four, sc_len four)).
Proof.
  intros B. destruct (fsc_spec q B) as [(k & [S _] & E)|[N E]]; rewrite E; [right|left; auto].
  destruct (pat_split q k S) as (a & c & r & -> & <-). clear E. pose proof (zlen_nonneg a).
  unfold sc_len_at. destruct (idx (a ++ 0 :: 0 :: 1 :: c :: r) (zlen a - 1)) as [b|] eqn:X.
  - pose proof (idx_inv _ _ _ X) as R. destruct a as [|a0 a1] eqn:Ea using rev_ind; [change (zlen []) with 0 in R; lia|]. clear IHa1.
    destruct (Z.eq_dec b 0) as [->|Nb].
    + assert (a0 = 0) as ->.
      { rewrite zlen_app in X. change (zlen [a0]) with 1 in X. replace (zlen a1 + 1 - 1) with (zlen a1) in X by lia. rewrite <- app_assoc in X.
        cbn [app] in X. rewrite idx_app_mid in X. now injection X. }
      exists a1, true, c, r. split; [now rewrite <- app_assoc|]. rewrite zlen_app. change (zlen [0]) with 1. cbn [sc_len]. do 2 f_equal. lia.
    + exists (a1 ++ [a0]), false, c, r. split; [reflexivity|]. destruct b; [congruence| |]; reflexivity.
  - exists a, false, c, r. split; reflexivity.
Qed.

Lemma fsc2_spec q : bytes_ok q ->
  (find_start_code2 q = Ok (-1)) \/ (exists a four c r, q = a ++ sc four ++ c :: r /\ find_start_code2 q = Ok (zlen a)).
Proof.
  intros B. unfold find_start_code2. destruct (fsc_dec q B) as [[_ E]|(a & four & c & r & Eq & E)]; rewrite E; cbn [bind]; [left; reflexivity|right].
  exists a, four, c, r. split; [exact Eq|]. pose proof (zlen_nonneg a). replace (zlen a + sc_len four <? 0) with false by (destruct four; cbn [sc_len]; lia).
  f_equal. lia.
Qed.

Lemma three {A} (d : list A) : 3 <= zlen d -> exists x y z t, d = x :: y :: z :: t.
Proof. unfold zlen. destruct d as [|x [|y [|z t]]]; cbn [length]; try lia. intros _. eauto. Qed.

Lemma bytes_app_r a b : bytes_ok (a ++ b) -> bytes_ok b.
Proof. intros H. now apply bytes_ok_app in H. Qed.

(** One step of the loop on data = pre ++ d. *)
Lemma split_step f pre d : bytes_ok d -> 3 <= zlen d ->
  (split_nalu_loop (S f) (pre ++ d) (zlen pre) = Ok [d]) \/
  (exists x four c r, d = x ++ sc four ++ c :: r /\ 3 <= zlen x /\ (starts_sc d -> starts_sc x) /\
     split_nalu_loop (S f) (pre ++ d) (zlen pre) =
       (rest <- split_nalu_loop f ((pre ++ x) ++ sc four ++ c :: r) (zlen (pre ++ x));; Ok (x :: rest))).
Proof.
  intros B L. destruct (three d L) as (x0 & x1 & x2 & t & ->).
  assert (E : pre ++ x0 :: x1 :: x2 :: t = (pre ++ [x0; x1; x2]) ++ t) by now rewrite <- app_assoc.
  assert (zlen (pre ++ [x0; x1; x2]) = zlen pre + 3) as L3 by now rewrite zlen_app.
  assert (Q : split_nalu_loop (S f) (pre ++ x0 :: x1 :: x2 :: t) (zlen pre) = (
    n <- find_start_code2 t;;
    if n >? -1 then
      let n := n + 3 in
      piece <- of_opt (slice (pre ++ x0 :: x1 :: x2 :: t) (zlen pre) (zlen pre + n));;
      rest <- split_nalu_loop f (pre ++ x0 :: x1 :: x2 :: t) (zlen pre + n);;
      Ok (piece :: rest)
    else
      piece <- of_opt (slice_from (pre ++ x0 :: x1 :: x2 :: t) (zlen pre));;
      Ok [piece])).
  { cbn [split_nalu_loop]. rewrite E at 1. rewrite <- L3, slice_from_app. reflexivity. }
  rewrite Q. clear Q.
  assert (bytes_ok t) as Bt by (apply (bytes_app_r [x0; x1; x2]); exact B).
  destruct (fsc2_spec t Bt) as [F|(a & four & c & r & -> & F)]; rewrite F; cbn [bind].
  - left. replace (-1 >? -1) with false by reflexivity. rewrite slice_from_app. reflexivity.
  - right. exists ([x0; x1; x2] ++ a), four, c, r. pose proof (zlen_nonneg a) as Ha. replace (zlen a >? -1) with true by lia.
    split; [now rewrite <- app_assoc|]. split; [rewrite zlen_app; change (zlen [x0; x1; x2]) with 3; lia|]. split.
    + intros (f0 & m & S). destruct f0; cbn [sc app] in S.
      * injection S as -> -> -> S. destruct a as [|y a].
        -- destruct four; cbn [sc app] in S; discriminate.
        -- cbn [app] in S. injection S as -> _. exists true, a. reflexivity.
      * injection S as -> -> -> _. exists false, a. reflexivity.
    + cbv zeta. replace (pre ++ x0 :: x1 :: x2 :: a ++ sc four ++ c :: r) with (pre ++ ([x0; x1; x2] ++ a) ++ sc four ++ c :: r) by (rewrite <- !app_assoc; reflexivity).
      assert (zlen ([x0; x1; x2] ++ a) = zlen a + 3) as L4 by (rewrite zlen_app; change (zlen [x0; x1; x2]) with 3; lia).
      rewrite <- L4, slice_app_mid. cbn [of_opt bind]. rewrite app_assoc, (zlen_app pre). reflexivity.
Qed.

Lemma sc_app_len four (c : Z) r : 3 < zlen (sc four ++ c :: r).
Proof. rewrite zlen_app, zlen_sc, zlen_cons. pose proof (zlen_nonneg r). destruct four; cbn [sc_len]; lia. Qed.

(** Arbitrary data: nothing is lost and the pieces begin at start codes. *)
Lemma split_total : forall f pre d, bytes_ok d -> 3 <= zlen d -> (length d < f)%nat ->
  exists x xs, split_nalu_loop f (pre ++ d) (zlen pre) = Ok (x :: xs) /\ concat (x :: xs) = d /\
    (starts_sc d -> starts_sc x) /\ Forall starts_sc xs.
Proof.
  induction f as [|f IH]; intros pre d B L Hf; [lia|].
  destruct (split_step f pre d B L) as [E|(x & four & c & r & -> & Lx & Sx & E)]; rewrite E.
  - exists d, []. cbn [concat]. rewrite app_nil_r. auto.
  - destruct (IH (pre ++ x) (sc four ++ c :: r)) as (y & ys & E2 & C & S1 & S2).
    + now apply bytes_app_r in B.
    + pose proof (sc_app_len four c r). lia.
    + rewrite app_length in Hf. unfold zlen in Lx. lia.
    + rewrite E2. cbn [bind]. exists x, (y :: ys). split; [reflexivity|]. split; [cbn [concat] in *; now rewrite C|]. split; [exact Sx|].
      constructor; [apply S1; exists four, (c :: r); reflexivity|exact S2].
Qed.

(* ---------------------------------------------------------------------------------------- *)
(** ** Well-formed units *)

Definition piece (u : bool * list Z) : list Z := sc (fst u) ++ snd u.

Lemma split_units l : forall f pre four n, Forall unit_ok ((four, n) :: l) -> (length l < f)%nat ->
  split_nalu_loop f (pre ++ annexb ((four, n) :: l)) (zlen pre) = Ok (map piece ((four, n) :: l)).
Proof.
  induction l as [|[g m] l IH]; intros f pre four n F Hf; (destruct f as [|f]; [cbn in Hf; lia|]); cbn [split_nalu_loop].
  - cbn [annexb map piece fst snd]. inversion F as [|? ? H F']; subst. cbn [snd] in H. rewrite app_nil_r.
    set (n' := if four then 1 :: n else n).
    assert (E : sc four ++ n = (if four then [0; 0; 0] else [0; 0; 1]) ++ n') by (unfold n'; destruct four; reflexivity).
    assert (C : clean n') by (unfold n'; destruct four; [apply clean_cons; [unfold byte_ok; lia|lia|]|]; now apply nalu_clean).
    rewrite E at 1. rewrite app_assoc. assert (zlen (pre ++ (if four then [0; 0; 0] else [0; 0; 1])) = zlen pre + 3) as <- by (rewrite zlen_app; destruct four; reflexivity).
    rewrite slice_from_app. cbn [of_opt bind]. unfold find_start_code2. rewrite (fsc_none _ C). cbn [bind].
    replace (-1 <? 0) with true by reflexivity. cbn [bind]. replace (-1 >? -1) with false by reflexivity. rewrite slice_from_app. reflexivity.
  - inversion F as [|? ? H F']; subst. cbn [snd] in H. set (n' := if four then 1 :: n else n).
    assert (E : sc four ++ n = (if four then [0; 0; 0] else [0; 0; 1]) ++ n') by (unfold n'; destruct four; reflexivity).
    assert (C : clean n') by (unfold n'; destruct four; [apply clean_cons; [unfold byte_ok; lia|lia|]|]; now apply nalu_clean).
    assert (Lp : zlen (sc four ++ n) = zlen n' + 3) by (rewrite E, zlen_app; destruct four; change (zlen _) with 3 at 1; lia).
    set (rest := annexb ((g, m) :: l)).
    assert (Ea : annexb ((four, n) :: (g, m) :: l) = (sc four ++ n) ++ rest) by (cbn [annexb]; unfold rest; now rewrite <- app_assoc).
    rewrite Ea. replace (pre ++ (sc four ++ n) ++ rest) with ((pre ++ (if four then [0; 0; 0] else [0; 0; 1])) ++ n' ++ rest) at 1 by (rewrite E, <- !app_assoc; reflexivity).
    assert (zlen (pre ++ (if four then [0; 0; 0] else [0; 0; 1])) = zlen pre + 3) as <- by (rewrite zlen_app; destruct four; reflexivity).
    rewrite slice_from_app. cbn [of_opt bind]. unfold find_start_code2, rest. rewrite (fsc_units n' _ C F'). fold rest. cbn [bind].
    pose proof (zlen_nonneg n'). replace (zlen n' + sc_len g <? 0) with false by (destruct g; cbn [sc_len]; lia). cbn [bind].
    replace (zlen n' + sc_len g - sc_len g) with (zlen n') by lia. replace (zlen n' >? -1) with true by lia. cbv zeta.
    rewrite <- Lp, slice_app_mid. cbn [of_opt bind]. rewrite app_assoc. rewrite <- zlen_app. unfold rest. rewrite IH by (auto; cbn in Hf; lia). reflexivity.
Qed.

Lemma split_annexb l : l <> [] -> Forall unit_ok l -> split_nalu (annexb l) = Ok (map piece l).
Proof.
  intros N F. destruct l as [|[four n] l]; [congruence|]. unfold split_nalu. apply (split_units l _ [] four n F).
  pose proof (annexb_length ((four, n) :: l)). cbn [length] in *. lia.
Qed.

(* ---------------------------------------------------------------------------------------- *)
(** ** RemoveStartCode and extraction *)

Lemma remove_sc four n : remove_start_code (sc four ++ n) = Ok n.
Proof.
  unfold remove_start_code. destruct four; cbn [sc app].
  - rewrite idx_cons_0. cbn [of_opt bind Z.eqb negb]. change (idx (0 :: 0 :: 0 :: 1 :: n) 1) with (Some 0). change (idx (0 :: 0 :: 0 :: 1 :: n) 2) with (Some 0).
    change (idx (0 :: 0 :: 0 :: 1 :: n) 3) with (Some 1). cbn [of_opt bind Z.eqb negb]. apply (f_equal of_opt (slice_from_app [0; 0; 0; 1] n)).
  - rewrite idx_cons_0. cbn [of_opt bind Z.eqb negb]. change (idx (0 :: 0 :: 1 :: n) 1) with (Some 0). change (idx (0 :: 0 :: 1 :: n) 2) with (Some 1).
    cbn [of_opt bind Z.eqb negb Pos.eqb]. apply (f_equal of_opt (slice_from_app [0; 0; 1] n)).
Qed.

Lemma with_start_code_ok n : with_start_code n = Ok (sc true ++ n).
Proof.
  unfold with_start_code, be_put. pose proof (zlen_nonneg n). assert (zlen (zeros (Z.to_nat (4 + zlen n))) = 4 + zlen n) as Lz by (unfold zlen in *; rewrite zeros_length; lia).
  rewrite Lz. replace (4 + zlen n <? Z.of_nat 4) with false by lia. change (be_bytes 4 1) with [0; 0; 0; 1].
  rewrite copy_at_fits by (rewrite ?Lz; change (zlen [0; 0; 0; 1]) with 4; lia). cbn [of_opt bind Z.to_nat firstn app].
  set (z := skipn _ _). assert (zlen z = zlen n) as Ez. { unfold z. rewrite zlen_skipn; change (zlen [0; 0; 0; 1]) with 4; lia. }
  replace (0 :: 0 :: 0 :: 1 :: z) with ([0; 0; 0; 1] ++ z ++ []) by now rewrite app_nil_r.
  change 4 with (zlen [0; 0; 0; 1]). rewrite copy_at_app by (unfold zlen in Ez; lia). cbn [of_opt]. now rewrite app_nil_r.
Qed.

Lemma hd_idx (n : list Z) : n <> [] -> idx n 0 = Some (hd 0 n).
Proof. destruct n; [congruence|reflexivity]. Qed.
Lemma nalu_hd n : nalu_ok n -> n <> [] /\ byte_ok (hd 0 n).
Proof. intros (B & N & _). split; [exact N|]. destruct n; [congruence|]. now inversion B. Qed.

(** what the extraction has found after a list of units *)
Definition found (type : list Z -> Z) (t : Z) (l : list (bool * list Z)) : option (list Z) :=
  option_map (fun n => sc true ++ n) (last_of_type type t (map snd l)).
Definition or_else {A} (a b : option A) : option A := match a with Some _ => a | None => b end.

Lemma find_snoc {A} (f : A -> bool) (l : list A) x : find f (l ++ [x]) = match find f l with Some y => Some y | None => if f x then Some x else None end.
Proof. induction l as [|y l IH]; cbn; [reflexivity|]. destruct (f y); [reflexivity|exact IH]. Qed.

Lemma found_cons type t four n l : found type t ((four, n) :: l) =
  or_else (found type t l) (if type n =? t then Some (sc true ++ n) else None).
Proof.
  unfold found, last_of_type. cbn [map snd rev]. rewrite find_snoc. destruct (find _ (rev (map snd l))); cbn [option_map or_else]; [reflexivity|].
  destruct (type n =? t); reflexivity.
Qed.

Lemma avc_extra_units l : forall sps pps, Forall unit_ok l ->
  avc_extra_loop (map piece l) sps pps =
  Ok (or_else (found avc_nal_type H264NalSPS l) sps, or_else (found avc_nal_type H264NalPPS l) pps).
Proof.
  induction l as [|[four n] l IH]; intros sps pps F; cbn [map avc_extra_loop]; [reflexivity|].
  inversion F as [|? ? H F']; subst. destruct (nalu_hd n H) as [N B]. unfold piece at 1. cbn [fst snd]. rewrite remove_sc. cbn [bind]. rewrite hd_idx by auto. cbn [of_opt bind].
  rewrite land31 by auto. fold (avc_nal_type n). rewrite !found_cons. cbv zeta. rewrite with_start_code_ok. cbn [bind].
  destruct (avc_nal_type n =? H264NalSPS) eqn:E1.
  - rewrite IH by auto. replace (avc_nal_type n =? H264NalPPS) with false by (unfold H264NalSPS, H264NalPPS in *; lia).
    destruct (found avc_nal_type H264NalSPS l), (found avc_nal_type H264NalPPS l); reflexivity.
  - destruct (avc_nal_type n =? H264NalPPS); rewrite IH by auto; destruct (found avc_nal_type H264NalSPS l), (found avc_nal_type H264NalPPS l); reflexivity.
Qed.

Lemma hevc_extra_units l : forall vps sps pps, Forall unit_ok l ->
  hevc_extra_loop (map piece l) vps sps pps =
  Ok (or_else (found hevc_nal_type HevcNalVPS l) vps, or_else (found hevc_nal_type HevcNalSPS l) sps, or_else (found hevc_nal_type HevcNalPPS l) pps).
Proof.
  induction l as [|[four n] l IH]; intros vps sps pps F; cbn [map hevc_extra_loop]; [reflexivity|].
  inversion F as [|? ? H F']; subst. destruct (nalu_hd n H) as [N B]. unfold piece at 1. cbn [fst snd]. rewrite remove_sc. cbn [bind]. rewrite hd_idx by auto. cbn [of_opt bind].
  rewrite hevc_type_mod by auto. fold (hevc_nal_type n). rewrite !found_cons. cbv zeta. rewrite with_start_code_ok. cbn [bind].
  destruct (hevc_nal_type n =? HevcNalVPS) eqn:E1; [|destruct (hevc_nal_type n =? HevcNalSPS) eqn:E2; [|destruct (hevc_nal_type n =? HevcNalPPS) eqn:E3]];
  rewrite IH by auto; unfold HevcNalVPS, HevcNalSPS, HevcNalPPS in *;
  repeat match goal with |- context [if ?a =? ?b then _ else _] => replace (a =? b) with false by lia end;
  destruct (found hevc_nal_type 32 l), (found hevc_nal_type 33 l), (found hevc_nal_type 34 l); reflexivity.
Qed.

(** *** Arbitrary data: when extraction cannot panic *)
Definition good_piece (x : list Z) : Prop := exists y ys, remove_start_code x = Ok (y :: ys).

Lemma remove_good x : 3 <= zlen x -> x <> [0; 0; 0] -> x <> sc false -> x <> sc true -> good_piece x.
Proof.
  intros L H1 H2 H3. destruct (three x L) as (a & b & c & t & ->). unfold good_piece, remove_start_code. rewrite idx_cons_0. cbn [of_opt bind].
  destruct (a =? 0) eqn:A; cbn [negb]; [|eauto]. change (idx (a :: b :: c :: t) 1) with (Some b). cbn [of_opt bind].
  destruct (b =? 0) eqn:Bq; cbn [negb]; [|eauto]. change (idx (a :: b :: c :: t) 2) with (Some c). cbn [of_opt bind].
  assert (a = 0) as -> by lia. assert (b = 0) as -> by lia.
  destruct (c =? 1) eqn:C1.
  - assert (c = 1) as -> by lia. change (0 :: 0 :: 1 :: t) with ([0; 0; 1] ++ t). change 3 with (zlen [0; 0; 1]). rewrite slice_from_app. cbn [of_opt].
    destruct t as [|y ys]; [now destruct H2|eauto].
  - destruct (c =? 0) eqn:C0; [|eauto]. assert (c = 0) as -> by lia. destruct t as [|y ys]; [now destruct H1|].
    change (idx (0 :: 0 :: 0 :: y :: ys) 3) with (Some y). cbn [of_opt bind]. destruct (y =? 1) eqn:Y1; [|eauto].
    assert (y = 1) as -> by lia. change (0 :: 0 :: 0 :: 1 :: ys) with ([0; 0; 0; 1] ++ ys). change 4 with (zlen [0; 0; 0; 1]). rewrite slice_from_app. cbn [of_opt].
    destruct ys as [|z zs]; [now destruct H3|eauto].
Qed.

(** An empty NAL unit somewhere: a start code directly followed by another one. *)
Definition no_empty_nal (data : list Z) : Prop :=
  data <> sc true /\ (forall a four r, data <> a ++ sc false ++ sc four ++ r) /\ (forall four r, data <> [0; 0; 0] ++ sc four ++ r).

Lemma split_good data : no_empty_nal data -> forall f pre d, data = pre ++ d -> bytes_ok d -> (pre = [] /\ 4 <= zlen d \/ exists four c r, d = sc four ++ c :: r) ->
  (length d < f)%nat ->
  exists xs, split_nalu_loop f (pre ++ d) (zlen pre) = Ok xs /\ Forall good_piece xs.
Proof.
  intros (N1 & N2 & N3). induction f as [|f IH]; intros pre d Ed B S Hf; [lia|].
  assert (L : 3 <= zlen d). { destruct S as [[_ L]|(four & c & r & ->)]; [lia|]. pose proof (sc_app_len four c r). lia. }
  destruct (split_step f pre d B L) as [E|(x & four & c & r & Edx & Lx & Sx & E)]; rewrite E.
  - exists [d]. split; [reflexivity|]. constructor; [|constructor]. destruct S as [[-> L4]|(four & c & r & ->)].
    + apply remove_good; auto; try (intros ->; cbn in L4; unfold zlen in L4; cbn in L4; lia). intros ->. now apply N1.
    + unfold good_piece. rewrite remove_sc. eauto.
  - subst d. destruct (IH (pre ++ x) (sc four ++ c :: r)) as (xs & E2 & G).
    + rewrite <- app_assoc. exact Ed.
    + now apply bytes_app_r in B.
    + right. eauto.
    + rewrite app_length in Hf. unfold zlen in Lx. lia.
    + rewrite E2. cbn [bind]. exists (x :: xs). split; [reflexivity|]. constructor; [|exact G]. apply remove_good; auto.
      * intros ->. destruct S as [[-> _]|(g & c' & r' & S)].
        -- apply (N3 four (c :: r)). exact Ed.
        -- destruct Sx as (h & m & Q); [exists g, (c' :: r'); exact S|]. destruct h; cbn [sc app] in Q; discriminate.
      * intros ->. apply (N2 pre four (c :: r)). exact Ed.
      * intros ->. apply (N2 (pre ++ [0]) four (c :: r)). rewrite <- app_assoc. exact Ed.
Qed.

Lemma avc_extra_good xs : Forall good_piece xs -> forall s p, exists r, avc_extra_loop xs s p = Ok r.
Proof.
  induction 1 as [|x xs (y & ys & E) F IH]; intros s p; cbn [avc_extra_loop]; [eauto|]. rewrite E. cbn [bind]. rewrite idx_cons_0. cbn [of_opt bind]. cbv zeta.
  rewrite with_start_code_ok. cbn [bind]. repeat match goal with |- context [if ?c then _ else _] => destruct c end; apply IH.
Qed.
Lemma hevc_extra_good xs : Forall good_piece xs -> forall v s p, exists r, hevc_extra_loop xs v s p = Ok r.
Proof.
  induction 1 as [|x xs (y & ys & E) F IH]; intros v s p; cbn [hevc_extra_loop]; [eauto|]. rewrite E. cbn [bind]. rewrite idx_cons_0. cbn [of_opt bind]. cbv zeta.
  rewrite with_start_code_ok. cbn [bind]. repeat match goal with |- context [if ?c then _ else _] => destruct c end; apply IH.
Qed.

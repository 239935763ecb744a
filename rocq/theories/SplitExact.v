(** * SplitExact: where SplitNalU cuts arbitrary data, and exactly when the extraction of parameter sets panics. *)
From Verif Require Import Base BufioModel RingProofs NaluModel NaluSpec NaluProofs SplitProofs.

Lemma sc_at_shift a b k : sc_at (a ++ b) (zlen a + k) /\ 0 <= k <-> sc_at b k.
Proof.
  unfold sc_at, pat. rewrite zlen_app. split.
  - intros [[(P0 & P1 & P2) L] K]. rewrite idx_app_r in P0, P1, P2 by lia.
    replace (zlen a + k - zlen a) with k in P0 by lia. replace (zlen a + k + 1 - zlen a) with (k + 1) in P1 by lia. replace (zlen a + k + 2 - zlen a) with (k + 2) in P2 by lia.
    repeat split; auto; lia.
  - intros [(P0 & P1 & P2) L]. pose proof (idx_inv _ _ _ P0). rewrite !idx_app_r by lia.
    replace (zlen a + k - zlen a) with k by lia. replace (zlen a + k + 1 - zlen a) with (k + 1) by lia. replace (zlen a + k + 2 - zlen a) with (k + 2) by lia.
    repeat split; auto; lia.
Qed.

Lemma sc_at_sc four c r k : sc_at (sc four ++ c :: r) k -> sc_len four - 3 < k -> sc_len four <= k.
Proof.
  intros [(P0 & P1 & P2) _] L. destruct (Z.lt_ge_cases k (sc_len four)) as [H|H]; [exfalso|exact H].
  destruct four; cbn [sc_len sc app] in *.
  - assert (k = 2 \/ k = 3) as [-> | ->] by lia; [change (Some 1 = Some 0) in P1|change (Some 1 = Some 0) in P0]; discriminate.
  - assert (k = 1 \/ k = 2) as [-> | ->] by lia; [change (Some 1 = Some 0) in P1|change (Some 1 = Some 0) in P0]; discriminate.
Qed.
Lemma sc_at_here four c r : sc_at (sc four ++ c :: r) (sc_len four - 3).
Proof. split; [destruct four; repeat split|]. pose proof (sc_app_len four c r). rewrite zlen_app, zlen_sc, zlen_cons in *. pose proof (zlen_nonneg r). lia. Qed.

Lemma last_idx (a : list Z) b x : idx (a ++ b) (zlen a - 1) = Some x -> last a 1 = x.
Proof.
  destruct a as [|y a _] using rev_ind; [intros E; apply idx_inv in E; cbn in E; lia|]. rewrite zlen_app. change (zlen [y]) with 1.
  rewrite <- app_assoc. replace (zlen a + 1 - 1) with (zlen a) by lia. cbn [app]. rewrite idx_app_mid, last_last. congruence.
Qed.

Lemma fsc2_min q : bytes_ok q ->
  ((forall k, ~ sc_at q k) /\ find_start_code2 q = Ok (-1)) \/
  (exists a four c r, q = a ++ sc four ++ c :: r /\ find_start_code2 q = Ok (zlen a) /\
     (forall k, sc_at q k -> zlen a + sc_len four - 3 <= k) /\ (four = false -> a = [] \/ last a 1 <> 0)).
Proof.
  intros B. destruct (fsc_spec q B) as [(k & [Sk M] & E)|[N E]]; unfold find_start_code2; rewrite E; cbn [bind]; [right|left; auto].
  destruct (pat_split q k Sk) as (a & c & r & -> & <-). clear E. pose proof (zlen_nonneg a). replace (zlen a + 3 <? 0) with false by lia.
  unfold sc_len_at. destruct (idx (a ++ 0 :: 0 :: 1 :: c :: r) (zlen a - 1)) as [b|] eqn:X.
  - apply last_idx in X. destruct (Z.eq_dec b 0) as [->|Nb].
    + destruct a as [|y a _] using rev_ind; [discriminate X|]. rewrite last_last in X. subst y.
      exists a, true, c, r. split; [now rewrite <- app_assoc|]. rewrite zlen_app in *. change (zlen [0]) with 1 in *. cbn [sc_len]. split; [f_equal; lia|]. split; [|discriminate].
      intros k S. destruct (Z.lt_ge_cases k (zlen a + 1)) as [L|L]; [destruct (M k L S)|lia].
    + exists a, false, c, r. split; [reflexivity|]. split; [destruct b; [congruence| |]; f_equal; lia|]. split; [|intros _; right; congruence].
      intros k S. cbn [sc_len]. destruct (Z.lt_ge_cases k (zlen a)) as [L|L]; [destruct (M k L S)|lia].
  - exists a, false, c, r. split; [reflexivity|]. split; [f_equal; lia|]. split.
    + intros k S. cbn [sc_len]. destruct (Z.lt_ge_cases k (zlen a)) as [L|L]; [destruct (M k L S)|lia].
    + intros _. left. destruct a as [|y a]; [reflexivity|]. exfalso. destruct (idx_some ((y :: a) ++ 0 :: 0 :: 1 :: c :: r) (zlen (y :: a) - 1)) as [v V]; [|congruence].
      rewrite zlen_app, zlen_cons. pose proof (zlen_nonneg a). pose proof (zlen_nonneg (0 :: 0 :: 1 :: c :: r)). rewrite !zlen_cons in *. lia.
Qed.

Lemma split_step2 f pre d : bytes_ok d -> 3 <= zlen d ->
  ((forall k, 3 <= k -> ~ sc_at d k) /\ split_nalu_loop (S f) (pre ++ d) (zlen pre) = Ok [d]) \/
  (exists x four c r, d = x ++ sc four ++ c :: r /\ 3 <= zlen x /\
     (forall k, 3 <= k -> sc_at d k -> zlen x + sc_len four - 3 <= k) /\ (four = false -> zlen x = 3 \/ last x 1 <> 0) /\
     split_nalu_loop (S f) (pre ++ d) (zlen pre) =
       (rest <- split_nalu_loop f ((pre ++ x) ++ sc four ++ c :: r) (zlen (pre ++ x));; Ok (x :: rest))).
Proof.
  intros B L. destruct (three d L) as (x0 & x1 & x2 & t & ->).
  assert (E : pre ++ x0 :: x1 :: x2 :: t = (pre ++ [x0; x1; x2]) ++ t) by now rewrite <- app_assoc.
  assert (zlen (pre ++ [x0; x1; x2]) = zlen pre + 3) as L3 by now rewrite zlen_app.
  assert (Q : split_nalu_loop (S f) (pre ++ x0 :: x1 :: x2 :: t) (zlen pre) = (
    n <- find_start_code2 t;;
    if n >? -1 then
      let n := n + 3 in
      piece <- of_opt (slice (pre ++ x0 :: x1 :: x2 :: t) (zlen pre) (zlen pre + n));;
      rest <- split_nalu_loop f (pre ++ x0 :: x1 :: x2 :: t) (zlen pre + n);;
      Ok (piece :: rest)
    else
      piece <- of_opt (slice_from (pre ++ x0 :: x1 :: x2 :: t) (zlen pre));;
      Ok [piece])).
  { cbn [split_nalu_loop]. rewrite E at 1. rewrite <- L3, slice_from_app. reflexivity. }
  rewrite Q. clear Q.
  assert (bytes_ok t) as Bt by (apply (bytes_app_r [x0; x1; x2]); exact B).
  assert (Sh : forall k, 3 <= k -> sc_at (x0 :: x1 :: x2 :: t) k -> sc_at t (k - 3)).
  { intros k K S. apply (sc_at_shift [x0; x1; x2] t). change (zlen [x0; x1; x2]) with 3. replace (3 + (k - 3)) with k by lia. split; [exact S|lia]. }
  destruct (fsc2_min t Bt) as [[N F]|(a & four & c & r & -> & F & M & X)]; rewrite F; cbn [bind].
  - left. split; [intros k K S; exact (N _ (Sh k K S))|]. replace (-1 >? -1) with false by reflexivity. rewrite slice_from_app. reflexivity.
  - right. exists ([x0; x1; x2] ++ a), four, c, r. pose proof (zlen_nonneg a) as Ha. replace (zlen a >? -1) with true by lia.
    assert (zlen ([x0; x1; x2] ++ a) = zlen a + 3) as L4 by (rewrite zlen_app; change (zlen [x0; x1; x2]) with 3; lia).
    split; [now rewrite <- app_assoc|]. split; [lia|]. split; [|split].
    + intros k K S. apply Sh, M in S; [|exact K]. lia.
    + intros V. destruct a as [|y a]; [left; reflexivity|right]. destruct (X V) as [W|W]; [discriminate W|exact W].
    + cbv zeta. replace (pre ++ x0 :: x1 :: x2 :: a ++ sc four ++ c :: r) with (pre ++ ([x0; x1; x2] ++ a) ++ sc four ++ c :: r) by (rewrite <- !app_assoc; reflexivity).
      rewrite <- L4, slice_app_mid. cbn [of_opt bind]. rewrite app_assoc, (zlen_app pre). reflexivity.
Qed.

(* ---------------------------------------------------------------------------------------- *)
(** ** The cuts *)

Lemma offsets_shift xs : forall o n, offsets (n + o) xs = map (fun v => n + v) (offsets o xs).
Proof. induction xs as [|x xs IH]; intros o n; cbn [offsets map]; [reflexivity|]. rewrite <- IH. now rewrite Z.add_assoc. Qed.

Lemma zero_at_idx p k : zero_at p k = true <-> idx p k = Some 0.
Proof. unfold zero_at. destruct (idx p k) as [[| |]|]; split; congruence. Qed.

Lemma split_cuts : forall f pre d, bytes_ok d -> 3 <= zlen d -> (length d < f)%nat ->
  exists x xs, split_nalu_loop f (pre ++ d) (zlen pre) = Ok (x :: xs) /\ concat (x :: xs) = d /\
    forall o, In o (offsets (zlen x) xs) <-> is_cut d o.
Proof.
  induction f as [|f IH]; intros pre d B L Hf; [lia|].
  destruct (split_step2 f pre d B L) as [[N E]|(x & four & c & r & -> & Lx & M & X & E)]; rewrite E.
  - exists d, []. split; [reflexivity|]. cbn [concat]. rewrite app_nil_r. split; [reflexivity|]. intros o. cbn [offsets In]. split; [tauto|].
    intros (k & K & S & _). exact (N k K S).
  - assert (Bd := bytes_app_r _ _ B). pose proof (sc_app_len four c r) as Ld. destruct (IH (pre ++ x) (sc four ++ c :: r)) as (y & ys & E2 & C & S); [exact Bd|lia|rewrite app_length in Hf; unfold zlen in Lx; lia|].
    rewrite E2. cbn [bind]. exists x, (y :: ys). split; [reflexivity|]. split; [cbn [concat] in *; now rewrite C|].
    intros o. cbn [offsets]. rewrite offsets_shift. cbn [In]. rewrite in_map_iff. split.
    + intros [<-|(o' & <- & I)].
      * exists (zlen x + (sc_len four - 3)). split; [destruct four; cbn [sc_len]; lia|]. split; [apply sc_at_shift, sc_at_here|].
        unfold cut_at. destruct four; cbn [sc_len].
        -- replace (zlen x + (4 - 3) - 1) with (zlen x) by lia. replace (4 <=? zlen x + (4 - 3)) with true by lia. cbn [sc app].
           assert (zero_at (x ++ 0 :: 0 :: 0 :: 1 :: c :: r) (zlen x) = true) as -> by (apply zero_at_idx; apply idx_app_mid). reflexivity.
        -- replace (zlen x + (3 - 3)) with (zlen x) by lia. destruct (X eq_refl) as [X3|Xl]; [rewrite X3; reflexivity|].
           destruct (zero_at (x ++ sc false ++ c :: r) (zlen x - 1)) eqn:Z; [apply zero_at_idx, last_idx in Z; congruence|]. now rewrite andb_false_r.
      * apply S in I as (k & K & Sk & ->). exists (zlen x + k). split; [lia|]. split; [now apply sc_at_shift|].
        unfold cut_at. replace (4 <=? zlen x + k) with true by lia. cbn [andb].
        assert (zero_at (x ++ sc four ++ c :: r) (zlen x + k - 1) = zero_at (sc four ++ c :: r) (k - 1)) as ->.
        { unfold zero_at. rewrite idx_app_r by lia. now replace (zlen x + k - 1 - zlen x) with (k - 1) by lia. }
        destruct (4 <=? k) eqn:K4; cbn [andb]; [destruct (zero_at _ _); lia|]. assert (k = 3) as -> by lia. destruct four; cbn [sc app] in *.
        -- destruct Sk as [[P _] _]. change (Some 1 = Some 0) in P. discriminate.
        -- change (zero_at (0 :: 0 :: 1 :: c :: r) (3 - 1)) with false. reflexivity.
    + intros (k & K & Sk & ->). pose proof (M k K Sk) as Mk. apply Z.le_lteq in Mk as [Lt|Eq].
      * right. assert (Sk' : sc_at (sc four ++ c :: r) (k - zlen x)) by (apply (sc_at_shift x); split; [now replace (zlen x + (k - zlen x)) with k by lia|destruct four; cbn [sc_len] in Lt; lia]).
        assert (Kl := sc_at_sc _ _ _ _ Sk' ltac:(lia)). exists (cut_at (sc four ++ c :: r) (k - zlen x)). split.
        -- unfold cut_at. replace (4 <=? k) with true by (destruct four; cbn [sc_len] in *; lia). cbn [andb].
           assert (zero_at (x ++ sc four ++ c :: r) (k - 1) = zero_at (sc four ++ c :: r) (k - zlen x - 1)) as ->.
           { unfold zero_at. rewrite idx_app_r by (destruct four; cbn [sc_len] in *; lia). now replace (k - 1 - zlen x) with (k - zlen x - 1) by lia. }
           destruct (4 <=? k - zlen x) eqn:K4; cbn [andb]; [destruct (zero_at _ _); lia|]. destruct four; cbn [sc_len] in Kl; [lia|]. assert (k = zlen x + 3) as -> by lia.
           replace (zlen x + 3 - zlen x - 1) with 2 by lia. cbn [sc app]. change (zero_at (0 :: 0 :: 1 :: c :: r) 2) with false. cbn iota. lia.
        -- apply S. exists (k - zlen x). split; [destruct four; cbn [sc_len] in Kl; lia|]. auto.
      * left. subst k. unfold cut_at. destruct four; cbn [sc_len].
        -- replace (zlen x + 4 - 3 - 1) with (zlen x) by lia. replace (4 <=? zlen x + 4 - 3) with true by lia. cbn [sc app].
           assert (zero_at (x ++ 0 :: 0 :: 0 :: 1 :: c :: r) (zlen x) = true) as -> by (apply zero_at_idx; apply idx_app_mid). reflexivity.
        -- replace (zlen x + 3 - 3) with (zlen x) by lia. destruct (X eq_refl) as [X3|Xl]; [rewrite X3; reflexivity|].
           destruct (zero_at (x ++ sc false ++ c :: r) (zlen x - 1)) eqn:Z; [apply zero_at_idx, last_idx in Z; congruence|]. now rewrite andb_false_r.
Qed.

(* ---------------------------------------------------------------------------------------- *)
(** ** Blank pieces *)

Lemma blank_or_good x : 3 <= zlen x -> blank x \/ good_piece x.
Proof.
  intros L. unfold blank. destruct (list_eq_dec Z.eq_dec x [0; 0; 0]) as [->|N1]; [left; cbn; auto|]. destruct (list_eq_dec Z.eq_dec x (sc false)) as [->|N2]; [left; cbn; auto|].
  destruct (list_eq_dec Z.eq_dec x (sc true)) as [->|N3]; [left; cbn; auto|]. right. now apply remove_good.
Qed.

Lemma avc_extra_blank xs : Forall (fun x => 3 <= zlen x) xs -> Exists blank xs -> forall s p, avc_extra_loop xs s p = Panic.
Proof.
  intros F Ex. induction Ex as [x xs [<-|[<-|[<-|[]]]]|x xs Ex IH]; intros s p; try reflexivity. inversion F as [|? ? Lx F']; subst.
  destruct (blank_or_good x Lx) as [[<-|[<-|[<-|[]]]]|(y & ys & E)]; try reflexivity. cbn [avc_extra_loop]. rewrite E. cbn [bind]. rewrite idx_cons_0. cbn [of_opt bind]. cbv zeta.
  rewrite with_start_code_ok. cbn [bind]. repeat match goal with |- context [if ?c then _ else _] => destruct c end; now apply IH.
Qed.
Lemma hevc_extra_blank xs : Forall (fun x => 3 <= zlen x) xs -> Exists blank xs -> forall v s p, hevc_extra_loop xs v s p = Panic.
Proof.
  intros F Ex. induction Ex as [x xs [<-|[<-|[<-|[]]]]|x xs Ex IH]; intros v s p; try reflexivity. inversion F as [|? ? Lx F']; subst.
  destruct (blank_or_good x Lx) as [[<-|[<-|[<-|[]]]]|(y & ys & E)]; try reflexivity. cbn [hevc_extra_loop]. rewrite E. cbn [bind]. rewrite idx_cons_0. cbn [of_opt bind]. cbv zeta.
  rewrite with_start_code_ok. cbn [bind]. repeat match goal with |- context [if ?c then _ else _] => destruct c end; now apply IH.
Qed.

(** The pieces, as far as blanks are concerned; [first]: no start code is required at the beginning of d. *)
Lemma split_len3 : forall f pre d, bytes_ok d -> 3 <= zlen d -> (length d < f)%nat -> exists xs, split_nalu_loop f (pre ++ d) (zlen pre) = Ok xs /\ Forall (fun x => 3 <= zlen x) xs.
Proof.
  induction f as [|f IH]; intros pre d B L Hf; [lia|].
  destruct (split_step2 f pre d B L) as [[N E]|(x & four & c & r & -> & Lx & M & X & E)]; rewrite E; [eauto|].
  pose proof (sc_app_len four c r). destruct (IH (pre ++ x) (sc four ++ c :: r)) as (xs & E2 & F); [now apply bytes_app_r in B|lia|rewrite app_length in Hf; unfold zlen in Lx; lia|].
  rewrite E2. cbn [bind]. eauto.
Qed.

Lemma sc_at_mid a b c r : sc_at (a ++ sc b ++ c :: r) (zlen a + (sc_len b - 3)).
Proof. apply sc_at_shift, sc_at_here. Qed.

Lemma split_app_eq {A} (a b : list A) x y : a ++ b = x ++ y -> zlen x <= zlen a -> exists m, a = x ++ m /\ y = m ++ b.
Proof.
  revert a. induction x as [|v x IH]; intros a E L; [exists a; auto|]. destruct a as [|w a]; [rewrite zlen_cons in L; change (zlen []) with 0 in L; pose proof (zlen_nonneg x); lia|].
  cbn [app] in E. injection E as -> E. rewrite !zlen_cons in L. destruct (IH a E) as (m & -> & ->); [lia|]. exists m. auto.
Qed.

Lemma split_blank : forall f pre d a four c r, bytes_ok d -> (length d < f)%nat -> d = a ++ sc false ++ sc four ++ c :: r -> (3 <= zlen a \/ a = [] \/ a = [0]) ->
  exists xs, split_nalu_loop f (pre ++ d) (zlen pre) = Ok xs /\ Exists blank xs.
Proof.
  induction f as [|f IH]; intros pre d a four c r B Hf Ed Ha; [lia|].
  assert (L : 3 <= zlen d). { rewrite Ed, !zlen_app. change (zlen (sc false)) with 3. pose proof (zlen_nonneg a). pose proof (zlen_nonneg (sc four)). pose proof (zlen_nonneg (c :: r)). lia. }
  assert (S2 : sc_at d (zlen a + 3 + (sc_len four - 3))).
  { rewrite Ed. replace (zlen a + 3) with (zlen (a ++ sc false)) by now rewrite zlen_app. rewrite app_assoc. apply sc_at_mid. }
  destruct (split_step2 f pre d B L) as [[N E]|(x & g & c' & r' & Ed' & Lx & M & X & E)]; rewrite E.
  - exfalso. pose proof (zlen_nonneg a). apply (N (zlen a + 3 + (sc_len four - 3))); [destruct four; cbn [sc_len]; lia|exact S2].
  - pose proof (sc_app_len g c' r') as Lg. assert (Bd : bytes_ok (sc g ++ c' :: r')) by (rewrite Ed' in B; now apply bytes_app_r in B).
    assert (Hf' : (length (sc g ++ c' :: r') < f)%nat) by (rewrite Ed', app_length in Hf; unfold zlen in Lx; lia).
    assert (H0 : forall k, 3 <= k -> sc_at d k -> k = zlen x + (sc_len g - 3) \/ zlen x + sc_len g <= k).
    { intros k K Sk. pose proof (M k K Sk) as Mk. destruct (Z.eq_dec k (zlen x + (sc_len g - 3))) as [->|Ne]; [auto|right].
      rewrite Ed' in Sk. assert (sc_at (sc g ++ c' :: r') (k - zlen x)) as Q by (apply (sc_at_shift x); split; [now replace (zlen x + (k - zlen x)) with k by lia|destruct g; cbn [sc_len] in *; lia]).
      apply sc_at_sc in Q; lia. }
    destruct Ha as [Ha|Ha].
    + assert (Sa : sc_at d (zlen a)). { rewrite Ed. replace (sc false ++ sc four ++ c :: r) with (sc false ++ (hd 0 (sc four)) :: (tl (sc four) ++ c :: r)) by (destruct four; reflexivity).
        replace (zlen a) with (zlen a + (sc_len false - 3)) at 1 by (cbn; lia). apply sc_at_mid. }
      assert (Lxa : zlen x <= zlen a) by (destruct (H0 _ Ha Sa), g; cbn [sc_len] in *; lia).
      destruct (split_app_eq a (sc false ++ sc four ++ c :: r) x (sc g ++ c' :: r')) as (m & Ea & Em); [congruence|exact Lxa|].
      assert (zlen a = zlen x + zlen m) as Lm by (rewrite Ea, zlen_app; lia).
      destruct (IH (pre ++ x) (sc g ++ c' :: r') m four c r Bd Hf' Em) as (xs & E2 & Bx).
      { destruct (H0 _ Ha Sa) as [Q|Q]; [|left; destruct g; cbn [sc_len] in Q; lia]. right. destruct g; cbn [sc_len] in Q.
        - right. destruct m as [|v [|w m]]; [change (zlen []) with 0 in Lm; lia| |rewrite !zlen_cons in Lm; pose proof (zlen_nonneg m); lia]. cbn [sc app] in Em. injection Em as <- _. reflexivity.
        - left. destruct m as [|v m]; [reflexivity|rewrite zlen_cons in Lm; pose proof (zlen_nonneg m); lia]. }
      rewrite E2. cbn [bind]. exists (x :: xs). split; [reflexivity|]. now apply Exists_cons_tl.
    + destruct (split_len3 f (pre ++ x) (sc g ++ c' :: r') Bd ltac:(lia) Hf') as (xs & E2 & _). rewrite E2. cbn [bind]. exists (x :: xs). split; [reflexivity|]. apply Exists_cons_hd.
      assert (Q : zlen x + (sc_len g - 3) = zlen a + 3 + (sc_len four - 3) \/ zlen x + sc_len g <= zlen a + 3 + (sc_len four - 3)).
      { assert (Z3 : 3 <= zlen a + 3 + (sc_len four - 3)) by (pose proof (zlen_nonneg a); destruct four; cbn [sc_len]; lia). destruct (H0 _ Z3 S2); auto. }
      destruct x as [|x0 [|x1 [|x2 x]]]; try (rewrite ?zlen_cons in Lx; change (zlen []) with 0 in Lx; lia).
      rewrite Ed in Ed'. rewrite !zlen_cons in *. clear - Ed' Q X Lx Ha. pose proof (zlen_nonneg x) as Px. unfold blank.
      destruct Ha as [-> | ->]; cbn [sc app] in Ed'; change (zlen []) with 0 in Q; change (zlen [0]) with 1 in Q; injection Ed' as <- <- <- Ed';
        destruct g, four; cbn [sc_len] in Q; (destruct x as [|v [|w [|u x]]]; rewrite ?zlen_cons in *; try change (zlen []) with 0 in *; try (pose proof (zlen_nonneg x); lia); try lia; cbn [sc app] in Ed'); try discriminate Ed'; cbn; auto.
      all: try (injection Ed' as <- Ed'; cbn; auto; destruct (X eq_refl) as [X0|X0]; [discriminate X0|cbn in X0; congruence]).
      all: right; right; left; congruence.
Qed.

Lemma split_first_blank x four c r : blank x -> bytes_ok (c :: r) -> exists xs, split_nalu (x ++ sc four ++ c :: r) = Ok xs /\ Exists blank xs.
Proof.
  intros [<-|[<-|[<-|[]]]] B.
  - set (d := [0; 0; 0] ++ sc four ++ c :: r). assert (Bs : bytes_ok (sc four ++ c :: r)).
    { apply bytes_ok_app. split; [destruct four; repeat (apply Forall_cons; [unfold byte_ok; lia|]); apply Forall_nil|exact B]. }
    pose proof (sc_app_len four c r) as Ls. destruct (split_step2 (length d) [] d) as [[N _]|(x & g & c' & r' & Ed & Lx & M & X & E)].
    + apply (bytes_ok_app [0; 0; 0]). split; [repeat (apply Forall_cons; [unfold byte_ok; lia|]); apply Forall_nil|exact Bs].
    + unfold d. rewrite zlen_app. change (zlen [0; 0; 0]) with 3. lia.
    + exfalso. apply (N (3 + (sc_len four - 3))); [destruct four; cbn; lia|]. apply (sc_at_mid [0; 0; 0]).
    + unfold split_nalu. change (split_nalu_loop (S (length d)) d 0) with (split_nalu_loop (S (length d)) ([] ++ d) (zlen (@nil Z))). rewrite E. clear E.
      pose proof (sc_app_len g c' r') as Lg. assert (Bd : bytes_ok (sc g ++ c' :: r')).
      { apply (bytes_app_r x). rewrite <- Ed. apply bytes_ok_app. split; [repeat (apply Forall_cons; [unfold byte_ok; lia|]); apply Forall_nil|exact Bs]. }
      destruct (split_len3 (length d) ([] ++ x) (sc g ++ c' :: r') Bd) as (xs & E2 & _); [lia|rewrite Ed, (app_length x); unfold zlen in Lx; lia|].
      rewrite E2. cbn [bind]. exists (x :: xs). split; [reflexivity|]. apply Exists_cons_hd.
      assert (Z3 : 3 <= 3 + (sc_len four - 3)) by (destruct four; cbn; lia). pose proof (M _ Z3 (sc_at_mid [0; 0; 0] four c r)) as Q.
      destruct x as [|x0 [|x1 [|x2 x]]]; try (rewrite ?zlen_cons in Lx; change (zlen []) with 0 in Lx; lia). unfold d in Ed. cbn [app] in Ed. injection Ed as <- <- <- Ed. rewrite !zlen_cons in *. pose proof (zlen_nonneg x).
      destruct x as [|v x]; [left; reflexivity|]. exfalso. rewrite zlen_cons in *. pose proof (zlen_nonneg x). destruct g, four; cbn [sc_len] in Q; try lia.
      destruct x; [|rewrite zlen_cons in *; pose proof (zlen_nonneg x); lia]. cbn [sc app] in Ed. injection Ed as <- _. destruct (X eq_refl) as [X0|X0]; [discriminate X0|cbn in X0; congruence].
  - destruct (split_blank (S (length (sc false ++ sc four ++ c :: r))) [] (sc false ++ sc four ++ c :: r) [] four c r) as (xs & E & Ex); eauto.
    apply bytes_ok_app. split; [repeat (apply Forall_cons; [unfold byte_ok; lia|]); apply Forall_nil|]. apply bytes_ok_app. split; [destruct four; repeat (apply Forall_cons; [unfold byte_ok; lia|]); apply Forall_nil|exact B].
  - destruct (split_blank (S (length (sc true ++ sc four ++ c :: r))) [] (sc true ++ sc four ++ c :: r) [0] four c r) as (xs & E & Ex); eauto.
    apply bytes_ok_app. split; [repeat (apply Forall_cons; [unfold byte_ok; lia|]); apply Forall_nil|]. apply bytes_ok_app. split; [destruct four; repeat (apply Forall_cons; [unfold byte_ok; lia|]); apply Forall_nil|exact B].
Qed.

(** Data with a blank unit has a blank piece. *)
Lemma blank_unit_split data : bytes_ok data -> 3 <= zlen data -> blank_unit data -> exists xs, split_nalu data = Ok xs /\ Exists blank xs.
Proof.
  intros B L [Bl|[(x & four & c & r & Bx & ->)|(a & four & c & r & La & ->)]].
  - exists [data]. split; [|now apply Exists_cons_hd]. destruct Bl as [<-|[<-|[<-|[]]]]; reflexivity.
  - apply split_first_blank; [exact Bx|]. apply (bytes_app_r (x ++ sc four)). now rewrite <- app_assoc.
  - apply (split_blank (S (length (a ++ sc false ++ sc four ++ c :: r))) [] (a ++ sc false ++ sc four ++ c :: r) a four c r); auto.
Qed.

(** Data without one has only good pieces. *)
Lemma split_good2 data : forall f pre d, data = pre ++ d -> bytes_ok d -> 3 <= zlen d ->
  (pre = [] \/ 3 <= zlen pre /\ starts_sc d /\ d <> sc false /\ d <> sc true) -> (length d < f)%nat ->
  exists xs, split_nalu_loop f (pre ++ d) (zlen pre) = Ok xs /\ (blank_unit data \/ Forall good_piece xs).
Proof.
  induction f as [|f IH]; intros pre d Ed B L P Hf; [lia|].
  destruct (split_step f pre d B L) as [E|(x & four & c & r & Edx & Lx & Sx & E)]; rewrite E.
  - exists [d]. split; [reflexivity|]. destruct (blank_or_good d L) as [Bl|G]; [left|right; constructor; [exact G|constructor]].
    destruct P as [-> |(_ & (g & m & ->) & N1 & N2)]; [left; now rewrite Ed|]. exfalso. destruct Bl as [Q|[Q|[Q|[]]]]; [destruct g; discriminate Q|congruence|congruence].
  - subst d. pose proof (sc_app_len four c r) as Ls. destruct (IH (pre ++ x) (sc four ++ c :: r)) as (xs & E2 & G).
    + now rewrite <- app_assoc.
    + now apply bytes_app_r in B.
    + lia.
    + right. pose proof (zlen_nonneg pre). split; [rewrite zlen_app; lia|]. split; [exists four, (c :: r); reflexivity|]. split; intros Q; destruct four; discriminate Q.
    + rewrite app_length in Hf. unfold zlen in Lx. lia.
    + rewrite E2. cbn [bind]. exists (x :: xs). split; [reflexivity|]. destruct G as [G|G]; [auto|]. destruct (blank_or_good x Lx) as [Bl|Gx]; [left|right; now constructor].
      destruct P as [-> |(Lp & Sd & _)]; [right; left; exists x, four, c, r; auto|]. apply Sx in Sd as (g & m & ->).
      right. right. destruct Bl as [Q|[Q|[Q|[]]]]; [destruct g; discriminate Q| |].
      * rewrite <- Q in Ed. exists pre, four, c, r. auto.
      * rewrite <- Q in Ed. exists (pre ++ [0]), four, c, r. split; [rewrite zlen_app; change (zlen [0]) with 1; lia|]. rewrite <- app_assoc. exact Ed.
Qed.

Theorem extra_panics_iff data : bytes_ok data ->
  (avc_parse_extra_data data = Panic <-> zlen data < 3 \/ blank_unit data) /\
  (hevc_parse_extra_data data = Panic <-> zlen data < 3 \/ blank_unit data) /\
  avc_parse_extra_data data <> NoFuel /\ hevc_parse_extra_data data <> NoFuel.
Proof.
  intros B. destruct (Z.lt_ge_cases (zlen data) 3) as [L|L].
  - assert (E : split_nalu data = Panic) by (unfold split_nalu; cbn [split_nalu_loop]; rewrite slice_from_none by lia; reflexivity).
    unfold avc_parse_extra_data, hevc_parse_extra_data. rewrite E. cbn [bind]. repeat split; auto; discriminate.
  - destruct (split_len3 (S (length data)) [] data B L ltac:(lia)) as (xs & E & F3). cbn [app] in E. change (zlen (@nil Z)) with 0 in E. change (split_nalu data = Ok xs) in E.
    unfold avc_parse_extra_data, hevc_parse_extra_data. rewrite E. cbn [bind].
    assert (D : Exists blank xs \/ Forall good_piece xs).
    { clear E. induction F3 as [|x xs Lx F3 IH]; [right; constructor|]. destruct (blank_or_good x Lx) as [Bl|G]; [left; now apply Exists_cons_hd|]. destruct IH as [IH|IH]; [left; now apply Exists_cons_tl|right; now constructor]. }
    assert (Dx : Forall good_piece xs -> ~ Exists blank xs).
    { intros G Ex. rewrite Forall_forall in G. apply Exists_exists in Ex as (x & I & Bx). apply G in I as (y & ys & I). destruct Bx as [<-|[<-|[<-|[]]]]; vm_compute in I; discriminate. }
    assert (K : blank_unit data <-> Exists blank xs).
    { split.
      - intros H. destruct (blank_unit_split data B L H) as (ys & E' & Ex). congruence.
      - intros Ex. destruct D as [_|G]; [|now apply Dx in G]. 
        destruct (split_good2 data (S (length data)) [] data eq_refl B L) as (ys & E' & [H|G]); [auto|lia|exact H|exfalso]. cbn [app] in E'. change (zlen (@nil Z)) with 0 in E'. change (split_nalu data = Ok ys) in E'.
        assert (ys = xs) as -> by congruence. now apply Dx in G. }
    destruct D as [Ex|G].
    + rewrite avc_extra_blank, hevc_extra_blank by auto. cbn [bind]. repeat split; try discriminate; intros _; right; now apply K.
    + pose proof (Dx G) as Nx. destruct (avc_extra_good xs G None None) as ([s p] & E1). destruct (hevc_extra_good xs G None None None) as ([[v s2] p2] & E2). rewrite E1, E2. cbn [bind].
      repeat split; try (destruct s, p; discriminate); try (destruct v, s2, p2; discriminate); try (intros [H|H]; [lia|apply K in H; contradiction]).
Qed.

(* ---------------------------------------------------------------------------------------- *)
(** ** Parsing what has been extracted *)

(** What is left of a piece that holds a parameter set. *)
Definition clean_piece (x : list Z) : Prop := bytes_ok x /\ forall k, 3 <= k -> ~ sc_at x k.
Definition raw (n : list Z) : Prop := (exists h t, n = h :: t /\ h <> 0) /\ clean_piece n.

Lemma sc_at_app_l a b k : sc_at a k -> sc_at (a ++ b) k.
Proof.
  intros [(P0 & P1 & P2) L]. pose proof (idx_inv _ _ _ P0). pose proof (idx_inv _ _ _ P1). pose proof (idx_inv _ _ _ P2). pose proof (zlen_nonneg b). split; [|rewrite zlen_app; lia].
  repeat split; rewrite idx_app_l by lia; assumption.
Qed.

Lemma split_clean : forall f pre d, bytes_ok d -> 3 <= zlen d -> (length d < f)%nat -> exists xs, split_nalu_loop f (pre ++ d) (zlen pre) = Ok xs /\ Forall clean_piece xs.
Proof.
  induction f as [|f IH]; intros pre d B L Hf; [lia|].
  destruct (split_step2 f pre d B L) as [[N E]|(x & four & c & r & -> & Lx & M & X & E)]; rewrite E; [unfold clean_piece; eauto 6|].
  pose proof (sc_app_len four c r). destruct (IH (pre ++ x) (sc four ++ c :: r)) as (xs & E2 & F); [now apply bytes_app_r in B|lia|rewrite app_length in Hf; unfold zlen in Lx; lia|].
  rewrite E2. cbn [bind]. eexists. split; [reflexivity|]. constructor; [|exact F]. split; [now apply bytes_ok_app in B|]. intros k K S. pose proof (M k K (sc_at_app_l _ _ _ S)). destruct S as [_ S]. destruct four; cbn [sc_len] in *; lia.
Qed.

Lemma remove_clean x y : clean_piece x -> remove_start_code x = Ok y -> clean_piece y.
Proof.
  intros C E. assert (y = x \/ exists four, x = sc four ++ y) as [->|(four & ->)].
  { revert E. unfold remove_start_code. destruct (idx x 0) as [a|] eqn:A; [|discriminate]. cbn [of_opt bind]. destruct (Z.eqb_spec a 0) as [->|]; cbn [negb]; [|intros [= <-]; auto].
    destruct (idx x 1) as [b|] eqn:Bq; [|discriminate]. cbn [of_opt bind]. destruct (Z.eqb_spec b 0) as [->|]; cbn [negb]; [|intros [= <-]; auto].
    destruct (idx x 2) as [c|] eqn:Cq; [|discriminate]. cbn [of_opt bind]. destruct x as [|x0 [|x1 [|x2 t]]]; try discriminate.
    change (Some x0 = Some 0) in A. change (Some x1 = Some 0) in Bq. change (Some x2 = Some c) in Cq. injection A as ->. injection Bq as ->. injection Cq as ->.
    destruct (Z.eqb_spec c 1) as [->|].
    - change (0 :: 0 :: 1 :: t) with ([0; 0; 1] ++ t). change 3 with (zlen [0; 0; 1]). rewrite slice_from_app. cbn [of_opt]. intros [= <-]. right. exists false. reflexivity.
    - destruct (Z.eqb_spec c 0) as [->|]; [|intros [= <-]; auto]. destruct (idx (0 :: 0 :: 0 :: t) 3) as [e|] eqn:Eq; [|discriminate]. cbn [of_opt bind].
      destruct (Z.eqb_spec e 1) as [->|]; [|intros [= <-]; auto]. destruct t as [|x3 t]; [discriminate|]. change (Some x3 = Some 1) in Eq. injection Eq as ->.
      change (0 :: 0 :: 0 :: 1 :: t) with ([0; 0; 0; 1] ++ t). change 4 with (zlen [0; 0; 0; 1]). rewrite slice_from_app. cbn [of_opt]. intros [= <-]. right. exists true. reflexivity. }
  - exact C.
  - destruct C as [B C]. split; [now apply bytes_app_r in B|]. intros k K S. apply (C (zlen (sc four) + k)); [rewrite zlen_sc; destruct four; cbn [sc_len]; lia|]. now apply sc_at_shift.
Qed.

Definition raw_set (o : option (list Z)) : Prop := forall s, o = Some s -> exists n, s = sc true ++ n /\ raw n.

Lemma avc_extra_raw xs : Forall clean_piece xs -> forall s p s' p', raw_set s -> raw_set p -> avc_extra_loop xs s p = Ok (s', p') -> raw_set s' /\ raw_set p'.
Proof.
  induction 1 as [|x xs C F IH]; intros s p s' p' Rs Rp; cbn [avc_extra_loop]; [intros [= <- <-]; auto|].
  destruct (remove_start_code x) as [n| | |] eqn:E; try discriminate. cbn [bind]. pose proof (remove_clean _ _ C E) as Cn. destruct n as [|h t]; [discriminate|]. rewrite idx_cons_0. cbn [of_opt bind]. cbv zeta.
  rewrite with_start_code_ok. cbn [bind].
  assert (R : Z.land h 31 <> 0 -> raw_set (Some (sc true ++ h :: t))).
  { intros N s0 [= <-]. exists (h :: t). split; [reflexivity|]. split; [|exact Cn]. exists h, t. split; [reflexivity|]. intros ->. now apply N. }
  destruct (Z.eqb_spec (Z.land h 31) H264NalSPS) as [H|]; [|destruct (Z.eqb_spec (Z.land h 31) H264NalPPS) as [H|]]; apply IH; auto; apply R; rewrite H; discriminate.
Qed.
Lemma hevc_extra_raw xs : Forall clean_piece xs -> forall v s p v' s' p', raw_set v -> raw_set s -> raw_set p -> hevc_extra_loop xs v s p = Ok (v', s', p') -> raw_set v' /\ raw_set s' /\ raw_set p'.
Proof.
  induction 1 as [|x xs C F IH]; intros v s p v' s' p' Rv Rs Rp; cbn [hevc_extra_loop]; [intros [= <- <- <-]; auto|].
  destruct (remove_start_code x) as [n| | |] eqn:E; try discriminate. cbn [bind]. pose proof (remove_clean _ _ C E) as Cn. destruct n as [|h t]; [discriminate|]. rewrite idx_cons_0. cbn [of_opt bind]. cbv zeta.
  rewrite with_start_code_ok. cbn [bind].
  assert (R : hevc_type h <> 0 -> raw_set (Some (sc true ++ h :: t))).
  { intros N s0 [= <-]. exists (h :: t). split; [reflexivity|]. split; [|exact Cn]. exists h, t. split; [reflexivity|]. intros ->. now apply N. }
  destruct (Z.eqb_spec (hevc_type h) HevcNalVPS) as [H|]; [|destruct (Z.eqb_spec (hevc_type h) HevcNalSPS) as [H|]; [|destruct (Z.eqb_spec (hevc_type h) HevcNalPPS) as [H|]]]; apply IH; auto; apply R; rewrite H; discriminate.
Qed.

Lemma split_ok_clean data xs : bytes_ok data -> split_nalu data = Ok xs -> Forall clean_piece xs.
Proof.
  intros B E. destruct (Z.lt_ge_cases (zlen data) 3) as [L|L].
  - unfold split_nalu in E. cbn [split_nalu_loop] in E. rewrite slice_from_none in E by lia. discriminate.
  - destruct (split_clean (S (length data)) [] data B L ltac:(lia)) as (ys & E' & F). cbn [app] in E'. change (zlen (@nil Z)) with 0 in E'. unfold split_nalu in E. rewrite E in E'. injection E' as <-. exact F.
Qed.

Lemma avc_parse_raw data s p : bytes_ok data -> avc_parse_extra_data data = Ok (s, p) -> exists n q, s = sc true ++ n /\ p = sc true ++ q /\ raw n /\ raw q.
Proof.
  intros B. unfold avc_parse_extra_data. destruct (split_nalu data) as [xs| | |] eqn:E; try discriminate. cbn [bind]. apply split_ok_clean in E; [|exact B].
  destruct (avc_extra_loop xs None None) as [[s0 p0]| | |] eqn:E2; try discriminate. cbn [bind]. apply avc_extra_raw in E2 as [R1 R2]; [|exact E|intros ? [=]|intros ? [=]].
  destruct s0 as [s0|]; [|discriminate]. destruct p0 as [p0|]; [|discriminate]. intros [= <- <-]. destruct (R1 _ eq_refl) as (n & -> & Rn). destruct (R2 _ eq_refl) as (q & -> & Rq). exists n, q. auto.
Qed.
Lemma hevc_parse_raw data v s p : bytes_ok data -> hevc_parse_extra_data data = Ok (v, s, p) -> exists m n q, v = sc true ++ m /\ s = sc true ++ n /\ p = sc true ++ q /\ raw m /\ raw n /\ raw q.
Proof.
  intros B. unfold hevc_parse_extra_data. destruct (split_nalu data) as [xs| | |] eqn:E; try discriminate. cbn [bind]. apply split_ok_clean in E; [|exact B].
  destruct (hevc_extra_loop xs None None None) as [[[v0 s0] p0]| | |] eqn:E2; try discriminate. cbn [bind]. apply hevc_extra_raw in E2 as (R0 & R1 & R2); [|exact E|intros ? [=]|intros ? [=]|intros ? [=]].
  destruct v0 as [v0|]; [|discriminate]. destruct s0 as [s0|]; [|discriminate]. destruct p0 as [p0|]; [|discriminate]. intros [= <- <- <-]. destruct (R0 _ eq_refl) as (m & -> & Rm). destruct (R1 _ eq_refl) as (n & -> & Rn). destruct (R2 _ eq_refl) as (q & -> & Rq). exists m, n, q. auto 8.
Qed.

(** Two start codes in a row, by position. *)
Definition double_at (e : list Z) (k : Z) : Prop := pat e k /\ (sc_at e (k + 3) \/ idx e (k + 3) = Some 0 /\ sc_at e (k + 4)).

Lemma double_iff e k : double_at e k <-> exists a four c r, zlen a = k /\ e = a ++ sc false ++ sc four ++ c :: r.
Proof.
  split.
  - intros [P D]. assert (S : sc_at e k). { split; [exact P|]. destruct D as [[(D & _) _]|[D _]]; apply idx_inv in D; lia. }
    destruct (pat_split e k S) as (a & c & r & -> & La). clear S P.
    assert (Ed : a ++ 0 :: 0 :: 1 :: c :: r = (a ++ [0; 0; 1]) ++ c :: r) by now rewrite <- app_assoc. rewrite Ed in D.
    assert (L3 : zlen (a ++ [0; 0; 1]) = k + 3) by (rewrite zlen_app, La; reflexivity).
    destruct D as [D|[D0 D]].
    + replace (k + 3) with (zlen (a ++ [0; 0; 1]) + 0) in D by lia. assert (sc_at (c :: r) 0) as D' by (apply (sc_at_shift (a ++ [0; 0; 1])); split; [exact D|lia]).
      destruct (pat_split _ _ D') as (a' & c' & r' & E' & L'). destruct a' as [|a0 a']; [|rewrite zlen_cons in L'; pose proof (zlen_nonneg a'); lia].
      exists a, false, c', r'. split; [exact La|]. rewrite Ed, <- app_assoc. cbn [app] in E'. rewrite E'. reflexivity.
    + replace (k + 4) with (zlen (a ++ [0; 0; 1]) + 1) in D by lia. assert (sc_at (c :: r) 1) as D' by (apply (sc_at_shift (a ++ [0; 0; 1])); split; [exact D|lia]).
      rewrite <- L3, idx_app_mid in D0. injection D0 as ->.
      destruct (pat_split _ _ D') as (a' & c' & r' & E' & L'). destruct a' as [|a0 [|a1 a']]; [discriminate L'| |rewrite !zlen_cons in L'; pose proof (zlen_nonneg a'); lia].
      cbn [app] in E'. injection E' as <- ->. exists a, true, c', r'. split; [exact La|]. reflexivity.
  - intros (a & four & c & r & <- & ->). split.
    + assert (zlen a = zlen a + 0) as -> by lia. destruct (proj2 (sc_at_shift a (sc false ++ sc four ++ c :: r) 0)) as [[P _] _]; [|exact P].
      destruct four; cbn [sc app]; (split; [repeat split|]); rewrite !zlen_cons; pose proof (zlen_nonneg r); lia.
    + rewrite app_assoc. assert (L3 : zlen (a ++ sc false) = zlen a + 3) by (rewrite zlen_app; reflexivity). rewrite <- L3. destruct four.
      * right. split; [apply idx_app_mid|]. replace (zlen a + 4) with (zlen (a ++ sc false) + 1) by lia. apply sc_at_shift. apply (sc_at_here true).
      * left. replace (zlen (a ++ sc false)) with (zlen (a ++ sc false) + 0) by lia. apply sc_at_shift. apply (sc_at_here false).
Qed.

Lemma blank_head h t : h <> 0 -> blank_unit (sc true ++ h :: t) <-> exists k, 3 <= k /\ double_at (sc true ++ h :: t) k.
Proof.
  intros H. unfold blank_unit. split.
  - intros [Q|[(x & four & c & r & Q & E)|(a & four & c & r & L & E)]].
    + exfalso. destruct Q as [Q|[Q|[Q|[]]]]; discriminate Q.
    + exfalso. destruct Q as [<-|[<-|[<-|[]]]]; destruct four; cbn [sc app] in E; try discriminate E; congruence.
    + exists (zlen a). split; [exact L|]. apply double_iff. exists a, four, c, r. auto.
  - intros (k & K & D). right. right. apply double_iff in D as (a & four & c & r & <- & ->). exists a, four, c, r. auto.
Qed.

Lemma pat_end n k : pat n k -> k + 3 = zlen n -> ends_sc n.
Proof.
  intros (P0 & P1 & P2) L. pose proof (idx_inv _ _ _ P0). destruct (split_at n k) as (a & b & -> & La); [lia|]. exists a. f_equal. rewrite zlen_app in L. subst k.
  rewrite idx_app_r in P0, P1, P2 by lia. replace (zlen a - zlen a) with 0 in P0 by lia. replace (zlen a + 1 - zlen a) with 1 in P1 by lia. replace (zlen a + 2 - zlen a) with 2 in P2 by lia.
  destruct b as [|b0 [|b1 [|b2 [|b3 b]]]]; try discriminate; [|rewrite !zlen_cons in L; pose proof (zlen_nonneg b); lia].
  change (Some b0 = Some 0) in P0. change (Some b1 = Some 0) in P1. change (Some b2 = Some 1) in P2. cbn [sc]. congruence.
Qed.

Lemma pat_shift a b k : 0 <= k -> pat (a ++ b) (zlen a + k) <-> pat b k.
Proof.
  intros K. unfold pat. rewrite !idx_app_r by lia. replace (zlen a + k - zlen a) with k by lia. replace (zlen a + k + 1 - zlen a) with (k + 1) by lia. replace (zlen a + k + 2 - zlen a) with (k + 2) by lia. reflexivity.
Qed.

(** A start code at k2 in s ++ 00 00 00 01 ..., before the end of s. *)
Lemma sc_straddle s r k : sc_at (s ++ sc true ++ r) k -> k <= zlen s -> sc_at s k \/ (ends_sc s /\ k + 3 = zlen s).
Proof.
  intros [(P0 & P1 & P2) Lk] K. pose proof (idx_inv _ _ _ P0) as R.
  assert (E : forall j, 0 <= j <= 2 -> idx (s ++ sc true ++ r) (zlen s + j) = Some 0).
  { intros j J. rewrite idx_app_r by lia. replace (zlen s + j - zlen s) with j by lia. cbn [sc app]. assert (j = 0 \/ j = 1 \/ j = 2) as [-> |[-> | ->]] by lia; reflexivity. }
  assert (k + 3 <= zlen s) as L. { destruct (Z.le_gt_cases (k + 3) (zlen s)) as [L|L]; [exact L|exfalso]. replace (k + 2) with (zlen s + (k + 2 - zlen s)) in P2 by lia. rewrite E in P2 by lia. discriminate. }
  rewrite idx_app_l in P0, P1, P2 by lia. destruct (Z.eq_dec (k + 3) (zlen s)) as [Q|Q]; [right; split; [apply (pat_end s k); [now repeat split|exact Q]|exact Q]|left; split; [now repeat split|lia]].
Qed.

Lemma ends_raw n : raw n -> ends_sc (sc true ++ n) -> ends_sc n.
Proof.
  intros [(h & t & -> & H) _] (n0 & E). destruct n0 as [|a [|b [|c [|d n0]]]]; cbn [sc app] in E; try discriminate E.
  injection E as _ _ _ _ E. exists n0. exact E.
Qed.

Lemma blank_cons n h t : raw n -> h <> 0 -> blank_unit (sc true ++ n ++ sc true ++ h :: t) <-> ends_sc n \/ blank_unit (sc true ++ h :: t).
Proof.
  intros Rn H. pose proof Rn as [(g & u & En & G) [_ C]]. set (e := sc true ++ h :: t). assert (Ee : sc true ++ n ++ e = sc true ++ g :: (u ++ e)) by now rewrite En. rewrite Ee, (blank_head g) by exact G. rewrite <- Ee.
  rewrite app_assoc. set (s := sc true ++ n). assert (Ls : zlen s = 4 + zlen n) by (unfold s; now rewrite zlen_app).
  split.
  - intros (k & K & P & D).
    assert (K5 : k < zlen s -> 5 <= k).
    { intros _. destruct P as (P0 & _). destruct (Z.le_gt_cases 5 k) as [|L]; [assumption|exfalso]. assert (k = 3 \/ k = 4) as [-> | ->] by lia.
      - unfold s in P0. cbn [sc app] in P0. change (Some 1 = Some 0) in P0. discriminate.
      - unfold s in P0. rewrite En in P0. cbn [sc app] in P0. change (Some g = Some 0) in P0. congruence. }
    destruct (Z.lt_ge_cases k (zlen s)) as [L|L].
    + left. apply ends_raw; [exact Rn|]. fold s. specialize (K5 L).
      assert (S1 : sc_at (s ++ sc true ++ h :: t) k). { split; [exact P|]. destruct D as [[(D & _) _]|[D _]]; apply idx_inv in D; unfold e in D; lia. }
      destruct (sc_straddle s (h :: t) k S1 ltac:(lia)) as [[_ S]|[S _]]; [|exact S].
      assert (exists k2, k + 3 <= k2 <= k + 4 /\ sc_at (s ++ sc true ++ h :: t) k2) as (k2 & K2 & S2) by (destruct D as [D|[_ D]]; eexists; (split; [|exact D]); lia).
      destruct (sc_straddle s (h :: t) k2 S2 ltac:(lia)) as [S'|[S' _]]; [|exact S'].
      exfalso. apply (C (k2 - 4)); [lia|]. apply (sc_at_shift (sc true)). change (zlen (sc true)) with 4. split; [now replace (4 + (k2 - 4)) with k2 by lia|lia].
    + right. apply blank_head; [exact H|]. fold e. exists (k - zlen s).
      assert (P' : pat e (k - zlen s)) by (apply (pat_shift s); [lia|now replace (zlen s + (k - zlen s)) with k by lia]).
      assert (D' : sc_at e (k - zlen s + 3) \/ idx e (k - zlen s + 3) = Some 0 /\ sc_at e (k - zlen s + 4)).
      { destruct D as [D|[D0 D]]; [left|right].
        - apply (sc_at_shift s). split; [now replace (zlen s + (k - zlen s + 3)) with (k + 3) by lia|lia].
        - rewrite idx_app_r in D0 by lia. replace (k + 3 - zlen s) with (k - zlen s + 3) in D0 by lia. split; [exact D0|].
          apply (sc_at_shift s). split; [now replace (zlen s + (k - zlen s + 4)) with (k + 4) by lia|lia]. }
      split; [|split; assumption]. destruct (Z.le_gt_cases 3 (k - zlen s)) as [|Lt]; [assumption|exfalso].
      assert (k - zlen s = 0 \/ k - zlen s = 1 \/ k - zlen s = 2) as Q by lia. destruct Q as [Q|[Q|Q]]; rewrite Q in *; unfold e in *; cbn [sc app] in *.
      * destruct P' as (_ & _ & P'). change (Some 0 = Some 1) in P'. discriminate.
      * destruct D' as [[(D' & _) _]|[D' _]]; change (Some h = Some 0) in D'; congruence.
      * destruct P' as (_ & P' & _). change (Some 1 = Some 0) in P'. discriminate.
  - intros [(n0 & E0)|B].
    + exists (4 + zlen n0). pose proof (zlen_nonneg n0). split; [lia|]. apply double_iff. exists (sc true ++ n0), true, h, t. split; [now rewrite zlen_app|]. unfold s. rewrite E0, <- !app_assoc. reflexivity.
    + apply blank_head in B as (k & K & D); [|exact H]. apply double_iff in D as (a & four & c & r & <- & E). pose proof (zlen_nonneg s). exists (zlen s + zlen a). split; [lia|]. apply double_iff.
      exists (s ++ a), four, c, r. split; [apply zlen_app|]. unfold e. rewrite E. now rewrite <- app_assoc.
Qed.

Lemma blank_one q : raw q -> ~ blank_unit (sc true ++ q).
Proof.
  intros [(h & t & -> & H) [_ C]] B. apply blank_head in B as (k & K & P & D); [|exact H].
  assert (5 <= k). { destruct P as (P & _). destruct (Z.le_gt_cases 5 k) as [|L]; [assumption|exfalso]. assert (k = 3 \/ k = 4) as [-> | ->] by lia; cbn [sc app] in P; [change (Some 1 = Some 0) in P|change (Some h = Some 0) in P]; congruence. }
  assert (exists k2, 8 <= k2 /\ sc_at (sc true ++ h :: t) k2) as (k2 & K2 & S2) by (destruct D as [D|[_ D]]; eexists; (split; [|exact D]); lia).
  apply (C (k2 - 4)); [lia|]. apply (sc_at_shift (sc true)). change (zlen (sc true)) with 4. split; [now replace (4 + (k2 - 4)) with k2 by lia|lia].
Qed.

(** The parameter sets of a key frame, put together, have a blank unit only if one that is not the last ends in a start code. *)
Lemma avc_extra_blank_unit data s p : bytes_ok data -> avc_parse_extra_data data = Ok (s, p) -> blank_unit (s ++ p) <-> ends_sc s.
Proof.
  intros B E. destruct (avc_parse_raw _ _ _ B E) as (n & q & -> & -> & Rn & Rq). pose proof Rq as [(h & t & Eq & H) _]. rewrite <- app_assoc, Eq, (blank_cons n h t Rn H), <- Eq.
  pose proof (blank_one q Rq). split; [intros [X|X]; [|contradiction]|intros X; left; now apply ends_raw].
  destruct X as (n0 & ->). exists (sc true ++ n0). now rewrite <- app_assoc.
Qed.
Lemma hevc_extra_blank_unit data v s p : bytes_ok data -> hevc_parse_extra_data data = Ok (v, s, p) -> blank_unit ((v ++ s) ++ p) <-> ends_sc v \/ ends_sc s.
Proof.
  intros B E. destruct (hevc_parse_raw _ _ _ _ B E) as (m & n & q & -> & -> & -> & Rm & Rn & Rq). pose proof Rq as [(h & t & Eq & H) _]. pose proof Rn as [(g & u & En & G) _].
  assert (X : ((sc true ++ m) ++ sc true ++ n) ++ sc true ++ q = sc true ++ m ++ sc true ++ g :: (u ++ sc true ++ q)) by (rewrite En, <- !app_assoc; reflexivity).
  rewrite X, (blank_cons m g _ Rm G). change (g :: u ++ sc true ++ q) with ((g :: u) ++ sc true ++ q). rewrite <- En, Eq, (blank_cons n h t Rn H), <- Eq.
  pose proof (blank_one q Rq). assert (Y : forall w, raw w -> ends_sc w <-> ends_sc (sc true ++ w)).
  { intros w Rw. split; [intros (n0 & ->); exists (sc true ++ n0); now rewrite <- app_assoc|now apply ends_raw]. }
  rewrite (Y m Rm), (Y n Rn). tauto.
Qed.

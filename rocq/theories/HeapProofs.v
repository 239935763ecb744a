(** * HeapProofs: lemmas about slices into a heap of arrays. *)
From Verif Require Import Base CollectionsSpec BlockModel.

Lemma slice_inv {A} (l : list A) lo hi s : slice l lo hi = Some s ->
  s = firstn (Z.to_nat (hi - lo)) (skipn (Z.to_nat lo) l) /\ 0 <= lo <= hi /\ hi <= zlen l.
Proof.
  intros H. pose proof (slice_length _ _ _ _ H) as (_ & B & C). rewrite slice_some in H by lia.
  injection H as <-. auto.
Qed.

Lemma slice_exists {A} (l : list A) lo hi : 0 <= lo <= hi -> hi <= zlen l -> exists s, slice l lo hi = Some s.
Proof. intros. rewrite slice_some by lia. eauto. Qed.

Lemma slice_cat {A} (l : list A) i j k a b : slice l i j = Some a -> slice l j k = Some b -> slice l i k = Some (a ++ b).
Proof.
  intros Ha Hb. apply slice_inv in Ha as (-> & Ha1 & Ha2). apply slice_inv in Hb as (-> & Hb1 & Hb2).
  rewrite slice_some by lia. f_equal.
  replace (Z.to_nat (k - i)) with (Z.to_nat (j - i) + Z.to_nat (k - j))%nat by lia.
  replace (skipn (Z.to_nat j) l) with (skipn (Z.to_nat (j - i)) (skipn (Z.to_nat i) l)) by (rewrite skipn_skipn; f_equal; lia).
  generalize (skipn (Z.to_nat i) l) as m. generalize (Z.to_nat (k - j)) as q. generalize (Z.to_nat (j - i)) as p.
  induction p as [|p IH]; intros q m; cbn; auto. destruct m as [|x m]; cbn; [now rewrite firstn_nil|]. f_equal. apply IH.
Qed.

(** replacing a segment *)
Lemma slice_patch_before {A} (l src : list A) off l' lo hi : copy_at l off src = Some l' -> off + zlen src <= zlen l ->
  hi <= off -> slice l' lo hi = slice l lo hi.
Proof.
  intros H Hf Hb. pose proof (zlen_nonneg src).
  assert (Ho : 0 <= off <= zlen l) by (unfold copy_at in H; destruct ((0 <=? off) && (off <=? zlen l)) eqn:E; [lia|discriminate]).
  rewrite copy_at_fits in H by lia. injection H as <-.
  assert (L : zlen (firstn (Z.to_nat off) l ++ src ++ skipn (Z.to_nat (off + zlen src)) l) = zlen l).
  { rewrite !zlen_app. unfold zlen in *. rewrite firstn_length, skipn_length. lia. }
  destruct (Z_le_dec 0 lo); [|rewrite !slice_none by lia; auto].
  destruct (Z_le_dec lo hi); [|rewrite !slice_none by lia; auto].
  rewrite !slice_some by lia. f_equal.
  rewrite skipn_app. rewrite firstn_app. rewrite firstn_length.
  unfold zlen in *. rewrite skipn_length, firstn_length.
  replace (Z.to_nat (hi - lo) - (Nat.min (Z.to_nat off) (length l) - Z.to_nat lo))%nat with 0%nat by lia.
  rewrite firstn_O, app_nil_r.
  rewrite skipn_firstn_comm, firstn_firstn. f_equal. lia.
Qed.

Lemma slice_patch_after {A} (l src : list A) off l' lo hi : copy_at l off src = Some l' -> off + zlen src <= zlen l ->
  off + zlen src <= lo -> slice l' lo hi = slice l lo hi.
Proof.
  intros H Hf Hb. pose proof (zlen_nonneg src).
  assert (Ho : 0 <= off <= zlen l) by (unfold copy_at in H; destruct ((0 <=? off) && (off <=? zlen l)) eqn:E; [lia|discriminate]).
  rewrite copy_at_fits in H by lia. injection H as <-.
  assert (L : zlen (firstn (Z.to_nat off) l ++ src ++ skipn (Z.to_nat (off + zlen src)) l) = zlen l).
  { rewrite !zlen_app. unfold zlen in *. rewrite firstn_length, skipn_length. lia. }
  destruct (Z_le_dec 0 lo); [|rewrite !slice_none by lia; auto].
  destruct (Z_le_dec lo hi); [|rewrite !slice_none by lia; auto].
  destruct (Z_le_dec hi (zlen l)); [|rewrite !slice_none by lia; auto].
  rewrite !slice_some by lia. f_equal. f_equal.
  rewrite app_assoc, skipn_app, skipn_all2 by (rewrite app_length, firstn_length; unfold zlen in *; lia).
  cbn [app]. rewrite skipn_skipn. f_equal. rewrite app_length, firstn_length. unfold zlen in *. lia.
Qed.

Lemma slice_patch_same {A} (l src : list A) off l' : copy_at l off src = Some l' -> off + zlen src <= zlen l ->
  slice l' off (off + zlen src) = Some src.
Proof.
  intros H Hf. pose proof (zlen_nonneg src).
  assert (Ho : 0 <= off <= zlen l) by (unfold copy_at in H; destruct ((0 <=? off) && (off <=? zlen l)) eqn:E; [lia|discriminate]).
  rewrite copy_at_fits in H by lia. injection H as <-.
  rewrite slice_some.
  - f_equal. rewrite skipn_app, skipn_all2 by (rewrite firstn_length; unfold zlen in *; lia).
    rewrite firstn_length. cbn [app]. replace (Z.to_nat off - Nat.min (Z.to_nat off) (length l))%nat with 0%nat by (unfold zlen in *; lia).
    rewrite skipn_O, firstn_app. replace (Z.to_nat (off + zlen src - off)) with (length src) by (unfold zlen; lia).
    now rewrite firstn_all, Nat.sub_diag, firstn_O, app_nil_r.
  - lia.
  - rewrite !zlen_app. unfold zlen in *. rewrite firstn_length, skipn_length. lia.
Qed.

Lemma copy_at_length {A} (l src : list A) off l' : copy_at l off src = Some l' -> zlen l' = zlen l.
Proof.
  unfold copy_at. destruct ((0 <=? off) && (off <=? zlen l)) eqn:E; [|discriminate]. intros H. injection H as <-.
  unfold zlen in *. rewrite app_length, firstn_length, copy_length, skipn_length. lia.
Qed.

(* ---------------------------------------------------------------------------------------- *)
(** A slice that lies inside an existing array. *)
Definition valid (h : heap) (s : gslice) : Prop :=
  exists a, nth_error h (s_arr s) = Some a /\ 0 <= s_off s /\ 0 <= s_len s /\ s_off s + s_len s <= zlen a.

(** Two slices that share no byte. *)
Definition apart (s t : gslice) : Prop :=
  s_arr s <> s_arr t \/ s_off s + s_len s <= s_off t \/ s_off t + s_len t <= s_off s.

Lemma valid_read h s : valid h s -> exists l, read h s = Ok l /\ zlen l = s_len s.
Proof.
  intros (a & E & H1 & H2 & H3). unfold read. rewrite E. cbn [of_opt bind].
  destruct (slice_exists a (s_off s) (s_off s + s_len s)) as [l El]; try lia.
  exists l. rewrite El. split; [reflexivity|]. apply slice_length in El. lia.
Qed.

Lemma read_valid h s l : read h s = Ok l -> valid h s /\ zlen l = s_len s.
Proof.
  unfold read. destruct (nth_error h (s_arr s)) as [a|] eqn:E; cbn [of_opt bind]; [|discriminate].
  destruct (slice a _ _) as [x|] eqn:S; cbn [of_opt]; [|discriminate]. intros H. injection H as <-.
  apply slice_length in S. split; [exists a; repeat split; [auto|lia..]|lia].
Qed.

Lemma reslice_ok s lo hi : 0 <= lo <= hi -> hi <= s_len s ->
  reslice s lo hi = Ok (mkSlice (s_arr s) (s_off s + lo) (hi - lo)).
Proof. intros. unfold reslice. replace ((0 <=? lo) && (lo <=? hi) && (hi <=? s_len s)) with true by lia. reflexivity. Qed.

Lemma reslice_valid h s lo hi : valid h s -> 0 <= lo <= hi -> hi <= s_len s ->
  valid h (mkSlice (s_arr s) (s_off s + lo) (hi - lo)).
Proof. intros (a & E & H1 & H2 & H3) ? ?. exists a. cbn [s_arr s_off s_len]. repeat split; [auto|lia..]. Qed.

Lemma nth_error_set_nth {A} n (v : A) l : (n < length l)%nat -> nth_error (set_nth n v l) n = Some v.
Proof. apply set_nth_same. Qed.

Section HCopy.
  Context (h : heap) (dst : gslice) (src : list Z) (Hv : valid h dst) (Hs : zlen src <= s_len dst).

  Lemma hcopy_ok : exists h', hcopy h dst src = Ok h' /\ length h' = length h /\
    (exists a a', nth_error h (s_arr dst) = Some a /\ nth_error h' (s_arr dst) = Some a' /\ copy_at a (s_off dst) src = Some a' /\ s_off dst + zlen src <= zlen a) /\
    (forall i, i <> s_arr dst -> nth_error h' i = nth_error h i).
  Proof.
    destruct Hv as (a & E & H1 & H2 & H3). unfold hcopy. rewrite E. cbn [of_opt bind].
    rewrite firstn_all2 by (unfold zlen in *; lia).
    destruct (copy_at a (s_off dst) src) as [a'|] eqn:C.
    - cbn [of_opt bind]. eexists. split; [reflexivity|]. split; [apply set_nth_length|]. split.
      + exists a, a'. split; [reflexivity|]. split; [|split; [auto|lia]]. apply set_nth_same. apply nth_error_Some. congruence.
      + intros i Hi. apply set_nth_other; auto.
    - rewrite copy_at_some in C by lia. discriminate.
  Qed.

  Lemma hcopy_read_other h' t : hcopy h dst src = Ok h' ->
    apart t (mkSlice (s_arr dst) (s_off dst) (zlen src)) -> read h' t = read h t.
  Proof.
    intros E A. destruct hcopy_ok as (h1 & E1 & _ & (a & a' & N & N' & C & F) & O). rewrite E in E1. injection E1 as <-.
    unfold read. destruct (Nat.eq_dec (s_arr t) (s_arr dst)) as [Ea|Ea]; [|now rewrite O].
    rewrite Ea, N, N'. cbn [of_opt bind]. f_equal. destruct A as [A|[A|A]]; cbn [s_arr s_off s_len] in A; [contradiction| |].
    - now apply (slice_patch_before a src (s_off dst)).
    - now apply (slice_patch_after a src (s_off dst)).
  Qed.

  Lemma hcopy_read_same h' : hcopy h dst src = Ok h' -> read h' (mkSlice (s_arr dst) (s_off dst) (zlen src)) = Ok src.
  Proof.
    intros E. destruct hcopy_ok as (h1 & E1 & _ & (a & a' & N & N' & C & F) & O). rewrite E in E1. injection E1 as <-.
    unfold read. cbn [s_arr s_off s_len]. rewrite N'. cbn [of_opt bind]. now rewrite (slice_patch_same a src).
  Qed.

  Lemma hcopy_valid h' t : hcopy h dst src = Ok h' -> valid h t -> valid h' t.
  Proof.
    intros E (b & Eb & B). destruct hcopy_ok as (h1 & E1 & _ & (a & a' & N & N' & C & F) & O). rewrite E in E1. injection E1 as <-.
    destruct (Nat.eq_dec (s_arr t) (s_arr dst)) as [Ea|Ea].
    - exists a'. rewrite Ea in *. apply copy_at_length in C. rewrite N in Eb. injection Eb as <-. split; [auto|lia].
    - exists b. rewrite O by auto. auto.
  Qed.
End HCopy.

Lemma read_cat h s arr off n m a b : s = mkSlice arr off (n + m) -> 0 <= n ->
  read h (mkSlice arr off n) = Ok a -> read h (mkSlice arr (off + n) m) = Ok b -> read h s = Ok (a ++ b).
Proof.
  intros -> Hn. unfold read. cbn [s_arr s_off s_len]. destruct (nth_error h arr) as [l|]; cbn [of_opt bind]; [|discriminate].
  destruct (slice l off (off + n)) as [x|] eqn:X; cbn [of_opt]; [|discriminate]. intros H. injection H as <-.
  destruct (slice l (off + n) (off + n + m)) as [y|] eqn:Y; cbn [of_opt]; [|discriminate]. intros H. injection H as <-.
  replace (off + (n + m)) with (off + n + m) by lia. now rewrite (slice_cat l off (off + n) (off + n + m) x y).
Qed.

(** appending an array *)
Lemma read_app h x t : (s_arr t < length h)%nat -> read (h ++ x) t = read h t.
Proof. intros H. unfold read. now rewrite nth_error_app1. Qed.

Lemma valid_app h x t : valid h t -> valid (h ++ x) t.
Proof. intros (a & E & B). exists a. split; [|auto]. rewrite nth_error_app1; [auto|]. apply nth_error_Some. congruence. Qed.

Lemma valid_lt h t : valid h t -> (s_arr t < length h)%nat.
Proof. intros (a & E & _). apply nth_error_Some. congruence. Qed.

Lemma make_ok h n : 0 <= n -> make h n = Ok (h ++ [zeros (Z.to_nat n)], mkSlice (length h) 0 n).
Proof. intros. unfold make, assert. replace (0 <=? n) with true by lia. reflexivity. Qed.

Lemma make_valid h n : 0 <= n -> valid (h ++ [zeros (Z.to_nat n)]) (mkSlice (length h) 0 n).
Proof.
  intros. exists (zeros (Z.to_nat n)). cbn [s_arr s_off s_len]. rewrite nth_error_app2, Nat.sub_diag by lia.
  split; [reflexivity|]. unfold zlen. rewrite zeros_length. lia.
Qed.

(** lists seen from the end *)
Lemma snoc_cases {A} (l : list A) : l = [] \/ exists f x, l = f ++ [x].
Proof. destruct l using rev_ind; [now left|right; eauto]. Qed.

Lemma last_of_snoc {A} (f : list A) x : last_of (f ++ [x]) = Some x.
Proof. induction f as [|y f IH]; [reflexivity|]. cbn. destruct (f ++ [x]) eqn:E; [destruct f; discriminate|]. exact IH. Qed.

Lemma removelast_snoc {A} (f : list A) x : removelast (f ++ [x]) = f.
Proof. rewrite removelast_app by discriminate. cbn. apply app_nil_r. Qed.

Lemma snoc_not_nil {A} (f : list A) x : f ++ [x] <> [].
Proof. destruct f; discriminate. Qed.

Lemma first_of_snoc {A} (f : list A) x : first_of (f ++ [x]) = Some (match f with [] => x | y :: _ => y end).
Proof. destruct f; reflexivity. Qed.

Lemma Forall2_snoc_inv {A B} (R : A -> B -> Prop) l m x : Forall2 R (l ++ [x]) m ->
  exists m' y, m = m' ++ [y] /\ Forall2 R l m' /\ R x y.
Proof.
  intros H. apply Forall2_app_inv_l in H as (m1 & m2 & F1 & F2 & ->). inversion F2 as [|? y ? l' Hx Hl]; subst.
  inversion Hl; subst. eauto.
Qed.
Lemma Forall2_snoc {A B} (R : A -> B -> Prop) l m x y : Forall2 R l m -> R x y -> Forall2 R (l ++ [x]) (m ++ [y]).
Proof. intros. apply Forall2_app; auto. Qed.

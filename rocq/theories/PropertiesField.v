(** * PropertiesField: C153, bit fields next to each other. *)
From Verif Require Import Base BitSpec BufioModel BitsProofs BitCursorProofs PropertiesBufio PropertiesCursor.
From Coq Require Import List.
Import ListNotations.
Local Open Scope list_scope.

Lemma write_at data s n v : bytes_ok data -> 0 <= s -> exists data', write_bits data s n v = Ok data' /\ bytes_ok data' /\ length data' = length data /\
  forall j, 0 <= j -> nth_error (bits_of_bytes data') (Z.to_nat j) = if (s <=? j) && (j <? s + n) && (j <? 8 * zlen data) then Some (Z.testbit v (s + n - 1 - j)) else nth_error (bits_of_bytes data) (Z.to_nat j).
Proof.
  intros B Hs. pose proof (C107_write_exact data s n v B) as H. replace (s <=? -8) with false in H by lia. rewrite andb_false_r in H. destruct H as (d & E & Bd & Ld & N). exists d. split; [|auto].
  unfold bw_write in E. cbn [bc_data bc_off] in E. destruct (write_bits data s n v) as [x| | |]; cbn [bind] in E; try discriminate E. injection E as ->. reflexivity.
Qed.
Lemma bytes_by_bits l m : bytes_ok l -> bytes_ok m -> (forall j, 0 <= j -> nth_error (bits_of_bytes l) (Z.to_nat j) = nth_error (bits_of_bytes m) (Z.to_nat j)) -> l = m.
Proof.
  intros Bl Bm H. apply bits_of_bytes_inj; auto. assert (E : forall i, nth_error (bits_of_bytes l) i = nth_error (bits_of_bytes m) i) by (intros i; specialize (H (Z.of_nat i) ltac:(lia)); now rewrite Nat2Z.id in H).
  clear -E. revert E. generalize (bits_of_bytes m) as y, (bits_of_bytes l) as x. induction y as [|b y IH]; intros [|a x] E; [reflexivity|specialize (E 0%nat); discriminate E..|].
  pose proof (E 0%nat) as E0. cbn in E0. injection E0 as ->. f_equal. apply IH. intros i. exact (E (S i)).
Qed.
Lemma part_by_bits (l m : list bool) s n : 0 <= s -> (forall j, s <= j < s + n -> nth_error l (Z.to_nat j) = nth_error m (Z.to_nat j)) ->
  firstn (Z.to_nat n) (skipn (Z.to_nat s) l) = firstn (Z.to_nat n) (skipn (Z.to_nat s) m).
Proof.
  intros Hs H. assert (G : forall k i (x y : list bool), (forall j, (i <= j < i + k)%nat -> nth_error x j = nth_error y j) -> firstn k (skipn i x) = firstn k (skipn i y)).
  { clear. intros k. induction k as [|k IH]; intros i x y E; [reflexivity|]. assert (E0 := E i ltac:(lia)). specialize (IH (S i) x y ltac:(intros j Hj; apply E; lia)).
    assert (S1 : forall z : list bool, skipn i z = match nth_error z i with Some b => b :: skipn (S i) z | None => [] end).
    { clear. induction i as [|i IH]; intros [|a z]; try reflexivity. cbn [nth_error skipn]. rewrite IH. destruct (nth_error z i); reflexivity. }
    rewrite (S1 x), (S1 y), E0. destruct (nth_error y i); [|reflexivity]. cbn [firstn]. now rewrite IH. }
  apply G. intros j Hj. specialize (H (Z.of_nat j) ltac:(lia)). now rewrite !Nat2Z.id in H.
Qed.

(** ** C153 *)
(** Fields that do not overlap can be written in either order. *)
Theorem C153_commute : forall data s1 n1 v1 s2 n2 v2, bytes_ok data -> 0 <= s1 -> 0 <= s2 -> s1 + n1 <= s2 \/ s2 + n2 <= s1 ->
  (d <- write_bits data s1 n1 v1;; write_bits d s2 n2 v2) = (d <- write_bits data s2 n2 v2;; write_bits d s1 n1 v1).
Proof.
  intros data s1 n1 v1 s2 n2 v2 B H1 H2 D. destruct (write_at data s1 n1 v1 B H1) as (a & Ea & Ba & La & Na). destruct (write_at data s2 n2 v2 B H2) as (b & Eb & Bb & Lb & Nb). rewrite Ea, Eb. cbn [bind].
  destruct (write_at a s2 n2 v2 Ba H2) as (x & Ex & Bx & Lx & Nx). destruct (write_at b s1 n1 v1 Bb H1) as (y & Ey & By & Ly & Ny). rewrite Ex, Ey. f_equal. apply bytes_by_bits; auto. intros j Hj. rewrite Nx, Ny, Na, Nb by lia.
  replace (zlen a) with (zlen data) by (unfold zlen; lia). replace (zlen b) with (zlen data) by (unfold zlen; lia).
  destruct ((s2 <=? j) && (j <? s2 + n2) && (j <? 8 * zlen data)) eqn:C2; [|reflexivity]. replace ((s1 <=? j) && (j <? s1 + n1) && (j <? 8 * zlen data)) with false by lia. reflexivity.
Qed.
Print Assumptions C153_commute.
(** A field that is written over is gone. *)
Theorem C153_overwrite : forall data s1 n1 v1 s2 n2 v2, bytes_ok data -> 0 <= s2 <= s1 -> s1 + n1 <= s2 + n2 ->
  (d <- write_bits data s1 n1 v1;; write_bits d s2 n2 v2) = write_bits data s2 n2 v2.
Proof.
  intros data s1 n1 v1 s2 n2 v2 B H D. destruct (write_at data s1 n1 v1 B ltac:(lia)) as (a & Ea & Ba & La & Na). destruct (write_at data s2 n2 v2 B ltac:(lia)) as (b & Eb & Bb & Lb & Nb). rewrite Ea, Eb. cbn [bind].
  destruct (write_at a s2 n2 v2 Ba ltac:(lia)) as (x & Ex & Bx & Lx & Nx). rewrite Ex. f_equal. apply bytes_by_bits; auto. intros j Hj. rewrite Nx, Nb, Na by lia. replace (zlen a) with (zlen data) by (unfold zlen; lia).
  destruct ((s2 <=? j) && (j <? s2 + n2) && (j <? 8 * zlen data)) eqn:C2; [reflexivity|]. replace ((s1 <=? j) && (j <? s1 + n1) && (j <? 8 * zlen data)) with false by lia. reflexivity.
Qed.
Print Assumptions C153_overwrite.
(** Reading a field does not see what is written elsewhere. *)
Theorem C153_read_elsewhere : forall data s1 n1 v1 s2 n2, bytes_ok data -> 0 <= s1 -> 0 <= s2 -> 0 <= n2 -> s1 + n1 <= s2 \/ s2 + n2 <= s1 ->
  (d <- write_bits data s1 n1 v1;; read_bits d s2 n2) = read_bits data s2 n2.
Proof.
  intros data s1 n1 v1 s2 n2 B H1 H2 Hn D. destruct (write_at data s1 n1 v1 B H1) as (a & Ea & Ba & La & Na). rewrite Ea. cbn [bind]. rewrite !C01_read_bits_value by auto. do 2 f_equal. f_equal. apply part_by_bits; [exact H2|].
  intros j Hj. rewrite Na by lia. now replace ((s1 <=? j) && (j <? s1 + n1) && (j <? 8 * zlen data)) with false by lia.
Qed.
Print Assumptions C153_read_elsewhere.
(** A field may be read in two parts, and written in two parts. *)
Theorem C153_read_parts : forall data s n m, bytes_ok data -> 0 <= s -> 0 <= n -> 0 <= m -> s + n + m <= 8 * zlen data ->
  read_bits data s (n + m) = (a <- read_bits data s n;; b <- read_bits data (s + n) m;; Ok ((a * 2 ^ m + b) mod 2 ^ 64)).
Proof.
  intros data s n m B Hs Hn Hm L. rewrite !C01_read_bits_value by (auto; lia). cbn [bind]. f_equal. set (l := bits_of_bytes data). assert (Ll : zlen l = 8 * zlen data) by apply bits_of_bytes_zlen.
  assert (G : forall a b (x : list bool), firstn (a + b) x = firstn a x ++ firstn b (skipn a x)) by (clear; induction a as [|a IH]; intros b [|x l]; try reflexivity; [cbn; now rewrite firstn_nil|cbn [Nat.add firstn skipn app]; now rewrite IH]).
  replace (Z.to_nat (n + m)) with (Z.to_nat n + Z.to_nat m)%nat by lia. rewrite G, skipn_skipn. replace (Z.to_nat s + Z.to_nat n)%nat with (Z.to_nat (s + n)) by lia. rewrite bits_value_app.
  assert (Lm : zlen (firstn (Z.to_nat m) (skipn (Z.to_nat (s + n)) l)) = m) by (unfold zlen in *; rewrite firstn_length, skipn_length; lia). rewrite Lm.
  rewrite Z.add_mod, (Z.add_mod (_ mod _ * _)) by lia. rewrite Z.mul_mod_idemp_l by lia. now rewrite Z.mod_mod by lia.
Qed.
Print Assumptions C153_read_parts.
Theorem C153_write_parts : forall data s n m v, bytes_ok data -> 0 <= s -> 0 <= n -> 0 <= m -> 0 <= v ->
  write_bits data s (n + m) v = (d <- write_bits data s n (v / 2 ^ m);; write_bits d (s + n) m (v mod 2 ^ m)).
Proof.
  intros data s n m v B Hs Hn Hm Hv. destruct (write_at data s n (v / 2 ^ m) B Hs) as (a & Ea & Ba & La & Na). destruct (write_at data s (n + m) v B Hs) as (b & Eb & Bb & Lb & Nb). rewrite Ea, Eb. cbn [bind].
  destruct (write_at a (s + n) m (v mod 2 ^ m) Ba ltac:(lia)) as (x & Ex & Bx & Lx & Nx). rewrite Ex. f_equal. apply bytes_by_bits; auto. intros j Hj. rewrite Nx, Nb, Na by lia. replace (zlen a) with (zlen data) by (unfold zlen; lia).
  destruct ((s <=? j) && (j <? s + (n + m)) && (j <? 8 * zlen data)) eqn:C.
  - destruct (Z.lt_ge_cases j (s + n)) as [Q|Q].
    + replace ((s + n <=? j) && (j <? s + n + m) && (j <? 8 * zlen data)) with false by lia. replace ((s <=? j) && (j <? s + n) && (j <? 8 * zlen data)) with true by lia. f_equal. rewrite Z.div_pow2_bits by lia. f_equal. lia.
    + replace ((s + n <=? j) && (j <? s + n + m) && (j <? 8 * zlen data)) with true by lia. f_equal. rewrite Z.mod_pow2_bits_low by lia. f_equal. lia.
  - replace ((s + n <=? j) && (j <? s + n + m) && (j <? 8 * zlen data)) with false by lia. now replace ((s <=? j) && (j <? s + n) && (j <? 8 * zlen data)) with false by lia.
Qed.
Print Assumptions C153_write_parts.
(** Writing back what was read changes nothing. *)
Theorem C153_write_back : forall data s n, bytes_ok data -> 0 <= s -> 0 <= n <= 64 -> s + n <= 8 * zlen data ->
  (v <- read_bits data s n;; write_bits data s n v) = Ok data.
Proof.
  intros data s n B Hs Hn L. rewrite C01_read_bits_value by (auto; lia). cbn [bind]. set (f := firstn (Z.to_nat n) (skipn (Z.to_nat s) (bits_of_bytes data))).
  pose proof (bits_of_bytes_zlen data) as Ll. assert (Lf : zlen f = n) by (unfold f, zlen in *; rewrite firstn_length, skipn_length; lia). pose proof (bits_value_bound f) as Bf. rewrite Lf in Bf.
  assert (2 ^ n <= 2 ^ 64) by (apply Z.pow_le_mono_r; lia). rewrite Z.mod_small by lia. destruct (write_at data s n (bits_value f) B Hs) as (a & Ea & Ba & La & Na). rewrite Ea. f_equal. apply bytes_by_bits; auto. intros j Hj. rewrite Na by lia.
  destruct ((s <=? j) && (j <? s + n) && (j <? 8 * zlen data)) eqn:C; [|reflexivity].
  pose proof (be_bits_eq_bits f) as E. assert (Hf : nth_error f (Z.to_nat (j - s)) = nth_error (bits_of_bytes data) (Z.to_nat j)).
  { unfold f. assert (G : forall k i (l : list bool), (i < k)%nat -> nth_error (firstn k l) i = nth_error l i) by (clear; induction k as [|k IH]; intros [|i] [|x l] H; try lia; try reflexivity; cbn; apply IH; lia). rewrite G by lia.
    assert (G2 : forall k i (l : list bool), nth_error (skipn k l) i = nth_error l (k + i)) by (clear; induction k as [|k IH]; intros i [|x l]; try reflexivity; [now destruct i|apply IH]). rewrite G2. f_equal. lia. }
  pose proof (nth_be_bits (length f) (bits_value f) (Z.to_nat (j - s)) ltac:(unfold zlen in *; lia)) as Q. rewrite E in Q. rewrite <- Hf, Q. do 2 f_equal. unfold zlen in *. lia.
Qed.
Print Assumptions C153_write_back.
Example C153_example : (d <- write_bits [0; 0; 0] 3 7 85;; write_bits d 10 4 9) = Ok [21; 100; 0] /\ (d <- write_bits [0; 0; 0] 10 4 9;; write_bits d 3 7 85) = Ok [21; 100; 0] /\
  read_bits [21; 100; 0] 3 11 = Ok (85 * 2 ^ 4 + 9) /\ write_bits [0; 0; 0] 3 11 (85 * 2 ^ 4 + 9) = Ok [21; 100; 0] /\ write_bits [21; 100; 0] 3 11 1369 = Ok [21; 100; 0].
Proof. vm_compute. auto. Qed.

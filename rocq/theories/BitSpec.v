(** * BitSpec: bit-level reading of byte strings.

    Independent of the repository: the usual "most significant bit first" view used by
    ISO/IEC 14496-10 (7.2) and 23008-2, plus the exp-Golomb codes of 9.1. *)
From Verif Require Import Base.

(** The 8 bits of a byte, most significant first. *)
Definition bits_of_byte (b : Z) : list bool := map (fun k => Z.testbit b k) [7; 6; 5; 4; 3; 2; 1; 0].

Definition bits_of_bytes (l : list Z) : list bool := flat_map bits_of_byte l.

(** Value of a bit string read most significant bit first. *)
Definition bits_value (l : list bool) : Z := fold_left (fun a b => 2 * a + Z.b2z b) l 0.

(** The n low bits of v, most significant first. *)
Fixpoint be_bits (n : nat) (v : Z) : list bool :=
  match n with
  | O => []
  | S k => Z.testbit v (Z.of_nat k) :: be_bits k v
  end.

(** ue(v): v+1 in binary, preceded by one zero per bit after the leading one. *)
Definition ue_code (v : Z) : list bool :=
  let k := Z.to_nat (Z.log2 (v + 1)) in
  repeat false k ++ be_bits (S k) (v + 1).

(** se(v): 1 -> 1, -1 -> 2, 2 -> 3, ... *)
Definition se_code (v : Z) : list bool := ue_code (if 0 <? v then 2 * v - 1 else - 2 * v).

(* ------------------------------------------------------------------------------------------ *)

Lemma bits_of_byte_length b : length (bits_of_byte b) = 8%nat.
Proof. reflexivity. Qed.

Lemma bits_of_bytes_length l : length (bits_of_bytes l) = (8 * length l)%nat.
Proof. induction l as [|x l IH]; [reflexivity|]. cbn [bits_of_bytes flat_map]. rewrite app_length, bits_of_byte_length. cbn [length]. unfold bits_of_bytes in IH. lia. Qed.

Lemma bits_of_bytes_zlen l : zlen (bits_of_bytes l) = 8 * zlen l.
Proof. unfold zlen. rewrite bits_of_bytes_length. lia. Qed.

Lemma bits_of_bytes_app l m : bits_of_bytes (l ++ m) = bits_of_bytes l ++ bits_of_bytes m.
Proof. apply flat_map_app. Qed.

Lemma bits_of_bytes_cons x l : bits_of_bytes (x :: l) = bits_of_byte x ++ bits_of_bytes l.
Proof. reflexivity. Qed.

Lemma bits_of_bytes_firstn n l : bits_of_bytes (firstn n l) = firstn (8 * n) (bits_of_bytes l).
Proof.
  revert l; induction n as [|n IH]; intros l; [reflexivity|].
  destruct l as [|x l]; [now rewrite firstn_nil|].
  cbn [firstn]. rewrite !bits_of_bytes_cons, IH.
  rewrite firstn_app, bits_of_byte_length. rewrite (firstn_all2 (n := (8 * S n))) by (rewrite bits_of_byte_length; lia).
  do 2 f_equal. lia.
Qed.

Lemma bits_of_bytes_skipn n l : bits_of_bytes (skipn n l) = skipn (8 * n) (bits_of_bytes l).
Proof.
  revert l; induction n as [|n IH]; intros l; [reflexivity|].
  destruct l as [|x l]; [now rewrite skipn_nil|].
  cbn [skipn]. rewrite bits_of_bytes_cons, IH.
  rewrite skipn_app, bits_of_byte_length. rewrite (skipn_all2 (n := (8 * S n))) by (rewrite bits_of_byte_length; lia).
  cbn [app]. f_equal. lia.
Qed.

Lemma nth_error_nil {A} n : nth_error (@nil A) n = None.
Proof. destruct n; reflexivity. Qed.

Lemma nth_bits_of_byte b k : (k < 8)%nat -> nth_error (bits_of_byte b) k = Some (Z.testbit b (7 - Z.of_nat k)).
Proof. intros H. do 8 (destruct k as [|k]; [reflexivity|]). lia. Qed.

Lemma nth_bits_of_bytes l i :
  nth_error (bits_of_bytes l) i =
  option_map (fun b => Z.testbit b (7 - Z.of_nat (i mod 8))) (nth_error l (i / 8)).
Proof.
  revert i; induction l as [|x l IH]; intros i.
  - cbn [bits_of_bytes flat_map]. rewrite !nth_error_nil. reflexivity.
  - rewrite bits_of_bytes_cons. destruct (Nat.lt_ge_cases i 8) as [H|H].
    + rewrite nth_error_app1 by (rewrite bits_of_byte_length; lia).
      rewrite Nat.div_small, Nat.mod_small by lia. cbn. now apply nth_bits_of_byte.
    + rewrite nth_error_app2 by (rewrite bits_of_byte_length; lia). rewrite bits_of_byte_length, IH.
      assert (E : exists j, i = (j + 1 * 8)%nat) by (exists (i - 8)%nat; lia). destruct E as [j ->].
      rewrite Nat.div_add, Nat.mod_add by lia. replace (j + 1 * 8 - 8)%nat with j by lia.
      rewrite Nat.add_1_r. reflexivity.
Qed.

Lemma bits_value_fold l a : fold_left (fun a b => 2 * a + Z.b2z b) l a = a * 2 ^ zlen l + bits_value l.
Proof.
  unfold bits_value. revert a. induction l as [|x l IH]; intros a; cbn [fold_left].
  - rewrite zlen_nil. cbn. lia.
  - rewrite (IH (2 * a + _)), (IH (2 * 0 + _)), zlen_cons.
    rewrite Z.pow_add_r by (pose proof (zlen_nonneg l); lia). ring.
Qed.

Lemma bits_value_cons x l : bits_value (x :: l) = Z.b2z x * 2 ^ zlen l + bits_value l.
Proof. unfold bits_value at 1. cbn [fold_left]. rewrite bits_value_fold. ring. Qed.

Lemma bits_value_app l m : bits_value (l ++ m) = bits_value l * 2 ^ zlen m + bits_value m.
Proof. unfold bits_value at 1. rewrite fold_left_app, bits_value_fold. reflexivity. Qed.

Lemma bits_value_snoc l b : bits_value (l ++ [b]) = 2 * bits_value l + Z.b2z b.
Proof. rewrite bits_value_app. change (zlen [b]) with 1. unfold bits_value at 2. cbn [fold_left]. lia. Qed.

Lemma bits_value_bound l : 0 <= bits_value l < 2 ^ zlen l.
Proof.
  induction l as [|x l IH]; [cbn; lia|].
  rewrite bits_value_cons, zlen_cons, Z.pow_add_r by (pose proof (zlen_nonneg l); lia).
  destruct x; cbn [Z.b2z]; lia.
Qed.

Lemma be_bits_length n v : length (be_bits n v) = n.
Proof. induction n; cbn; auto. Qed.

Lemma be_bits_zlen n v : zlen (be_bits n v) = Z.of_nat n.
Proof. unfold zlen. now rewrite be_bits_length. Qed.

Lemma mod_succ_bit v k : 0 <= k -> v mod 2 ^ (k + 1) = Z.b2z (Z.testbit v k) * 2 ^ k + v mod 2 ^ k.
Proof.
  intros Hk. rewrite Z.pow_add_r by lia. rewrite Z.rem_mul_r by (try apply Z.pow_nonzero; lia).
  rewrite Z.testbit_spec' by lia. change (2 ^ 1) with 2. lia.
Qed.

Lemma be_bits_value n v : bits_value (be_bits n v) = v mod 2 ^ Z.of_nat n.
Proof.
  induction n as [|n IH].
  - cbn. now rewrite Z.mod_1_r.
  - cbn [be_bits]. rewrite bits_value_cons, IH, be_bits_zlen, Nat2Z.inj_succ.
    unfold Z.succ. rewrite mod_succ_bit by lia. reflexivity.
Qed.

Lemma nth_be_bits n v k : (k < n)%nat -> nth_error (be_bits n v) k = Some (Z.testbit v (Z.of_nat n - 1 - Z.of_nat k)).
Proof.
  revert k; induction n as [|n IH]; intros k H; [lia|].
  destruct k as [|k]; cbn [be_bits nth_error].
  - do 2 f_equal. lia.
  - rewrite IH by lia. do 2 f_equal. lia.
Qed.

Lemma nth_error_ext {A} (l m : list A) : (forall i, nth_error l i = nth_error m i) -> l = m.
Proof.
  revert m; induction l as [|x l IH]; intros [|y m] H; auto.
  - specialize (H 0%nat); discriminate.
  - specialize (H 0%nat); discriminate.
  - pose proof (H 0%nat) as H0. cbn in H0. injection H0 as ->. f_equal. apply IH. intros i. exact (H (S i)).
Qed.

Lemma be_bits_eq_bits l : be_bits (length l) (bits_value l) = l.
Proof.
  induction l as [|x l IH]; [reflexivity|].
  cbn [length be_bits]. rewrite bits_value_cons. pose proof (bits_value_bound l) as B. unfold zlen in *. f_equal.
  - assert (Hp : 0 < 2 ^ Z.of_nat (length l)) by (apply Z.pow_pos_nonneg; lia).
    apply Z.b2z_inj. rewrite Z.testbit_spec' by lia. rewrite Z.div_add_l by lia. rewrite Z.div_small by lia.
    destruct x; reflexivity.
  - transitivity (be_bits (length l) (bits_value l)); [|exact IH].
    assert (G : forall n k a v, (n <= k)%nat -> be_bits n (a * 2 ^ Z.of_nat k + v) = be_bits n v).
    { clear. intros n k a v. induction n as [|n IH]; intros Hn; [reflexivity|]. cbn [be_bits]. f_equal; [|apply IH; lia].
      apply Z.b2z_inj. rewrite !Z.testbit_spec' by lia.
      replace (a * 2 ^ Z.of_nat k) with (a * 2 ^ (Z.of_nat k - Z.of_nat n - 1) * 2 * 2 ^ Z.of_nat n).
      - rewrite Z.div_add_l by (apply Z.pow_nonzero; lia).
        rewrite Z.add_comm, Z.mod_add by lia. reflexivity.
      - rewrite <- (Z.mul_assoc (a * _)), <- Z.mul_assoc. f_equal.
        replace (2 * 2 ^ Z.of_nat n) with (2 ^ (1 + Z.of_nat n)) by (rewrite Z.pow_add_r; lia).
        rewrite <- Z.pow_add_r by lia. f_equal. lia. }
    apply G. lia.
Qed.

Lemma bits_of_byte_be b : bits_of_byte b = be_bits 8 b.
Proof. reflexivity. Qed.

Lemma bits_of_byte_inj a b : byte_ok a -> byte_ok b -> bits_of_byte a = bits_of_byte b -> a = b.
Proof.
  intros Ha Hb H. unfold byte_ok in *. rewrite (bits_of_byte_be a), (bits_of_byte_be b) in H. apply (f_equal bits_value) in H.
  rewrite (be_bits_value 8 a), (be_bits_value 8 b) in H. change (2 ^ Z.of_nat 8) with 256 in H. rewrite !Z.mod_small in H by lia. exact H.
Qed.

Lemma bits_of_bytes_inj l m : bytes_ok l -> bytes_ok m -> bits_of_bytes l = bits_of_bytes m -> l = m.
Proof.
  revert m; induction l as [|x l IH]; intros m Hl Hm H.
  - destruct m; [reflexivity|discriminate].
  - destruct m as [|y m]; [discriminate|].
    inversion Hl; inversion Hm; subst. rewrite !bits_of_bytes_cons in H.
    assert (bits_of_byte x = bits_of_byte y /\ bits_of_bytes l = bits_of_bytes m) as [E1 E2].
    { split.
      - apply (f_equal (firstn 8)) in H. now rewrite !firstn_app, !bits_of_byte_length, !Nat.sub_diag, !firstn_O, !app_nil_r, !firstn_all2 in H by (rewrite bits_of_byte_length; lia).
      - apply (f_equal (skipn 8)) in H. now rewrite !skipn_app, !bits_of_byte_length, !Nat.sub_diag, !skipn_O, !skipn_all2 in H by (rewrite bits_of_byte_length; lia). }
    f_equal; [now apply bits_of_byte_inj|now apply IH].
Qed.

Lemma bits_of_bytes_value l : bytes_ok l -> bits_value (bits_of_bytes l) = be_value l.
Proof.
  induction l as [|x l IH]; intros H; [reflexivity|].
  inversion H as [|? ? Hx Hl]; subst. rewrite bits_of_bytes_cons, bits_value_app, be_value_cons, (IH Hl).
  rewrite bits_of_byte_be, be_bits_value, bits_of_bytes_zlen. change (2 ^ Z.of_nat 8) with 256.
  unfold byte_ok in Hx. rewrite Z.mod_small by lia. rewrite Z.pow_mul_r by (pose proof (zlen_nonneg l); lia). reflexivity.
Qed.

(** A list known around a segment. *)
Lemma firstn_skipn_mid {A} (l : list A) a b c : l = a ++ b ++ c -> firstn (length b) (skipn (length a) l) = b.
Proof.
  intros ->. rewrite skipn_app, skipn_all, Nat.sub_diag, skipn_O. cbn [app].
  rewrite firstn_app, firstn_all, Nat.sub_diag, firstn_O, app_nil_r. reflexivity.
Qed.

Lemma ue_code_length v : 0 <= v -> length (ue_code v) = (2 * Z.to_nat (Z.log2 (v + 1)) + 1)%nat.
Proof. intros H. unfold ue_code. rewrite app_length, repeat_length, be_bits_length. lia. Qed.

(** The code of v is k zeros, a one and the k low bits of v+1. *)
Lemma ue_code_shape v : 0 <= v ->
  ue_code v = repeat false (Z.to_nat (Z.log2 (v + 1))) ++ true :: be_bits (Z.to_nat (Z.log2 (v + 1))) (v + 1).
Proof.
  intros H. unfold ue_code. cbn [be_bits]. do 2 f_equal.
  rewrite Z2Nat.id by apply Z.log2_nonneg. apply Z.bit_log2. lia.
Qed.

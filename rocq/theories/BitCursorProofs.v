(** * BitCursorProofs: BitsReader and BitsWriter at every offset. *)
From Verif Require Import Base BitSpec BufioModel BitsProofs.

Lemma set_nth_id {A} (l : list A) : forall n x, nth_error l n = Some x -> set_nth n x l = l.
Proof. induction l as [|y l IH]; intros [|n] x H; cbn in *; try discriminate; [now injection H as ->|]. f_equal. now apply IH. Qed.

Lemma quot_neg c : -8 < c < 0 -> Z.quot c 8 = 0 /\ Z.rem c 8 = c.
Proof. intros H. Z.to_euclidean_division_equations; lia. Qed.

(** From -8 on: panics, whatever the data. *)
Lemma read_bits_far data off n : off <= -8 -> 0 < n -> read_bits data off n = Panic.
Proof.
  intros H Hn. unfold read_bits. destruct (Z.to_nat n) as [|k] eqn:E; [lia|]. cbn [read_bits_loop].
  assert (Q : Z.quot off 8 < 0) by (clear Hn; Z.to_euclidean_division_equations; lia).
  pose proof (zlen_nonneg data). replace (Z.quot off 8 >=? zlen data) with false by lia. unfold idx. replace (Z.quot off 8 <? 0) with true by lia. reflexivity.
Qed.
Lemma write_bits_far data off n v : off <= -8 -> 0 < n -> write_bits data off n v = Panic.
Proof.
  intros H Hn. unfold write_bits. destruct (Z.to_nat n) as [|k] eqn:E; [lia|]. cbn [write_bits_loop].
  assert (Q : Z.quot off 8 < 0) by (clear Hn; Z.to_euclidean_division_equations; lia).
  pose proof (zlen_nonneg data). replace (Z.quot off 8 >=? zlen data) with false by lia. unfold idx. replace (Z.quot off 8 <? 0) with true by lia. reflexivity.
Qed.

(** Closer: the bits in front of the data read as zero and are not written. *)
Lemma read_loop_near data : bytes_ok data -> forall n cur, -8 < cur <= 0 ->
  read_bits_loop data n cur 0 = read_bits_loop data (n - Z.to_nat (- cur)) 0 0.
Proof.
  intros K. induction n as [|n IH]; intros cur H; [reflexivity|]. destruct (Z.eq_dec cur 0) as [->|Nz]; [now rewrite Nat.sub_0_r|].
  destruct (quot_neg cur ltac:(lia)) as [Q R]. cbn [read_bits_loop]. rewrite Q, R. destruct data as [|b data].
  - cbn [zlen length Z.of_nat Z.geb Z.compare]. destruct (S n - Z.to_nat (- cur))%nat; reflexivity.
  - replace (0 >=? zlen (b :: data)) with false by (rewrite zlen_cons; pose proof (zlen_nonneg data); lia). change (idx (b :: data) 0) with (Some b). cbn [of_opt bind].
    assert (Zb : Z.land (Z.shiftr b (7 - cur)) 1 = 0).
    { apply Forall_cons_iff in K as [Kb _]. unfold byte_ok in Kb. rewrite Z.shiftr_div_pow2 by lia. rewrite Z.div_small; [reflexivity|]. split; [lia|]. apply Z.lt_le_trans with (2 ^ 8); [lia|]. apply Z.pow_le_mono_r; lia. }
    rewrite Zb. change (Z.lor (u64 (Z.shiftl 0 1)) 0) with 0. rewrite IH by lia. f_equal. lia.
Qed.
Lemma write_loop_near data v : forall n cur, -8 < cur <= 0 ->
  write_bits_loop data n cur v = write_bits_loop data (n - Z.to_nat (- cur)) 0 v.
Proof.
  induction n as [|n IH]; intros cur H; [reflexivity|]. destruct (Z.eq_dec cur 0) as [->|Nz]; [now rewrite Nat.sub_0_r|].
  destruct (quot_neg cur ltac:(lia)) as [Q R]. cbn [write_bits_loop]. rewrite Q, R. destruct data as [|b data].
  - cbn [zlen length Z.of_nat Z.geb Z.compare]. destruct (S n - Z.to_nat (- cur))%nat; reflexivity.
  - replace (0 >=? zlen (b :: data)) with false by (rewrite zlen_cons; pose proof (zlen_nonneg data); lia). change (idx (b :: data) 0) with (Some b). cbn [of_opt bind].
    assert (Sh : forall x, u8 (Z.shiftl x (7 - cur)) = 0).
    { intros x. unfold u8. rewrite Z.shiftl_mul_pow2 by lia. replace (7 - cur) with (8 + (- cur - 1)) by lia. rewrite Z.pow_add_r by lia. rewrite (Z.mul_comm (2 ^ 8)), Z.mul_assoc. apply Z.mod_mul. lia. }
    rewrite !Sh, Z.ldiff_0_r, Z.lor_0_r. change (upd (b :: data) 0 b) with (if (0 <=? 0) && (0 <? zlen (b :: data)) then Some (b :: data) else None).
    replace (0 <? zlen (b :: data)) with true by (rewrite zlen_cons; pose proof (zlen_nonneg data); lia). cbn [Z.leb Z.compare andb of_opt bind]. rewrite IH by lia. f_equal. lia.
Qed.
Lemma read_bits_near data off n : bytes_ok data -> -8 < off <= 0 -> read_bits data off n = read_bits data 0 (n + off).
Proof. intros K H. unfold read_bits. rewrite read_loop_near by auto. f_equal. lia. Qed.
Lemma write_bits_near data off n v : -8 < off <= 0 -> write_bits data off n v = write_bits data 0 (n + off) v.
Proof. intros H. unfold write_bits. rewrite write_loop_near by auto. f_equal. lia. Qed.

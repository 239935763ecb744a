(** * BitsProofs: bits_reader.go and bits_writer.go against the bit-string specification. *)
From Verif Require Import Base BitSpec BufioModel.

Lemma land_1_testbit b k : 0 <= k -> Z.land (Z.shiftr b k) 1 = Z.b2z (Z.testbit b k).
Proof.
  intros H. change 1 with (Z.ones 1). rewrite Z.land_ones by lia. change (2 ^ 1) with 2.
  rewrite Z.shiftr_div_pow2 by lia. now rewrite Z.testbit_spec' by lia.
Qed.

Lemma lor_b2z a b : Z.lor (2 * a) (Z.b2z b) = 2 * a + Z.b2z b.
Proof.
  destruct b; cbn [Z.b2z]; [|now rewrite Z.lor_0_r, Z.add_0_r].
  apply Z.bits_inj'; intros n Hn. rewrite Z.lor_spec.
  destruct (Z.eq_dec n 0) as [->|Hz].
  - rewrite Z.testbit_even_0, Z.testbit_odd_0. reflexivity.
  - replace n with (Z.succ (n - 1)) by lia.
    rewrite Z.testbit_even_succ, Z.testbit_odd_succ by lia.
    rewrite (Z.bits_above_log2 1) by (cbn; lia). now rewrite orb_false_r.
Qed.

Lemma u64_double a : u64 (Z.shiftl a 1) = 2 * (a mod 2 ^ 63).
Proof.
  unfold u64. rewrite Z.shiftl_mul_pow2 by lia. change (2 ^ 1) with 2.
  change (2 ^ 64) with (2 ^ 63 * 2). rewrite Z.mul_mod_distr_r by lia. lia.
Qed.

Lemma mod_double_plus a b : (2 * (a mod 2 ^ 63) + Z.b2z b) = (2 * a + Z.b2z b) mod 2 ^ 64.
Proof.
  destruct b; cbn [Z.b2z]; Z.div_mod_to_equations; lia.
Qed.

Lemma skipn_nth_cons {A} (l : list A) n x : nth_error l n = Some x -> skipn n l = x :: skipn (S n) l.
Proof.
  revert n; induction l as [|y l IH]; intros [|n] H; cbn in H; try discriminate.
  - now injection H as ->.
  - cbn [skipn]. now apply IH.
Qed.

Lemma bit_at data cur b : 0 <= cur -> idx data (Z.quot cur 8) = Some b ->
  nth_error (bits_of_bytes data) (Z.to_nat cur) = Some (Z.testbit b (7 - Z.rem cur 8)).
Proof.
  intros H Hb. rewrite Z.quot_div_nonneg in Hb by lia. rewrite Z.rem_mod_nonneg by lia.
  rewrite nth_bits_of_bytes. unfold idx in Hb.
  assert (0 <= cur / 8) by (apply Z.div_pos; lia).
  destruct (cur / 8 <? 0) eqn:E; [lia|]. rewrite Z2Nat.inj_div in Hb by lia.
  change (Z.to_nat 8) with 8%nat in Hb. rewrite Hb. cbn [option_map]. do 3 f_equal.
  rewrite Nat2Z.inj_mod, Z2Nat.id by lia. reflexivity.
Qed.

Lemma rem8_bound cur : 0 <= cur -> 0 <= 7 - Z.rem cur 8 < 8.
Proof. intros H. rewrite Z.rem_mod_nonneg by lia. pose proof (Z.mod_pos_bound cur 8). lia. Qed.

Lemma quot8_ge cur n : 0 <= cur -> (Z.quot cur 8 >=? n) = (8 * n <=? cur).
Proof. intros H. rewrite Z.quot_div_nonneg by lia. Z.div_mod_to_equations. lia. Qed.

Lemma read_bits_loop_correct data n : forall cur acc, 0 <= cur ->
  read_bits_loop data n cur (acc mod 2 ^ 64) =
  Ok (fold_left (fun a b => 2 * a + Z.b2z b) (firstn n (skipn (Z.to_nat cur) (bits_of_bytes data))) acc mod 2 ^ 64).
Proof.
  induction n as [|n IH]; intros cur acc Hc; cbn [read_bits_loop].
  - cbn [firstn fold_left]. reflexivity.
  - rewrite quot8_ge by lia. destruct (8 * zlen data <=? cur) eqn:E.
    + rewrite skipn_all2 by (rewrite bits_of_bytes_length; unfold zlen in E; lia).
      rewrite firstn_nil. reflexivity.
    + destruct (idx_some data (Z.quot cur 8)) as [b Hb].
      { pose proof (quot8_ge cur (zlen data) Hc). split; [|lia]. rewrite Z.quot_div_nonneg by lia. apply Z.div_pos; lia. }
      rewrite Hb. cbn [of_opt bind].
      rewrite land_1_testbit by (pose proof (rem8_bound cur Hc); lia).
      rewrite u64_double, lor_b2z.
      replace ((acc mod 2 ^ 64) mod 2 ^ 63) with (acc mod 2 ^ 63).
      2:{ change (2 ^ 64) with (2 ^ 63 * 2). rewrite Z.rem_mul_r by lia.
          rewrite (Z.mul_comm (2 ^ 63) (_ mod 2)), Z.mod_add, Z.mod_mod by lia. reflexivity. }
      rewrite mod_double_plus, IH by lia.
      rewrite (skipn_nth_cons _ _ _ (bit_at data cur b Hc Hb)). cbn [firstn fold_left].
      do 5 f_equal. f_equal. lia.
Qed.

Lemma read_bits_correct data start n : 0 <= start -> 0 <= n ->
  read_bits data start n =
  Ok (bits_value (firstn (Z.to_nat n) (skipn (Z.to_nat start) (bits_of_bytes data))) mod 2 ^ 64).
Proof.
  intros H1 H2. unfold read_bits. change 0 with (0 mod 2 ^ 64) at 1. now rewrite read_bits_loop_correct by lia.
Qed.

(* ---- writer ---- *)

Lemma write_byte_bits b i v : byte_ok b -> 0 <= i < 8 ->
  let b2 := Z.lor (Z.ldiff b (u8 (Z.shiftl 1 i))) (u8 (Z.shiftl (Z.b2z v) i)) in
  byte_ok b2 /\ forall k, 0 <= k < 8 -> Z.testbit b2 k = if k =? i then v else Z.testbit b k.
Proof.
  intros Hb Hi b2.
  assert (Hbit : forall k, 0 <= k -> Z.testbit b2 k = if k =? i then v else Z.testbit b k).
  { intros k Hk. unfold b2. rewrite Z.lor_spec, Z.ldiff_spec.
    assert (E : forall w, u8 (Z.shiftl (Z.b2z w) i) = Z.shiftl (Z.b2z w) i).
    { intros w. unfold u8. apply Z.mod_small. rewrite Z.shiftl_mul_pow2 by lia.
      assert (0 < 2 ^ i) by (apply Z.pow_pos_nonneg; lia).
      assert (2 ^ i <= 2 ^ 7) by (apply Z.pow_le_mono_r; lia).
      change (2 ^ 8) with (2 * 2 ^ 7). destruct w; cbn [Z.b2z]; lia. }
    change 1 with (Z.b2z true). rewrite !E, !Z.shiftl_spec by lia.
    destruct (k =? i) eqn:Eki.
    - replace k with i by lia. rewrite Z.sub_diag. change (Z.testbit (Z.b2z true) 0) with true.
      rewrite andb_false_r. destruct v; reflexivity.
    - assert (D : forall w, Z.testbit (Z.b2z w) (k - i) = false).
      { intros w. destruct (Z.lt_ge_cases (k - i) 0); [now apply Z.testbit_neg_r|].
        destruct w; [apply Z.bits_above_log2; cbn; lia|apply Z.testbit_0_l]. }
      rewrite !D. cbn [negb]. now rewrite andb_true_r, orb_false_r. }
  split.
  - unfold byte_ok in *. assert (N : 0 <= b2).
    { unfold b2. apply Z.lor_nonneg. split; [apply Z.ldiff_nonneg; lia|]. pose proof (u8_ok (Z.shiftl (Z.b2z v) i)) as U. unfold byte_ok in U; lia. }
    split; [exact N|].
    destruct (Z.lt_ge_cases b2 256) as [L|L]; [exact L|]. exfalso.
    assert (L2 : 8 <= Z.log2 b2) by (change 8 with (Z.log2 256); now apply Z.log2_le_mono).
    assert (T := Z.bit_log2 b2 ltac:(lia)). rewrite Hbit in T by lia.
    destruct (Z.log2 b2 =? i) eqn:Q; [lia|].
    rewrite Z.bits_above_log2 in T; [discriminate|lia|].
    destruct (Z.eq_dec b 0) as [Eb0|]; [rewrite Eb0; change (Z.log2 0) with 0; lia|].
    assert (Z.log2 b < 8) by (apply Z.log2_lt_pow2; change (2 ^ 8) with 256; lia). lia.
  - intros k Hk. apply Hbit. lia.
Qed.

Lemma nth_set_bit data cur b2 v : 0 <= cur -> cur < 8 * zlen data -> bytes_ok data ->
  (forall b, idx data (Z.quot cur 8) = Some b -> forall k, 0 <= k < 8 -> Z.testbit b2 k = if k =? 7 - Z.rem cur 8 then v else Z.testbit b k) ->
  forall j, nth_error (bits_of_bytes (set_nth (Z.to_nat (Z.quot cur 8)) b2 data)) j =
    if (j =? Z.to_nat cur)%nat then Some v else nth_error (bits_of_bytes data) j.
Proof.
  intros Hc Hl Hok Hb j. rewrite !nth_bits_of_bytes.
  assert (Hq : 0 <= Z.quot cur 8 < zlen data).
  { rewrite Z.quot_div_nonneg by lia. Z.div_mod_to_equations. lia. }
  assert (Eq : Z.to_nat (Z.quot cur 8) = (Z.to_nat cur / 8)%nat).
  { rewrite Z.quot_div_nonneg, Z2Nat.inj_div by lia. reflexivity. }
  assert (Er : Z.rem cur 8 = Z.of_nat (Z.to_nat cur mod 8)).
  { rewrite Z.rem_mod_nonneg, Nat2Z.inj_mod, Z2Nat.id by lia. reflexivity. }
  destruct (idx_some _ _ Hq) as [b Hbd]. specialize (Hb b Hbd). rewrite Er in Hb.
  unfold idx in Hbd. destruct (Z.quot cur 8 <? 0) eqn:E; [lia|]. clear E.
  rewrite Eq in *. set (c := Z.to_nat cur) in *.
  destruct (Nat.eq_dec (c / 8) (j / 8)) as [Ej|Ej].
  - rewrite <- Ej, set_nth_same, Hbd by (apply nth_error_Some; congruence). cbn [option_map].
    rewrite Hb by (pose proof (Nat.mod_upper_bound j 8); lia).
    pose proof (Nat.div_mod c 8). pose proof (Nat.div_mod j 8).
    destruct (j =? c)%nat eqn:Q.
    + replace j with c by lia. now rewrite Z.eqb_refl.
    + destruct (_ =? _) eqn:Q2; [|reflexivity]. exfalso. lia.
  - rewrite set_nth_other by lia.
    destruct (j =? c)%nat eqn:Q; [|reflexivity]. exfalso. apply Ej. f_equal. lia.
Qed.

Lemma bytes_ok_set_nth n v l : bytes_ok l -> byte_ok v -> bytes_ok (set_nth n v l).
Proof.
  intros H Hv. revert n; induction H as [|x l Hx Hl IH]; intros [|n]; cbn; try constructor; auto; try apply IH.
Qed.

Lemma write_bits_loop_correct n : forall data cur v, 0 <= cur -> bytes_ok data ->
  exists data', write_bits_loop data n cur v = Ok data' /\ bytes_ok data' /\ length data' = length data /\
  forall j, nth_error (bits_of_bytes data') j =
    if (Z.to_nat cur <=? j)%nat && (j <? Z.to_nat cur + n)%nat && (j <? 8 * length data)%nat
    then Some (Z.testbit v (Z.of_nat n - 1 - (Z.of_nat j - cur)))
    else nth_error (bits_of_bytes data) j.
Proof.
  induction n as [|n IH]; intros data cur v Hc Hok; cbn [write_bits_loop].
  - exists data. repeat split; auto. intros j. destruct (_ && _) eqn:E; [lia|reflexivity].
  - rewrite quot8_ge by lia. destruct (8 * zlen data <=? cur) eqn:E.
    + exists data. repeat split; auto. intros j. destruct (_ && _) eqn:E2; [unfold zlen in E; lia|reflexivity].
    + assert (Hq : 0 <= Z.quot cur 8 < zlen data).
      { rewrite Z.quot_div_nonneg by lia. Z.div_mod_to_equations. lia. }
      destruct (idx_some _ _ Hq) as [b Hb]. rewrite Hb. cbn [of_opt bind].
      rewrite upd_some by lia. cbn [of_opt bind].
      rewrite land_1_testbit by lia. set (bv := Z.testbit v (Z.of_nat n)).
      assert (Hbok : byte_ok b).
      { unfold idx in Hb. destruct (_ <? 0) in Hb; [discriminate|]. apply nth_error_In in Hb.
        unfold bytes_ok in Hok. rewrite Forall_forall in Hok. auto. }
      destruct (write_byte_bits b (7 - Z.rem cur 8) bv Hbok (rem8_bound cur Hc)) as [B2ok B2].
      set (b2 := Z.lor _ _) in *. set (d1 := set_nth _ b2 data).
      assert (Hn : forall j, nth_error (bits_of_bytes d1) j = if (j =? Z.to_nat cur)%nat then Some bv else nth_error (bits_of_bytes data) j).
      { apply nth_set_bit; auto; [lia|]. intros b' Hb'. rewrite Hb in Hb'. injection Hb' as <-. exact B2. }
      destruct (IH d1 (cur + 1) v) as (d2 & R & Ok2 & L & P); [lia|now apply bytes_ok_set_nth|].
      exists d2. rewrite R. unfold d1 in L; rewrite set_nth_length in L. repeat split; auto.
      intros j. rewrite P, Hn. unfold d1. rewrite set_nth_length.
      unfold zlen in E.
      destruct ((Z.to_nat cur <=? j)%nat && (j <? Z.to_nat cur + S n)%nat && (j <? 8 * length data)%nat) eqn:Q.
      * destruct ((Z.to_nat (cur + 1) <=? j)%nat && (j <? Z.to_nat (cur + 1) + n)%nat && (j <? 8 * length data)%nat) eqn:Q2.
        -- do 2 f_equal. lia.
        -- destruct (j =? Z.to_nat cur)%nat eqn:Q3; [|lia]. unfold bv. do 2 f_equal. lia.
      * destruct ((Z.to_nat (cur + 1) <=? j)%nat && (j <? Z.to_nat (cur + 1) + n)%nat && (j <? 8 * length data)%nat) eqn:Q2; [lia|].
        destruct (j =? Z.to_nat cur)%nat eqn:Q3; [lia|reflexivity].
Qed.

Lemma write_bits_correct data start n v : 0 <= start -> 0 <= n -> bytes_ok data ->
  exists data', write_bits data start n v = Ok data' /\ bytes_ok data' /\ length data' = length data /\
  forall j, nth_error (bits_of_bytes data') j =
    if (Z.to_nat start <=? j)%nat && (j <? Z.to_nat (start + n))%nat && (j <? 8 * length data)%nat
    then Some (Z.testbit v (n - 1 - (Z.of_nat j - start)))
    else nth_error (bits_of_bytes data) j.
Proof.
  intros H1 H2 Hok. unfold write_bits. destruct (write_bits_loop_correct (Z.to_nat n) data start v H1 Hok) as (d & R & O1 & L & P).
  exists d. repeat split; auto. intros j. rewrite P. rewrite Z2Nat.id by lia.
  now replace (Z.to_nat start + Z.to_nat n)%nat with (Z.to_nat (start + n)) by lia.
Qed.

(** List form when the field lies inside the buffer. *)
Lemma write_bits_inside data start n v : 0 <= start -> 0 <= n -> start + n <= 8 * zlen data -> bytes_ok data ->
  exists data', write_bits data start n v = Ok data' /\ bytes_ok data' /\ length data' = length data /\
  bits_of_bytes data' = firstn (Z.to_nat start) (bits_of_bytes data) ++ be_bits (Z.to_nat n) v ++
                        skipn (Z.to_nat (start + n)) (bits_of_bytes data).
Proof.
  intros H1 H2 H3 Hok. destruct (write_bits_correct data start n v H1 H2 Hok) as (d & R & O1 & L & P).
  exists d. repeat split; auto. apply nth_error_ext. intros j. rewrite P.
  assert (Hbl := bits_of_bytes_length data). unfold zlen in H3.
  assert (Lf : length (firstn (Z.to_nat start) (bits_of_bytes data)) = Z.to_nat start) by (rewrite firstn_length; lia).
  destruct (_ && _) eqn:E.
  - rewrite nth_error_app2 by lia. rewrite nth_error_app1 by (rewrite be_bits_length; lia).
    rewrite Lf, nth_be_bits by lia. do 2 f_equal. lia.
  - destruct (Nat.lt_ge_cases j (Z.to_nat start)) as [Lt|Ge].
    + rewrite nth_error_app1 by lia. rewrite <- (firstn_skipn (Z.to_nat start) (bits_of_bytes data)) at 1.
      now rewrite nth_error_app1 by lia.
    + rewrite app_assoc. rewrite <- (firstn_skipn (Z.to_nat (start + n)) (bits_of_bytes data)) at 1.
      destruct (Nat.lt_ge_cases j (Z.to_nat (start + n))) as [Lt2|Ge2]; [lia|].
      rewrite nth_error_app2 by (rewrite firstn_length; lia).
      rewrite nth_error_app2 by (rewrite app_length, be_bits_length; lia).
      f_equal. rewrite firstn_length, app_length, be_bits_length, Lf. lia.
Qed.

(* ---- sequences of fields (C03) ---- *)

(** A field: [FBits w v] w bits, [FSkip n] n bits left alone, [FBytes l] whole bytes. *)
Inductive field := FBits (w v : Z) | FSkip (n : Z) | FBytes (l : list Z).

(** width in bits *)
Definition fwidth (f : field) : Z :=
  match f with FBits w _ => w | FSkip n => n | FBytes l => 8 * zlen l end.

(** the fields are legal at bit offset [off] *)
Fixpoint fields_ok (off : Z) (fs : list field) : Prop :=
  match fs with
  | [] => True
  | f :: fs' =>
    match f with
    | FBits w v => 0 <= w <= 64
    | FSkip n => 0 <= n
    | FBytes l => off mod 8 = 0 /\ bytes_ok l
    end /\ fields_ok (off + fwidth f) fs'
  end.

Fixpoint fields_width (fs : list field) : Z :=
  match fs with [] => 0 | f :: fs' => fwidth f + fields_width fs' end.

(** what the reader should report *)
Inductive fval := VBits (v : Z) | VSkip | VBytes (l : list Z).
Definition field_value (f : field) : fval :=
  match f with FBits w v => VBits (v mod 2 ^ w) | FSkip _ => VSkip | FBytes l => VBytes l end.

Definition bw_field (b : bits_cursor) (f : field) : res bits_cursor :=
  match f with
  | FBits w v => bw_write b w v
  | FSkip n => Ok (bc_seek b n)
  | FBytes l => bw_write_bytes b l
  end.
Fixpoint bw_fields (b : bits_cursor) (fs : list field) : res bits_cursor :=
  match fs with [] => Ok b | f :: fs' => b' <- bw_field b f;; bw_fields b' fs' end.

(** reading only uses the widths of the fields *)
Definition br_field (b : bits_cursor) (f : field) : res (fval * bits_cursor) :=
  match f with
  | FBits w _ => '(v, b') <- br_read b w;; Ok (VBits v, b')
  | FSkip n => Ok (VSkip, bc_seek b n)
  | FBytes l => '(s, b') <- br_read_bytes b (zlen l);; Ok (VBytes s, b')
  end.
Fixpoint br_fields (b : bits_cursor) (fs : list field) : res (list fval * bits_cursor) :=
  match fs with
  | [] => Ok ([], b)
  | f :: fs' =>
    '(v, b') <- br_field b f;;
    '(vs, b'') <- br_fields b' fs';;
    Ok (v :: vs, b'')
  end.

Lemma firstn_skipn_app {A} n k (l m : list A) : (n + k <= length l)%nat ->
  firstn k (skipn n (l ++ m)) = firstn k (skipn n l).
Proof.
  intros H. rewrite skipn_app. replace (n - length l)%nat with 0%nat by lia.
  rewrite firstn_app, skipn_length. replace (k - (length l - n))%nat with 0%nat by lia.
  rewrite firstn_O, app_nil_r. reflexivity.
Qed.

Definition fwidth_nonneg fs : forall off, fields_ok off fs -> 0 <= fields_width fs.
Proof.
  induction fs as [|f fs IH]; intros off H; cbn in *; [lia|].
  destruct H as [H1 H2]. apply IH in H2. destruct f as [w v|n|l]; cbn [fwidth]; try lia. pose proof (zlen_nonneg l). lia.
Qed.

(** after writing, bits before [off] and at or after the end are unchanged *)
Lemma bw_fields_correct fs : forall data off, 0 <= off -> fields_ok off fs -> bytes_ok data ->
  off + fields_width fs <= 8 * zlen data ->
  exists data', bw_fields {| bc_data := data; bc_off := off |} fs =
      Ok {| bc_data := data'; bc_off := off + fields_width fs |} /\
    length data' = length data /\ bytes_ok data' /\
    firstn (Z.to_nat off) (bits_of_bytes data') = firstn (Z.to_nat off) (bits_of_bytes data) /\
    skipn (Z.to_nat (off + fields_width fs)) (bits_of_bytes data') =
      skipn (Z.to_nat (off + fields_width fs)) (bits_of_bytes data) /\
    br_fields {| bc_data := data'; bc_off := off |} fs =
      Ok (map field_value fs, {| bc_data := data'; bc_off := off + fields_width fs |}).
Proof.
  induction fs as [|f fs IH]; intros data off Hoff Hok Hb Hfit.
  - cbn in *. exists data. rewrite Z.add_0_r. repeat split; auto.
  - cbn [fields_ok fields_width] in Hok, Hfit. destruct Hok as [Hf Hfs].
    assert (Wn := fwidth_nonneg fs _ Hfs).
    assert (Wf : 0 <= fwidth f) by (destruct f as [w v|n|l]; cbn [fwidth]; try lia; pose proof (zlen_nonneg l); lia).
    (* state after the first field *)
    assert (H1 : exists d1 mid, bw_field {| bc_data := data; bc_off := off |} f =
        Ok {| bc_data := d1; bc_off := off + fwidth f |} /\ length d1 = length data /\ bytes_ok d1 /\
        bits_of_bytes d1 = firstn (Z.to_nat off) (bits_of_bytes data) ++ mid ++ skipn (Z.to_nat (off + fwidth f)) (bits_of_bytes data) /\
        length mid = Z.to_nat (fwidth f) /\
        (forall d2, length d2 = length data -> bytes_ok d2 ->
           firstn (Z.to_nat (off + fwidth f)) (bits_of_bytes d2) = firstn (Z.to_nat off) (bits_of_bytes data) ++ mid ->
           br_field {| bc_data := d2; bc_off := off |} f = Ok (field_value f, {| bc_data := d2; bc_off := off + fwidth f |}))).
    { assert (Lf : length (firstn (Z.to_nat off) (bits_of_bytes data)) = Z.to_nat off).
      { rewrite firstn_length, bits_of_bytes_length. unfold zlen in Hfit. lia. }
      assert (SEG : forall d2 mid, length mid = Z.to_nat (fwidth f) ->
         firstn (Z.to_nat (off + fwidth f)) (bits_of_bytes d2) = firstn (Z.to_nat off) (bits_of_bytes data) ++ mid ->
         firstn (Z.to_nat (fwidth f)) (skipn (Z.to_nat off) (bits_of_bytes d2)) = mid).
      { intros d2 mid Lm E. rewrite <- (firstn_skipn (Z.to_nat (off + fwidth f)) (bits_of_bytes d2)), E.
        rewrite <- app_assoc, <- Lm. rewrite <- Lf at 1. eapply firstn_skipn_mid. reflexivity. }
      destruct f as [w v|n|l]; cbn [fwidth] in *.
      - destruct (write_bits_inside data off w v) as (d1 & R & O1 & L & B); try lia; auto.
        exists d1, (be_bits (Z.to_nat w) v). unfold bw_field, bw_write. cbn [bc_data bc_off]. rewrite R. cbn [bind].
        split; [reflexivity|]. split; [exact L|]. split; [exact O1|]. split; [exact B|]. split; [apply be_bits_length|].
        intros d2 L2 O2 E. unfold br_field, br_read. cbn [bc_data bc_off]. rewrite read_bits_correct by lia.
        rewrite (SEG d2 _ (be_bits_length _ _) E). cbn [bind field_value].
        do 3 f_equal. rewrite be_bits_value, Z2Nat.id by lia.
        apply Z.mod_small. pose proof (Z.mod_pos_bound v (2 ^ w) ltac:(apply Z.pow_pos_nonneg; lia)).
        assert (2 ^ w <= 2 ^ 64) by (apply Z.pow_le_mono_r; lia). lia.
      - exists data, (firstn (Z.to_nat n) (skipn (Z.to_nat off) (bits_of_bytes data))). unfold bw_field, bc_seek. cbn [bc_data bc_off].
        split; [reflexivity|]. split; [reflexivity|]. split; [exact Hb|].
        split.
        { replace (Z.to_nat (off + n)) with (Z.to_nat off + Z.to_nat n)%nat by lia. rewrite <- skipn_skipn, !firstn_skipn. reflexivity. }
        split; [rewrite firstn_length, skipn_length, bits_of_bytes_length; unfold zlen in Hfit; lia|].
        intros d2 L2 O2 E. reflexivity.
      - destruct Hf as [Hm Hl].
        assert (Eq : Z.quot off 8 = off / 8) by (apply Z.quot_div_nonneg; lia).
        assert (D : off = 8 * (off / 8)) by (pose proof (Z.div_mod off 8); lia).
        set (q := off / 8) in *.
        assert (C : copy_at data q l = Some (firstn (Z.to_nat q) data ++ l ++ skipn (Z.to_nat (q + zlen l)) data)).
        { apply copy_at_fits; lia. }
        exists (firstn (Z.to_nat q) data ++ l ++ skipn (Z.to_nat (q + zlen l)) data), (bits_of_bytes l).
        unfold bw_field, bw_write_bytes. cbn [bc_data bc_off]. rewrite Eq, C. cbn [of_opt bind].
        split; [f_equal; f_equal; lia|].
        split; [rewrite !app_length, firstn_length, skipn_length; unfold zlen in *; lia|].
        split; [apply bytes_ok_app; split; [now apply bytes_ok_firstn|apply bytes_ok_app; split; [auto|now apply bytes_ok_skipn]]|].
        split.
        { rewrite !bits_of_bytes_app, bits_of_bytes_firstn, bits_of_bytes_skipn. repeat f_equal; lia. }
        split; [rewrite bits_of_bytes_length; unfold zlen; lia|].
        intros d2 L2 O2 E. unfold br_field, br_read_bytes. cbn [bc_data bc_off].
        rewrite Eq. replace (Z.quot (off + 8 * zlen l) 8) with (q + zlen l).
        2:{ rewrite Z.quot_div_nonneg by (pose proof (zlen_nonneg l); lia). rewrite D. rewrite <- Z.mul_add_distr_l, Z.mul_comm, Z.div_mul; lia. }
        rewrite slice_some; [|pose proof (zlen_nonneg l); lia|unfold zlen in *; lia].
        cbn [of_opt bind field_value]. do 3 f_equal.
        apply bits_of_bytes_inj; auto; [apply bytes_ok_firstn, bytes_ok_skipn; auto|].
        rewrite bits_of_bytes_firstn, bits_of_bytes_skipn.
        rewrite <- (SEG d2 (bits_of_bytes l)) by (auto; rewrite bits_of_bytes_length; unfold zlen; lia).
        f_equal; [|f_equal]; lia. }
    destruct H1 as (d1 & mid & R1 & L1 & O1 & B1 & Lm & Rd).
    destruct (IH d1 (off + fwidth f)) as (d2 & R2 & L2 & O2 & P2 & S2 & Q2); auto; try lia.
    { unfold zlen in *. rewrite L1. lia. }
    assert (Lf : length (firstn (Z.to_nat off) (bits_of_bytes data)) = Z.to_nat off).
    { rewrite firstn_length, bits_of_bytes_length. unfold zlen in Hfit. lia. }
    assert (B1' : firstn (Z.to_nat (off + fwidth f)) (bits_of_bytes d1) = firstn (Z.to_nat off) (bits_of_bytes data) ++ mid).
    { rewrite B1, app_assoc, firstn_app, firstn_all2 by (rewrite app_length; lia).
      rewrite app_length. replace (_ - _)%nat with 0%nat by lia. rewrite firstn_O, app_nil_r. reflexivity. }
    exists d2. cbn [bw_fields br_fields fields_width map].
    rewrite R1. cbn [bind]. rewrite R2, Z.add_assoc. split; [reflexivity|]. split; [congruence|]. split; [exact O2|].
    split; [|split].
    + replace (Z.to_nat off) with (Nat.min (Z.to_nat off) (Z.to_nat (off + fwidth f))) at 1 by lia.
      rewrite <- firstn_firstn, P2, B1', firstn_app, Lf, Nat.sub_diag, firstn_O, app_nil_r.
      rewrite firstn_firstn. f_equal. lia.
    + rewrite S2, B1, app_assoc, skipn_app, skipn_all2 by (rewrite app_length; lia).
      cbn [app]. rewrite skipn_skipn. f_equal. rewrite app_length. lia.
    + rewrite Rd; [|congruence|exact O2|rewrite P2; exact B1']. cbn [bind]. rewrite Q2. cbn [bind]. reflexivity.
Qed.

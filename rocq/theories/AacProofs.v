(** * AacProofs. *)
From Verif Require Import Base BufioModel RingProofs NaluProofs AvccProofs AacModel AacSpec.

(* ---------------------------------------------------------------------------------------- *)
(** ** Bit fields *)
Definition width (l : list (Z * Z)) : Z := fold_right (fun f a => snd f + a) 0 l.
Definition widths_ok (l : list (Z * Z)) : Prop := Forall (fun f => 0 <= snd f) l.

Lemma width_nonneg l : widths_ok l -> 0 <= width l.
Proof. induction 1 as [|f l H F IH]; cbn [width fold_right]; [lia|]. fold (width l). lia. Qed.

Lemma pack_from l : widths_ok l -> forall a, fold_left (fun acc f => acc * 2 ^ snd f + fst f mod 2 ^ snd f) l a = a * 2 ^ width l + pack l.
Proof.
  induction 1 as [|f l H F IH]; intros a; unfold pack; cbn [fold_left width fold_right]; [cbn; lia|]. fold (width l). rewrite !IH. pose proof (width_nonneg l F).
  rewrite Z.pow_add_r by lia. ring.
Qed.

Lemma pack_cons v w l : 0 <= w -> widths_ok l -> pack ((v, w) :: l) = (v mod 2 ^ w) * 2 ^ width l + pack l.
Proof. intros Hw F. unfold pack at 1. cbn [fold_left fst snd]. rewrite pack_from by auto. now rewrite Z.mul_0_l, Z.add_0_l. Qed.

Lemma pack_bound l : widths_ok l -> 0 <= pack l < 2 ^ width l.
Proof.
  induction 1 as [|[v w] l H F IH]; [cbn; lia|]. cbn [snd] in H. rewrite pack_cons by auto. cbn [width fold_right snd]. fold (width l). pose proof (width_nonneg l F).
  rewrite Z.pow_add_r by lia. pose proof (Z.mod_pos_bound v (2 ^ w) ltac:(apply Z.pow_pos_nonneg; lia)). nia.
Qed.

Lemma pack_app a b : widths_ok a -> widths_ok b -> pack (a ++ b) = pack a * 2 ^ width b + pack b.
Proof. intros Fa Fb. unfold pack at 1. rewrite fold_left_app. fold (pack a). now apply pack_from. Qed.

(** Any field can be extracted. *)
Lemma pack_get a v w b : widths_ok a -> 0 <= w -> widths_ok b -> (pack (a ++ (v, w) :: b) / 2 ^ width b) mod 2 ^ w = v mod 2 ^ w.
Proof.
  intros Fa Hw Fb. rewrite pack_app by (auto; constructor; auto). rewrite pack_cons by auto. cbn [width fold_right snd]. fold (width b). pose proof (width_nonneg b Fb). pose proof (pack_bound b Fb).
  rewrite Z.pow_add_r by lia. replace (pack a * (2 ^ w * 2 ^ width b) + (v mod 2 ^ w * 2 ^ width b + pack b)) with ((pack a * 2 ^ w + v mod 2 ^ w) * 2 ^ width b + pack b) by ring.
  rewrite Z.div_add_l, (Z.div_small (pack b)), Z.add_0_r by lia. rewrite Z.add_comm, Z.mod_add by (apply Z.pow_nonzero; lia). apply Z.mod_mod. apply Z.pow_nonzero; lia.
Qed.

Lemma adts_get_spec a k m w : 0 <= a < 2 ^ 63 -> 0 <= k -> m = Z.ones w -> 0 <= w -> adts_get a k m = (a / 2 ^ k) mod 2 ^ w.
Proof. intros Ha Hk -> Hw. unfold adts_get. rewrite i64_id by (unfold is_i64; lia). rewrite Z.land_ones, Z.shiftr_div_pow2 by lia. reflexivity. Qed.

Lemma wok l : forallb (fun f : Z * Z => 0 <=? snd f) l = true -> widths_ok l.
Proof. intros H. apply Forall_forall. intros f Hf. rewrite forallb_forall in H. specialize (H f Hf). lia. Qed.

Lemma adts_layout_fields sync id layer absent profile freq priv chan orig home cbit cstart len full blocks :
  let a := adts_layout sync id layer absent profile freq priv chan orig home cbit cstart len full blocks in
  0 <= a < 2 ^ 56 /\ adts_sync a = sync mod 4096 /\ adts_id a = id mod 2 /\ adts_layer a = layer mod 4 /\ adts_protection_absent a = absent mod 2 /\
  adts_profile a = profile mod 4 /\ adts_frequency a = freq mod 16 /\ adts_private a = priv mod 2 /\ adts_channel a = chan mod 8 /\ adts_original a = orig mod 2 /\
  adts_home a = home mod 2 /\ adts_copyright_bit a = cbit mod 2 /\ adts_copyright_start a = cstart mod 2 /\ adts_frame_length a = len mod 8192 /\
  adts_fullness a = full mod 2048 /\ adts_blocks a = blocks mod 4.
Proof.
  intros a. assert (Ba : 0 <= a < 2 ^ 56) by (unfold a, adts_layout; apply (pack_bound [(sync, 12); (id, 1); (layer, 2); (absent, 1); (profile, 2); (freq, 4); (priv, 1); (chan, 3); (orig, 1); (home, 1); (cbit, 1); (cstart, 1); (len, 13); (full, 11); (blocks, 2)]); now apply wok).
  split; [exact Ba|]. unfold adts_sync, adts_id, adts_layer, adts_protection_absent, adts_profile, adts_frequency, adts_private, adts_channel, adts_original, adts_home, adts_copyright_bit, adts_copyright_start, adts_frame_length, adts_fullness.
  set (f1 := (sync, 12)). 
  repeat match goal with |- _ /\ _ => split end.
  1: rewrite (adts_get_spec a 44 4095 12) by (try reflexivity; lia); apply (pack_get []); now (apply wok || reflexivity || lia).
  1: rewrite (adts_get_spec a 43 1 1) by (try reflexivity; lia); apply (pack_get [f1]); now (apply wok || lia).
  1: rewrite (adts_get_spec a 41 3 2) by (try reflexivity; lia); apply (pack_get [f1; (id, 1)]); now (apply wok || lia).
  1: rewrite (adts_get_spec a 40 1 1) by (try reflexivity; lia); apply (pack_get [f1; (id, 1); (layer, 2)]); now (apply wok || lia).
  1: rewrite (adts_get_spec a 38 3 2) by (try reflexivity; lia); apply (pack_get [f1; (id, 1); (layer, 2); (absent, 1)]); now (apply wok || lia).
  1: rewrite (adts_get_spec a 34 15 4) by (try reflexivity; lia); apply (pack_get [f1; (id, 1); (layer, 2); (absent, 1); (profile, 2)]); now (apply wok || lia).
  1: rewrite (adts_get_spec a 33 1 1) by (try reflexivity; lia); apply (pack_get [f1; (id, 1); (layer, 2); (absent, 1); (profile, 2); (freq, 4)]); now (apply wok || lia).
  1: rewrite (adts_get_spec a 30 7 3) by (try reflexivity; lia); apply (pack_get [f1; (id, 1); (layer, 2); (absent, 1); (profile, 2); (freq, 4); (priv, 1)]); now (apply wok || lia).
  1: rewrite (adts_get_spec a 29 1 1) by (try reflexivity; lia); apply (pack_get [f1; (id, 1); (layer, 2); (absent, 1); (profile, 2); (freq, 4); (priv, 1); (chan, 3)]); now (apply wok || lia).
  1: rewrite (adts_get_spec a 28 1 1) by (try reflexivity; lia); apply (pack_get [f1; (id, 1); (layer, 2); (absent, 1); (profile, 2); (freq, 4); (priv, 1); (chan, 3); (orig, 1)]); now (apply wok || lia).
  1: rewrite (adts_get_spec a 27 1 1) by (try reflexivity; lia); apply (pack_get [f1; (id, 1); (layer, 2); (absent, 1); (profile, 2); (freq, 4); (priv, 1); (chan, 3); (orig, 1); (home, 1)]); now (apply wok || lia).
  1: rewrite (adts_get_spec a 26 1 1) by (try reflexivity; lia); apply (pack_get [f1; (id, 1); (layer, 2); (absent, 1); (profile, 2); (freq, 4); (priv, 1); (chan, 3); (orig, 1); (home, 1); (cbit, 1)]); now (apply wok || lia).
  1: rewrite (adts_get_spec a 13 8191 13) by (try reflexivity; lia); apply (pack_get [f1; (id, 1); (layer, 2); (absent, 1); (profile, 2); (freq, 4); (priv, 1); (chan, 3); (orig, 1); (home, 1); (cbit, 1); (cstart, 1)]); now (apply wok || lia).
  1: rewrite (adts_get_spec a 2 2047 11) by (try reflexivity; lia); apply (pack_get [f1; (id, 1); (layer, 2); (absent, 1); (profile, 2); (freq, 4); (priv, 1); (chan, 3); (orig, 1); (home, 1); (cbit, 1); (cstart, 1); (len, 13)]); now (apply wok || lia).
  replace (adts_blocks a) with ((a / 2 ^ 0) mod 2 ^ 2).
  - apply (pack_get [f1; (id, 1); (layer, 2); (absent, 1); (profile, 2); (freq, 4); (priv, 1); (chan, 3); (orig, 1); (home, 1); (cbit, 1); (cstart, 1); (len, 13); (full, 11)]); now (apply wok || lia).
  - unfold adts_blocks. rewrite i64_id by (unfold is_i64; lia). change 3 with (Z.ones 2). rewrite Z.land_ones by lia. now rewrite Z.pow_0_r, Z.div_1_r.
Qed.

(* ---------------------------------------------------------------------------------------- *)
(** ** Writing the header *)
Lemma lor_add a b k : 0 <= k -> 0 <= b < 2 ^ k -> Z.lor (a * 2 ^ k) b = a * 2 ^ k + b.
Proof.
  intros Hk Hb. assert (Hl : Z.land (a * 2 ^ k) b = 0).
  { apply Z.bits_inj'. intros n Hn. rewrite Z.land_spec, Z.bits_0. destruct (Z_lt_dec n k).
    - now rewrite Z.mul_pow2_bits_low by lia.
    - replace (Z.testbit b n) with false; [apply andb_false_r|]. symmetry. destruct (Z.eq_dec b 0) as [->|N]; [apply Z.bits_0|]. apply Z.bits_above_log2; [lia|].
      assert (Z.log2 b < k) by (apply Z.log2_lt_pow2; lia). lia. }
  rewrite <- Z.lxor_lor by exact Hl. symmetry. now apply Z.add_nocarry_lxor.
Qed.

Definition adts_bytes (mpegId aot index ch size : Z) : list Z :=
  [255; 241 + 8 * (mpegId mod 2); (aot mod 4) * 64 + (index mod 16) * 4 + (ch / 4) mod 2; (ch mod 4) * 64 + (size / 2048) mod 4; (size / 8) mod 256; (size mod 8) * 32 + 31; 252].

Lemma seven (h : list Z) : 7 <= zlen h -> exists a b c d e f g t, h = a :: b :: c :: d :: e :: f :: g :: t.
Proof. unfold zlen. destruct h as [|a [|b [|c [|d [|e [|f [|g t]]]]]]]; cbn [length]; try lia. intros _. do 8 eexists. reflexivity. Qed.

Lemma mod256_mod x w : 0 <= w <= 8 -> (x mod 256) mod 2 ^ w = x mod 2 ^ w.
Proof.
  intros Hw. rewrite (Z.div_mod x 256) at 2 by lia. replace (256 * (x / 256)) with ((x / 256 * 2 ^ (8 - w)) * 2 ^ w).
  - rewrite Z.add_comm, Z.mod_add by (apply Z.pow_nonzero; lia). reflexivity.
  - rewrite <- Z.mul_assoc, <- Z.pow_add_r by lia. replace (8 - w + w) with 8 by lia. lia.
Qed.
Lemma land_u8 x m w : m = Z.ones w -> 0 <= w <= 8 -> Z.land (u8 x) m = x mod 2 ^ w.
Proof. intros -> Hw. rewrite Z.land_ones by lia. unfold u8. now apply mod256_mod. Qed.

Lemma lor_add' a b k : 0 <= k -> 0 <= b < 2 ^ k -> forall c, c = a * 2 ^ k -> Z.lor c b = c + b.
Proof. intros Hk Hb c ->. now apply lor_add. Qed.

Lemma set_adts_ok h mpegId aot index ch size : 7 <= zlen h -> set_adts_header h mpegId aot index ch size = Ok (adts_bytes mpegId aot index ch size ++ skipn 7 h).
Proof.
  intros L. destruct (seven h L) as (a & b & c & d & e & f & g & t & ->). clear L. cbn [skipn]. unfold set_adts_header, or_at.
  assert (Hu : forall (x0 x1 x2 x3 x4 x5 x6 v : Z),
     upd (x0 :: x1 :: x2 :: x3 :: x4 :: x5 :: x6 :: t) 0 v = Some (v :: x1 :: x2 :: x3 :: x4 :: x5 :: x6 :: t) /\
     upd (x0 :: x1 :: x2 :: x3 :: x4 :: x5 :: x6 :: t) 1 v = Some (x0 :: v :: x2 :: x3 :: x4 :: x5 :: x6 :: t) /\
     upd (x0 :: x1 :: x2 :: x3 :: x4 :: x5 :: x6 :: t) 2 v = Some (x0 :: x1 :: v :: x3 :: x4 :: x5 :: x6 :: t) /\
     upd (x0 :: x1 :: x2 :: x3 :: x4 :: x5 :: x6 :: t) 3 v = Some (x0 :: x1 :: x2 :: v :: x4 :: x5 :: x6 :: t) /\
     upd (x0 :: x1 :: x2 :: x3 :: x4 :: x5 :: x6 :: t) 4 v = Some (x0 :: x1 :: x2 :: x3 :: v :: x5 :: x6 :: t) /\
     upd (x0 :: x1 :: x2 :: x3 :: x4 :: x5 :: x6 :: t) 5 v = Some (x0 :: x1 :: x2 :: x3 :: x4 :: v :: x6 :: t) /\
     upd (x0 :: x1 :: x2 :: x3 :: x4 :: x5 :: x6 :: t) 6 v = Some (x0 :: x1 :: x2 :: x3 :: x4 :: x5 :: v :: t)).
  { intros. pose proof (zlen_nonneg t). repeat split; rewrite upd_some by (rewrite !zlen_cons; lia); reflexivity. }
  assert (H0 : forall x0 x1 x2 x3 x4 x5 x6 v, upd (x0 :: x1 :: x2 :: x3 :: x4 :: x5 :: x6 :: t) 0 v = Some (v :: x1 :: x2 :: x3 :: x4 :: x5 :: x6 :: t)) by (intros; apply Hu).
  assert (H1 : forall x0 x1 x2 x3 x4 x5 x6 v, upd (x0 :: x1 :: x2 :: x3 :: x4 :: x5 :: x6 :: t) 1 v = Some (x0 :: v :: x2 :: x3 :: x4 :: x5 :: x6 :: t)) by (intros; apply Hu).
  assert (H2 : forall x0 x1 x2 x3 x4 x5 x6 v, upd (x0 :: x1 :: x2 :: x3 :: x4 :: x5 :: x6 :: t) 2 v = Some (x0 :: x1 :: v :: x3 :: x4 :: x5 :: x6 :: t)) by (intros; apply Hu).
  assert (H3 : forall x0 x1 x2 x3 x4 x5 x6 v, upd (x0 :: x1 :: x2 :: x3 :: x4 :: x5 :: x6 :: t) 3 v = Some (x0 :: x1 :: x2 :: v :: x4 :: x5 :: x6 :: t)) by (intros; apply Hu).
  assert (H4 : forall x0 x1 x2 x3 x4 x5 x6 v, upd (x0 :: x1 :: x2 :: x3 :: x4 :: x5 :: x6 :: t) 4 v = Some (x0 :: x1 :: x2 :: x3 :: v :: x5 :: x6 :: t)) by (intros; apply Hu).
  assert (H5 : forall x0 x1 x2 x3 x4 x5 x6 v, upd (x0 :: x1 :: x2 :: x3 :: x4 :: x5 :: x6 :: t) 5 v = Some (x0 :: x1 :: x2 :: x3 :: x4 :: v :: x6 :: t)) by (intros; apply Hu).
  assert (H6 : forall x0 x1 x2 x3 x4 x5 x6 v, upd (x0 :: x1 :: x2 :: x3 :: x4 :: x5 :: x6 :: t) 6 v = Some (x0 :: x1 :: x2 :: x3 :: x4 :: x5 :: v :: t)) by (intros; apply Hu).
  assert (I1 : forall x0 x1 x2 x3 x4 x5 x6, idx (x0 :: x1 :: x2 :: x3 :: x4 :: x5 :: x6 :: t) 1 = Some x1) by reflexivity.
  assert (I2 : forall x0 x1 x2 x3 x4 x5 x6, idx (x0 :: x1 :: x2 :: x3 :: x4 :: x5 :: x6 :: t) 2 = Some x2) by reflexivity.
  assert (I3 : forall x0 x1 x2 x3 x4 x5 x6, idx (x0 :: x1 :: x2 :: x3 :: x4 :: x5 :: x6 :: t) 3 = Some x3) by reflexivity.
  assert (I5 : forall x0 x1 x2 x3 x4 x5 x6, idx (x0 :: x1 :: x2 :: x3 :: x4 :: x5 :: x6 :: t) 5 = Some x5) by reflexivity.
  rewrite H0. cbn [of_opt bind]. do 1 (rewrite H1; cbn [of_opt bind]). do 2 (rewrite I1; cbn [of_opt bind]; rewrite H1; cbn [of_opt bind]).
  rewrite H2. cbn [of_opt bind]. do 3 (rewrite I2; cbn [of_opt bind]; rewrite H2; cbn [of_opt bind]).
  rewrite H3. cbn [of_opt bind]. do 5 (rewrite I3; cbn [of_opt bind]; rewrite H3; cbn [of_opt bind]).
  rewrite H4. cbn [of_opt bind]. rewrite H5. cbn [of_opt bind]. rewrite I5. cbn [of_opt bind]. rewrite H5. cbn [of_opt bind]. rewrite H6. cbn [of_opt].
  clear. unfold adts_bytes. cbn [app]. rewrite !Z.lor_0_r.
  rewrite (land_u8 mpegId 1 1), (land_u8 aot 3 2), (land_u8 index 15 4) by (try reflexivity; lia).
  rewrite !Z.shiftl_mul_pow2, !Z.shiftr_div_pow2 by lia.
  assert (E1 : Z.lor (Z.lor 240 (u8 (mpegId mod 2 ^ 1 * 2 ^ 3))) 1 = 241 + 8 * (mpegId mod 2)).
  { change (2 ^ 3) with 8. change (2 ^ 1) with 2. pose proof (Z.mod_pos_bound mpegId 2 ltac:(lia)). assert (mpegId mod 2 = 0 \/ mpegId mod 2 = 1) as [->| ->] by lia; reflexivity. }
  assert (E2 : Z.lor (Z.lor (u8 (aot mod 2 ^ 2 * 2 ^ 6)) (u8 (index mod 2 ^ 4 * 2 ^ 2))) (Z.land (u8 ch / 2 ^ 2) 1) = aot mod 4 * 64 + index mod 16 * 4 + (ch / 4) mod 2).
  { change (Z.land (u8 ch / 2 ^ 2) 1) with (Z.land (u8 ch / 2 ^ 2) (Z.ones 1)). rewrite Z.land_ones by lia. unfold u8. change (2 ^ 8) with 256. change (2 ^ 6) with 64. change (2 ^ 4) with 16. change (2 ^ 2) with 4. change (2 ^ 1) with 2. pose proof (Z.mod_pos_bound aot 4 ltac:(lia)). pose proof (Z.mod_pos_bound index 16 ltac:(lia)). pose proof (Z.mod_pos_bound (ch mod 256 / 4) 2 ltac:(lia)).
    rewrite (Z.mod_small (aot mod 4 * 64)), (Z.mod_small (index mod 16 * 4)) by lia. rewrite (lor_add' (aot mod 4) (index mod 16 * 4) 6) by lia.
    rewrite (lor_add' (aot mod 4 * 16 + index mod 16) _ 2) by lia. f_equal. clear. Z.div_mod_to_equations; lia. }
  assert (E3 : Z.lor (u8 (u8 ch * 2 ^ 6)) (u8 (Z.land (size / 2 ^ 11) 3)) = ch mod 4 * 64 + (size / 2048) mod 4).
  { change (Z.land (size / 2 ^ 11) 3) with (Z.land (size / 2 ^ 11) (Z.ones 2)). rewrite Z.land_ones by lia. unfold u8. change (2 ^ 8) with 256. change (2 ^ 6) with 64. change (2 ^ 11) with 2048. change (2 ^ 2) with 4. pose proof (Z.mod_pos_bound (size / 2048) 4 ltac:(lia)). rewrite (Z.mod_small ((size / 2048) mod 4)) by lia.
    assert (Ec : (ch mod 256 * 64) mod 256 = ch mod 4 * 64) by (clear; Z.div_mod_to_equations; lia).
    rewrite Ec. apply (lor_add' (ch mod 4) _ 6); lia. }
  assert (E5 : Z.lor (u8 (u8 (Z.land size 7) * 2 ^ 5)) 31 = size mod 8 * 32 + 31).
  { change (Z.land size 7) with (Z.land size (Z.ones 3)). rewrite Z.land_ones by lia. unfold u8. change (2 ^ 8) with 256. change (2 ^ 3) with 8. change (2 ^ 5) with 32. pose proof (Z.mod_pos_bound size 8 ltac:(lia)). rewrite (Z.mod_small (size mod 8)) by lia. rewrite Z.mod_small by lia. apply (lor_add' (size mod 8) _ 5); lia. }
  rewrite E1, E2, E3, E5. reflexivity.
Qed.

Lemma adts_bytes_ok mpegId aot index ch size : bytes_ok (adts_bytes mpegId aot index ch size).
Proof. unfold adts_bytes, bytes_ok. rewrite !Forall_cons_iff. unfold byte_ok. repeat split; try constructor; Z.div_mod_to_equations; lia. Qed.

Lemma adts_bytes_value mpegId aot index ch size :
  be_value (adts_bytes mpegId aot index ch size) = adts_layout 4095 mpegId 0 1 aot index 0 ch 0 0 0 0 size 2047 0.
Proof.
  unfold be_value, adts_bytes, adts_layout, pack. cbn [fold_left fst snd]. change (2 ^ 12) with 4096. change (2 ^ 11) with 2048. change (2 ^ 13) with 8192. change (2 ^ 1) with 2. change (2 ^ 2) with 4. change (2 ^ 3) with 8. change (2 ^ 4) with 16.
  assert (ch mod 8 = (ch / 4) mod 2 * 4 + ch mod 4) as -> by (Z.div_mod_to_equations; lia).
  assert (size mod 8192 = (size / 2048) mod 4 * 2048 + (size / 8) mod 256 * 8 + size mod 8) as -> by (Z.div_mod_to_equations; lia).
  change (4095 mod 4096) with 4095. change (0 mod 2) with 0. change (0 mod 4) with 0. change (1 mod 2) with 1. change (2047 mod 2048) with 2047. ring.
Qed.

(* ---------------------------------------------------------------------------------------- *)
(** ** Reading the header *)
Lemma read_adts_spec h t : length h = 7%nat -> bytes_ok h ->
  read_adts_fixed_header (h ++ t) = if be_value h / 2 ^ 44 =? 4095 then Ok (be_value h) else Err.
Proof.
  intros L B. destruct h as [|a [|b [|c [|d [|e [|f [|g [|]]]]]]]]; try discriminate L. clear L. unfold bytes_ok in B. rewrite !Forall_cons_iff in B. unfold byte_ok in B. destruct B as (Ba & Bb & Bc & Bd & Be & Bf & Bg & _).
  unfold read_adts_fixed_header. change ([a; b; c; d; e; f; g] ++ t) with ([a; b] ++ (c :: d :: e :: f :: g :: t)). rewrite be_get_app by reflexivity. cbn [bind].
  rewrite Z.shiftr_div_pow2 by lia. unfold be_value. cbn [fold_left]. change (2 ^ 4) with 16. change (2 ^ 44) with 17592186044416.
  assert (Ed : ((((((((0 * 256 + a) * 256 + b) * 256 + c) * 256 + d) * 256 + e) * 256 + f) * 256 + g) / 17592186044416) = ((0 * 256 + a) * 256 + b) / 16) by (Z.div_mod_to_equations; lia).
  rewrite Ed. rewrite Z.eqb_sym. destruct (_ =? 4095); [|reflexivity]. cbn [negb].
  change (idx ([a; b] ++ c :: d :: e :: f :: g :: t) 0) with (Some a). change (idx ([a; b] ++ c :: d :: e :: f :: g :: t) 1) with (Some b). change (idx ([a; b] ++ c :: d :: e :: f :: g :: t) 2) with (Some c). cbn [of_opt bind].
  change ([a; b] ++ c :: d :: e :: f :: g :: t) with ([a; b; c] ++ [d; e; f; g] ++ t). rewrite slice_from_app. cbn [of_opt bind]. rewrite be_get_app by reflexivity. cbn [bind]. f_equal.
  rewrite !Z.shiftl_mul_pow2 by lia. rewrite (lor_add' a (b * 2 ^ 8) 16) by lia. rewrite (lor_add' (a * 2 ^ 8 + b) c 8) by lia.
  unfold u64. change (2 ^ 16) with 65536. change (2 ^ 8) with 256. change (2 ^ 32) with 4294967296. rewrite (Z.mod_small (a * 65536 + b * 256 + c)) by lia. rewrite Z.mod_small by lia.
  unfold be_value. cbn [fold_left]. rewrite (lor_add' (a * 65536 + b * 256 + c) _ 32) by lia. ring.
Qed.

(* ---------------------------------------------------------------------------------------- *)
(** ** AudioSpecificConfig *)
Lemma adts_get_range a k m w : m = Z.ones w -> 0 <= w -> 0 <= adts_get a k m < 2 ^ w.
Proof. intros -> Hw. unfold adts_get. rewrite Z.land_ones by lia. apply Z.mod_pos_bound. apply Z.pow_pos_nonneg; lia. Qed.

Lemma adts_to_asc_spec h : adts_to_asc h = asc_bytes (adts_profile h + 1) (adts_frequency h) (adts_channel h) 0.
Proof.
  unfold adts_to_asc. pose proof (adts_get_range h 38 3 2 eq_refl ltac:(lia)) as Hp. pose proof (adts_get_range h 34 15 4 eq_refl ltac:(lia)) as Hf. pose proof (adts_get_range h 30 7 3 eq_refl ltac:(lia)) as Hc.
  fold (adts_profile h) in Hp. fold (adts_frequency h) in Hf. fold (adts_channel h) in Hc. set (p := adts_profile h) in *. set (f := adts_frequency h) in *. set (c := adts_channel h) in *. clearbody p f c. cbv zeta.
  assert (T : forallb (fun p => forallb (fun f => forallb (fun c => let p := Z.of_nat p in let f := Z.of_nat f in let c := Z.of_nat c in
     (Z.lor (u8 (Z.shiftl (Z.land (u8 (u8 p + 1)) 31) 3)) (Z.land (Z.shiftr (u8 f) 1) 7) =? nth 0 (asc_bytes (p + 1) f c 0) 0) &&
     (Z.lor (u8 (Z.shiftl (Z.land (u8 f) 1) 7)) (u8 (Z.shiftl (Z.land (u8 c) 15) 3)) =? nth 1 (asc_bytes (p + 1) f c 0) 0)) (seq 0 8)) (seq 0 16)) (seq 0 4) = true) by (vm_compute; reflexivity).
  rewrite forallb_forall in T. specialize (T (Z.to_nat p) ltac:(apply in_seq; lia)). rewrite forallb_forall in T. specialize (T (Z.to_nat f) ltac:(apply in_seq; lia)). rewrite forallb_forall in T. specialize (T (Z.to_nat c) ltac:(apply in_seq; lia)).
  cbv zeta in T. rewrite !Z2Nat.id in T by lia. apply andb_true_iff in T as [T1 T2]. apply Z.eqb_eq in T1. apply Z.eqb_eq in T2. rewrite T1, T2.
  assert (length (asc_bytes (p + 1) f c 0) = 2%nat) as L by apply be_bytes_length. destruct (asc_bytes (p + 1) f c 0) as [|x [|y [|]]]; try discriminate L. reflexivity.
Qed.

Lemma asc_bytes_eq o f c r : asc_bytes o f c r = [(o mod 32) * 8 + (f mod 16) / 2; (f mod 2) * 128 + (c mod 16) * 8 + r mod 8].
Proof.
  unfold asc_bytes. replace (pack [(o, 5); (f, 4); (c, 4); (r, 3)]) with (be_value [(o mod 32) * 8 + (f mod 16) / 2; (f mod 2) * 128 + (c mod 16) * 8 + r mod 8]).
  - change 2%nat with (length [(o mod 32) * 8 + (f mod 16) / 2; (f mod 2) * 128 + (c mod 16) * 8 + r mod 8]) at 1. apply be_value_bytes.
    unfold bytes_ok. rewrite !Forall_cons_iff. unfold byte_ok. repeat split; try constructor; Z.div_mod_to_equations; lia.
  - unfold be_value, pack. cbn [fold_left fst snd]. change (2 ^ 5) with 32. change (2 ^ 4) with 16. change (2 ^ 3) with 8. Z.div_mod_to_equations; lia.
Qed.

Definition asc_of (o f c : Z) : asc :=
  {| asc_object_type := o; asc_sampling_index := f; asc_sample_rate := fst (map_get audio_sampling_rates f); asc_chan_config := c; asc_channels := nth (Z.to_nat c) mpeg4_audio_channels 0 |}.

Lemma parse_asc_spec b0 b1 t : byte_ok b0 -> byte_ok b1 ->
  parse_asc (b0 :: b1 :: t) = let c := (b1 / 8) mod 16 in if c <=? 13 then Ok (asc_of (b0 / 8) (b0 mod 8 * 2 + b1 / 128) c) else Err.
Proof.
  intros B0 B1. unfold byte_ok in *. unfold parse_asc. rewrite idx_cons_0. change (idx (b0 :: b1 :: t) 1) with (Some b1). cbn [of_opt bind].
  rewrite !Z.shiftr_div_pow2, Z.shiftl_mul_pow2 by lia. change 15 with (Z.ones 4). change (Z.land b0 7) with (Z.land b0 (Z.ones 3)). rewrite !Z.land_ones by lia. change (2 ^ 3) with 8. change (2 ^ 4) with 16. change (2 ^ 1) with 2. change (2 ^ 7) with 128.
  assert (E : Z.lor (u8 (b0 mod 8 * 2)) (b1 / 128) = b0 mod 8 * 2 + b1 / 128).
  { unfold u8. change (2 ^ 8) with 256. pose proof (Z.mod_pos_bound b0 8 ltac:(lia)). rewrite Z.mod_small by lia. apply (lor_add' (b0 mod 8) _ 1); [lia|Z.div_mod_to_equations; lia|reflexivity]. }
  rewrite E. cbv zeta. set (c := (b1 / 8) mod 16). assert (Hc : 0 <= c < 16) by (apply Z.mod_pos_bound; lia). change (zlen mpeg4_audio_channels) with 14.
  destruct (c >=? 14) eqn:G; [now replace (c <=? 13) with false by lia|]. replace (c <=? 13) with true by lia.
  assert (I : idx mpeg4_audio_channels c = Some (nth (Z.to_nat c) mpeg4_audio_channels 0)).
  { unfold idx. replace (c <? 0) with false by lia. apply nth_error_nth'. cbn [length mpeg4_audio_channels]. lia. }
  rewrite I. reflexivity.
Qed.

Lemma be_value_firstn7 data : 7 <= zlen data -> bytes_ok data ->
  exists h t, data = h ++ t /\ length h = 7%nat /\ bytes_ok h /\ h = firstn 7 data.
Proof.
  intros L B. exists (firstn 7 data), (skipn 7 data). rewrite firstn_skipn. unfold zlen in L. rewrite firstn_length_le by lia. repeat split; auto. now apply bytes_ok_firstn.
Qed.

(** * CursorProofs: reader and writer methods at the boundary between consumed and remaining bytes. *)
From Verif Require Import Base BufioModel BytesSpec BytesProofs RingProofs NaluModel NaluSpec NaluProofs SplitProofs AvccProofs RecordModel.

Definition small (out rest : list Z) : Prop := zlen (out ++ rest) < 2 ^ 63.

Lemma peek_end out rest n : small out rest -> 0 <= n < 2 ^ 63 ->
  peekN (mkw out rest) n = if n <=? zlen rest then Some (bb_set_offset (mkw out rest) (zlen out + n)) else None.
Proof.
  intros B Hn. unfold small in B. rewrite zlen_app in B. pose proof (zlen_nonneg out) as No. pose proof (zlen_nonneg rest) as Nr.
  unfold peekN, mkw. cbn [bb_offset bb_length]. rewrite zlen_app. unfold i64. destruct (Z.leb_spec n (zlen rest)).
  - replace ((zlen out + n + 2 ^ 63) mod 2 ^ 64) with (zlen out + n + 2 ^ 63) by (symmetry; apply Z.mod_small; lia).
    replace ((_ <? _) || _) with false by lia. f_equal. unfold bb_set_offset. f_equal. lia.
  - destruct (Z_lt_dec (zlen out + n) (2 ^ 63)).
    + replace ((zlen out + n + 2 ^ 63) mod 2 ^ 64) with (zlen out + n + 2 ^ 63) by (symmetry; apply Z.mod_small; lia). now replace ((_ <? _) || _) with true by lia.
    + replace ((zlen out + n + 2 ^ 63) mod 2 ^ 64) with (zlen out + n + 2 ^ 63 - 2 ^ 64) by (apply Z.mod_unique with 1; lia). now replace ((_ <? _) || _) with true by lia.
Qed.

Lemma mkw_eq out rest out' rest' : out ++ rest = out' ++ rest' -> bb_set_offset (mkw out rest) (zlen out') = mkw out' rest'.
Proof. intros E. unfold bb_set_offset, mkw. cbn [bb_data bb_length]. now rewrite E. Qed.

Lemma app_split (d : list Z) n : 0 <= n <= zlen d -> exists a b, d = a ++ b /\ zlen a = n.
Proof. apply split_at. Qed.

(** *** Reading *)
Lemma rd_u8_cons out x r : small out (x :: r) -> rd_u8 (mkw out (x :: r)) = (mkw (out ++ [x]) r, Ok x).
Proof.
  intros B. unfold rd_u8. rewrite peek_end by (auto; lia). rewrite zlen_cons. pose proof (zlen_nonneg r). replace (1 <=? 1 + zlen r) with true by lia.
  cbn [bb_offset bb_set_offset bb_data mkw]. rewrite Z.add_simpl_r, idx_app_mid. f_equal.
  replace (zlen out + 1) with (zlen (out ++ [x])) by (now rewrite zlen_app). apply mkw_eq. now rewrite <- app_assoc.
Qed.
Lemma rd_u8_nil out : small out [] -> rd_u8 (mkw out []) = (mkw out [], Err).
Proof. intros B. unfold rd_u8. rewrite peek_end by (auto; lia). reflexivity. Qed.

Lemma rd_uint_app n out h r : small out (h ++ r) -> (n <= 8)%nat -> length h = n -> rd_uint n (mkw out (h ++ r)) = (mkw (out ++ h) r, Ok (be_value h)).
Proof.
  intros B Hn L. assert (Lz : zlen h = Z.of_nat n) by (unfold zlen; now rewrite L). pose proof (zlen_nonneg r).
  unfold rd_uint. rewrite peek_end by (auto; lia). rewrite zlen_app. replace (_ <=? _) with true by lia. cbn [bb_offset bb_set_offset bb_data mkw].
  rewrite Z.add_simpl_r, slice_from_app. cbn [of_opt bind]. rewrite be_get_app by exact L. f_equal.
  replace (zlen out + Z.of_nat n) with (zlen (out ++ h)) by (rewrite zlen_app; lia). apply mkw_eq. now rewrite <- app_assoc.
Qed.
Lemma rd_uint_short n out r : small out r -> (n <= 8)%nat -> zlen r < Z.of_nat n -> rd_uint n (mkw out r) = (mkw out r, Err).
Proof. intros B Hn L. unfold rd_uint. rewrite peek_end by (auto; lia). now replace (_ <=? _) with false by lia. Qed.

Lemma rd_bytes_app out h r : small out (h ++ r) -> rd_bytes (mkw out (h ++ r)) (zlen h) = (mkw (out ++ h) r, Ok h).
Proof.
  intros B. pose proof (zlen_nonneg h) as Nh. pose proof (zlen_nonneg r). pose proof (zlen_nonneg out).
  unfold rd_bytes. rewrite peek_end; [|auto|unfold small in B; rewrite !zlen_app in B; lia]. rewrite zlen_app. replace (_ <=? _) with true by lia. cbn [bb_offset bb_set_offset bb_data mkw].
  rewrite slice_app_mid. cbn [of_opt]. f_equal.
  rewrite <- zlen_app. apply mkw_eq. now rewrite <- app_assoc.
Qed.
Lemma rd_bytes_short out r n : small out r -> zlen r < n < 2 ^ 63 -> rd_bytes (mkw out r) n = (mkw out r, Err).
Proof. intros B L. unfold rd_bytes. pose proof (zlen_nonneg r). rewrite peek_end by (auto; lia). now replace (_ <=? _) with false by lia. Qed.

Lemma seek_app out h r : small out (h ++ r) -> bb_seek (mkw out (h ++ r)) (zlen h) = (mkw (out ++ h) r, Ok tt).
Proof.
  intros B. pose proof (zlen_nonneg h) as Nh. pose proof (zlen_nonneg r). pose proof (zlen_nonneg out).
  unfold bb_seek. rewrite peek_end; [|auto|unfold small in B; rewrite !zlen_app in B; lia]. rewrite zlen_app. replace (_ <=? _) with true by lia.
  f_equal. rewrite <- zlen_app. apply mkw_eq. now rewrite <- app_assoc.
Qed.
Lemma seek_short out r n : small out r -> zlen r < n < 2 ^ 63 -> bb_seek (mkw out r) n = (mkw out r, Err).
Proof. intros B L. unfold bb_seek. pose proof (zlen_nonneg r). rewrite peek_end by (auto; lia). now replace (_ <=? _) with false by lia. Qed.

Lemma bb_new_mkw d : bb_new d = mkw [] d.
Proof. reflexivity. Qed.

(** *** Writing *)
Lemma wr_bytes_short out rest d : small out rest -> zlen rest < zlen d < 2 ^ 63 -> wr_bytes (mkw out rest) d = (mkw out rest, Err).
Proof. intros B L. unfold wr_bytes. pose proof (zlen_nonneg rest). rewrite peek_end by (auto; lia). now replace (_ <=? _) with false by lia. Qed.

Lemma wr_u8_cons out y rest v : small out (y :: rest) -> wr_u8 (mkw out (y :: rest)) v = (mkw (out ++ [v]) rest, Ok tt).
Proof.
  intros B. unfold wr_u8. rewrite peek_end by (auto; lia). rewrite zlen_cons. pose proof (zlen_nonneg rest). pose proof (zlen_nonneg out). replace (1 <=? 1 + zlen rest) with true by lia.
  cbn [bb_offset bb_set_offset bb_data mkw]. rewrite Z.add_simpl_r. rewrite upd_some by (rewrite zlen_app, zlen_cons; lia). cbn [of_opt finish_write].
  unfold bb_set_data, bb_set_offset, mkw. cbn [bb_length bb_offset bb_data]. f_equal. 
  assert (set_nth (Z.to_nat (zlen out)) v (out ++ y :: rest) = (out ++ [v]) ++ rest) as ->.
  { rewrite <- app_assoc. unfold zlen. rewrite Nat2Z.id. clear. induction out as [|o out IH]; cbn; [reflexivity|]. now rewrite IH. }
  f_equal; rewrite !zlen_app, ?zlen_cons; change (zlen (@nil Z)) with 0; lia.
Qed.
Lemma wr_u8_nil out v : small out [] -> wr_u8 (mkw out []) v = (mkw out [], Err).
Proof. intros B. unfold wr_u8. rewrite peek_end by (auto; lia). reflexivity. Qed.

Lemma wr_uint_fits n out rest v : small out rest -> (n <= 8)%nat -> Z.of_nat n <= zlen rest ->
  wr_uint n (mkw out rest) v = (mkw (out ++ be_bytes n v) (skipn n rest), Ok tt).
Proof.
  intros B Hn L. unfold wr_uint. rewrite peek_end by (auto; lia). replace (_ <=? _) with true by lia. cbn [bb_offset bb_set_offset bb_data mkw]. rewrite Z.add_simpl_r.
  rewrite (write_sub_end out rest _ (be_bytes n v ++ skipn n rest)) by (now apply be_put_fits). cbn [finish_write].
  unfold bb_set_data, bb_set_offset, mkw. cbn [bb_length bb_offset bb_data]. f_equal. rewrite app_assoc.
  assert (Lb : zlen (be_bytes n v) = Z.of_nat n) by (unfold zlen; now rewrite be_bytes_length).
  assert (Ls : zlen (skipn n rest) = zlen rest - Z.of_nat n) by (apply zlen_skipn_nat; unfold zlen in L; lia).
  f_equal; rewrite !zlen_app, ?Lb, ?Ls; lia.
Qed.
Lemma wr_uint_short n out rest v : small out rest -> (n <= 8)%nat -> zlen rest < Z.of_nat n -> wr_uint n (mkw out rest) v = (mkw out rest, Err).
Proof. intros B Hn L. unfold wr_uint. rewrite peek_end by (auto; lia). now replace (_ <=? _) with false by lia. Qed.

Lemma small_shift out a rest rest' : zlen rest' = zlen rest - zlen a -> small out rest -> small (out ++ a) rest'.
Proof. unfold small. rewrite !zlen_app. lia. Qed.
Lemma small_app out a r : small out (a ++ r) -> small (out ++ a) r.
Proof. unfold small. now rewrite <- app_assoc. Qed.

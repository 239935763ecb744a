(** * PropertiesCursor: C107, BitsReader and BitsWriter at every offset. *)
From Verif Require Import Base BitSpec BufioModel BitsProofs BitCursorProofs.

(** ** C107 *)
(** What a checked read is for. *)
Definition checked_read (b : bits_cursor) (n : Z) : res (Z * bits_cursor) :=
  if (0 <=? bc_off b) && (0 <=? n) && (bc_off b + n <=? 8 * zlen (bc_data b)) then br_read b n else Err.

Theorem C107_safe_read_refuted : exists b, bytes_ok (bc_data b) /\
  checked_read b 3 = Ok (5, {| bc_data := bc_data b; bc_off := 3 |}) /\ br_safe_read b 3 = Ok (0, b) /\
  checked_read b 9 = Err /\ br_safe_read b 9 = Ok (0, b).
Proof. exists {| bc_data := [160]; bc_off := 0 |}. split; [repeat constructor; discriminate|]. vm_compute. auto. Qed.
Print Assumptions C107_safe_read_refuted.

(** Right only when nothing is read. *)
Theorem C107_safe_read_exact : forall b n, br_safe_read b n = Ok (0, b) /\
  (br_safe_read b n = checked_read b n <-> n = 0 /\ 0 <= bc_off b <= 8 * zlen (bc_data b)).
Proof.
  intros [data off] n. split; [reflexivity|]. unfold checked_read, br_safe_read, br_read. cbn [bc_data bc_off]. split.
  - destruct ((0 <=? off) && (0 <=? n) && (off + n <=? 8 * zlen data)) eqn:C; [|discriminate]. destruct (read_bits data off n) as [v| | |]; try discriminate. cbn [bind]. intros E.
    assert (off = off + n) by congruence. lia.
  - intros [-> H]. replace ((0 <=? off) && (0 <=? 0) && (off + 0 <=? 8 * zlen data)) with true by lia. cbn. now rewrite Z.add_0_r.
Qed.
Print Assumptions C107_safe_read_exact.

(** Read at any offset, for any length. Bits that do not exist (in front of the data, down to -7, and behind it) are left out. *)
Theorem C107_read_exact : forall data off n, bytes_ok data ->
  br_read {| bc_data := data; bc_off := off |} n =
  if (0 <? n) && (off <=? -8) then Panic
  else Ok (bits_value (firstn (Z.to_nat (n + Z.min off 0)) (skipn (Z.to_nat off) (bits_of_bytes data))) mod 2 ^ 64, {| bc_data := data; bc_off := off + n |}).
Proof.
  intros data off n K. unfold br_read. cbn [bc_data bc_off]. destruct (Z_le_gt_dec n 0) as [Hn|Hn].
  - replace (0 <? n) with false by lia. cbn [andb]. unfold read_bits. replace (Z.to_nat n) with 0%nat by lia. replace (Z.to_nat (n + Z.min off 0)) with 0%nat by lia. reflexivity.
  - replace (0 <? n) with true by lia. cbn [andb]. destruct (off <=? -8) eqn:C; [now rewrite read_bits_far by lia|]. destruct (Z_le_gt_dec off 0) as [Ho|Ho].
    + rewrite read_bits_near by (auto; lia). rewrite Z.min_l by lia. replace (Z.to_nat off) with (Z.to_nat 0) by lia. destruct (Z_le_gt_dec 0 (n + off)) as [Hp|Hp]; [now rewrite read_bits_correct by lia|].
      unfold read_bits. replace (Z.to_nat (n + off)) with 0%nat by lia. reflexivity.
    + rewrite Z.min_r by lia. rewrite Z.add_0_r. now rewrite read_bits_correct by lia.
Qed.
Print Assumptions C107_read_exact.

(** Write at any offset: the bits in front of the data are left out, otherwise as C02 says. *)
Theorem C107_write_exact : forall data off n v, bytes_ok data ->
  if (0 <? n) && (off <=? -8) then bw_write {| bc_data := data; bc_off := off |} n v = Panic
  else exists data', bw_write {| bc_data := data; bc_off := off |} n v = Ok {| bc_data := data'; bc_off := off + n |} /\
    bytes_ok data' /\ length data' = length data /\
    forall j, 0 <= j -> nth_error (bits_of_bytes data') (Z.to_nat j) =
      if (off <=? j) && (j <? off + n) && (j <? 8 * zlen data) then Some (Z.testbit v (off + n - 1 - j)) else nth_error (bits_of_bytes data) (Z.to_nat j).
Proof.
  intros data off n v K. unfold bw_write. cbn [bc_data bc_off]. destruct (Z_le_gt_dec n 0) as [Hn|Hn].
  - replace (0 <? n) with false by lia. cbn [andb]. unfold write_bits. replace (Z.to_nat n) with 0%nat by lia. cbn [write_bits_loop bind]. exists data. split; [reflexivity|]. split; [exact K|]. split; [reflexivity|].
    intros j Hj. destruct (_ && _) eqn:C; [lia|reflexivity].
  - replace (0 <? n) with true by lia. cbn [andb]. destruct (off <=? -8) eqn:C; [now rewrite write_bits_far by lia|].
    assert (W : exists m, write_bits data off n v = write_bits data (Z.max off 0) m v /\ 0 <= m /\ (m = 0 /\ off + n <= 0 \/ Z.max off 0 + m = off + n)).
    { destruct (Z_le_gt_dec off 0) as [Ho|Ho].
      - rewrite write_bits_near by lia. replace (Z.max off 0) with 0 by lia. exists (Z.max (n + off) 0). split; [|lia]. unfold write_bits. f_equal. lia.
      - replace (Z.max off 0) with off by lia. exists n. split; [reflexivity|lia]. }
    destruct W as (m & E & Hm & Cm). rewrite E. destruct (write_bits_correct data (Z.max off 0) m v ltac:(lia) Hm K) as (d & R & K' & L & P). rewrite R. cbn [bind]. exists d. split; [reflexivity|]. split; [exact K'|]. split; [exact L|].
    intros j Hj. rewrite P. unfold zlen in *. destruct (_ && _) eqn:C1; destruct ((off <=? j) && _ && _) eqn:C2; try lia; [f_equal; f_equal; lia|reflexivity].
Qed.
Print Assumptions C107_write_exact.

(** ReadBytes and WriteBytes work on whole bytes: an offset inside a byte is rounded towards zero. *)
Theorem C107_read_bytes_exact : forall data off n,
  let lo := Z.quot off 8 in let hi := Z.quot (off + 8 * n) 8 in
  br_read_bytes {| bc_data := data; bc_off := off |} n =
  if (0 <=? lo) && (lo <=? hi) && (hi <=? zlen data) then Ok (firstn (Z.to_nat (hi - lo)) (skipn (Z.to_nat lo) data), {| bc_data := data; bc_off := off + 8 * n |}) else Panic.
Proof.
  intros data off n lo hi. unfold br_read_bytes. cbn [bc_data bc_off]. fold lo hi. destruct ((0 <=? lo) && (lo <=? hi) && (hi <=? zlen data)) eqn:C.
  - rewrite slice_some by lia. reflexivity.
  - rewrite slice_none by lia. reflexivity.
Qed.
Print Assumptions C107_read_bytes_exact.

Theorem C107_write_bytes_exact : forall data off l,
  let at_ := Z.quot off 8 in let l' := firstn (Z.to_nat (zlen data - at_)) l in
  bw_write_bytes {| bc_data := data; bc_off := off |} l =
  if (0 <=? at_) && (at_ <=? zlen data) then
    Ok {| bc_data := firstn (Z.to_nat at_) data ++ l' ++ skipn (Z.to_nat at_ + length l') data; bc_off := off + 8 * zlen l |} else Panic.
Proof.
  intros data off l at_ l'. unfold bw_write_bytes. cbn [bc_data bc_off]. fold at_. destruct ((0 <=? at_) && (at_ <=? zlen data)) eqn:C.
  - rewrite copy_at_some by lia. cbn [of_opt bind]. do 2 f_equal; [|lia]. f_equal. unfold copy. subst l'. rewrite skipn_length.
    replace (length data - Z.to_nat at_)%nat with (Z.to_nat (zlen data - at_)) by (unfold zlen; lia). f_equal. rewrite skipn_skipn.
    destruct (Nat.le_gt_cases (length l) (Z.to_nat (zlen data - at_))) as [Hl|Hl]; [now rewrite firstn_all2 by lia|].
    rewrite firstn_length, Nat.min_l by lia. rewrite !skipn_all2 by (unfold zlen in *; lia). reflexivity.
  - unfold copy_at. rewrite C. reflexivity.
Qed.
Print Assumptions C107_write_bytes_exact.

Example C107_example :
  br_read {| bc_data := [160]; bc_off := -2 |} 5 = Ok (5, {| bc_data := [160]; bc_off := 3 |}) /\
  br_read {| bc_data := [160]; bc_off := -8 |} 5 = Panic /\
  br_read {| bc_data := [160]; bc_off := 4 |} 9 = Ok (0, {| bc_data := [160]; bc_off := 13 |}) /\
  br_read_bytes {| bc_data := [1; 2; 3]; bc_off := 13 |} 2 = Ok ([2; 3], {| bc_data := [1; 2; 3]; bc_off := 29 |}) /\
  br_read_bytes {| bc_data := [1; 2; 3]; bc_off := 13 |} 3 = Panic /\
  bw_write_bytes {| bc_data := [1; 2; 3]; bc_off := 16 |} [7; 8; 9] = Ok {| bc_data := [1; 2; 7]; bc_off := 40 |} /\
  bw_write {| bc_data := [0; 0]; bc_off := -3 |} 6 63 = Ok {| bc_data := [224; 0]; bc_off := 3 |}.
Proof. vm_compute. auto 10. Qed.

(** * Properties C01-C10: package bufio. *)
From Verif Require Import Base BitSpec BufioModel BitsProofs BytesSpec BytesProofs GolombProofs.

(** ** C01 *)
Theorem C01_read_bits_value : forall data start n,
  bytes_ok data -> 0 <= start -> 0 <= n ->
  read_bits data start n =
  Ok (bits_value (firstn (Z.to_nat n) (skipn (Z.to_nat start) (bits_of_bytes data))) mod 2 ^ 64).
Proof. intros. now apply read_bits_correct. Qed.

Example C01_example : read_bits [165; 60] 2 9 = Ok 297 /\
  bits_value (firstn 9 (skipn 2 (bits_of_bytes [165; 60]))) = 297 /\
  read_bits [255] 4 100 = Ok 15.
Proof. vm_compute. auto. Qed.
Print Assumptions C01_read_bits_value.

(** ** C02 *)
Theorem C02_write_bits_exact : forall data start n v,
  bytes_ok data -> 0 <= start -> 0 <= v < 2 ^ 64 ->
  exists data', write_bits data start n v = Ok data' /\
    bytes_ok data' /\ length data' = length data /\
    (forall j, (Z.of_nat j < start \/ start + n <= Z.of_nat j) ->
       nth_error (bits_of_bytes data') j = nth_error (bits_of_bytes data) j) /\
    (forall k, 0 <= k < n -> start + k < 8 * zlen data ->
       nth_error (bits_of_bytes data') (Z.to_nat (start + k)) = Some (Z.testbit v (n - 1 - k))).
Proof.
  intros data start n v K H1 _. destruct (Z_lt_dec n 0) as [Hn|Hn].
  { exists data. unfold write_bits. replace (Z.to_nat n) with O by lia. split; [reflexivity|]. split; [exact K|]. split; [reflexivity|]. split; [reflexivity|]. intros. lia. }
  assert (H2 : 0 <= n) by lia. destruct (write_bits_correct data start n v H1 H2 K) as (d & R & K' & L & P).
  exists d. split; [exact R|]. split; [exact K'|]. split; [exact L|]. split.
  - intros j Hj. rewrite P. destruct (_ && _) eqn:E; [lia|reflexivity].
  - intros k Hk Hl. rewrite P. unfold zlen in Hl. destruct (_ && _) eqn:E; [|lia].
    f_equal. f_equal. lia.
Qed.

Example C02_example : write_bits [255; 0; 255] 6 12 1365 = Ok [253; 85; 127].
Proof. vm_compute. auto. Qed.
Print Assumptions C02_write_bits_exact.

(** ** C03 *)
Theorem C03_bits_writer_reader_round_trip : forall fields data off,
  0 <= off -> fields_ok off fields -> bytes_ok data -> off + fields_width fields <= 8 * zlen data ->
  exists data', bw_fields {| bc_data := data; bc_off := off |} fields =
      Ok {| bc_data := data'; bc_off := off + fields_width fields |} /\
    length data' = length data /\
    firstn (Z.to_nat off) (bits_of_bytes data') = firstn (Z.to_nat off) (bits_of_bytes data) /\
    skipn (Z.to_nat (off + fields_width fields)) (bits_of_bytes data') =
      skipn (Z.to_nat (off + fields_width fields)) (bits_of_bytes data) /\
    br_fields {| bc_data := data'; bc_off := off |} fields =
      Ok (map field_value fields, {| bc_data := data'; bc_off := off + fields_width fields |}).
Proof.
  intros fields data off H1 H2 H3 H4. destruct (bw_fields_correct fields data off H1 H2 H3 H4) as (d & A & B & C & D & E & F).
  exists d. auto 6.
Qed.

Example C03_example :
  let fs := [FBits 3 5; FSkip 2; FBits 11 1029; FBytes [7; 9]; FBits 1 1] in
  fields_ok 0 fs /\ fields_width fs <= 8 * zlen [255; 255; 255; 255; 255] /\
  map field_value fs = [VBits 5; VSkip; VBits 1029; VBytes [7; 9]; VBits 1] /\
  bw_fields {| bc_data := [255; 255; 255; 255; 255]; bc_off := 0 |} fs = Ok {| bc_data := [188; 5; 7; 9; 255]; bc_off := 33 |} /\
  br_fields {| bc_data := [188; 5; 7; 9; 255]; bc_off := 0 |} fs = Ok (map field_value fs, {| bc_data := [188; 5; 7; 9; 255]; bc_off := 33 |}).
Proof. vm_compute. repeat split; try discriminate; auto. repeat constructor; discriminate. Qed.
Print Assumptions C03_bits_writer_reader_round_trip.

(** ** C04 *)
(** Every history of calls behaves exactly like the cursor of [BytesSpec]. *)
Theorem C04_cursor_matches_spec : forall ops data,
  zlen data < 2 ^ 63 -> bytes_ok data -> Forall bop_ok ops ->
  exists b rs, bb_run (bb_new data) ops = (b, rs) /\
    spec_run data 0 ops = ((bb_data b, bb_offset b), rs) /\
    0 <= bb_offset b <= zlen (bb_data b).
Proof.
  intros ops data L K F. destruct (bb_run_spec ops (bb_new data)) as (b & rs & E & I & S); auto using bb_new_inv.
  exists b, rs. split; [exact E|]. split; [exact S|]. apply I.
Qed.

(** The same, read directly off the model: one more call after any history. *)
Theorem C04_cursor_never_leaves : forall ops data o b rs,
  zlen data < 2 ^ 63 -> bytes_ok data -> Forall bop_ok ops -> bop_ok o ->
  bb_run (bb_new data) ops = (b, rs) ->
  let '(b', r) := bb_step b o in
  r <> Panic /\ r <> NoFuel /\
  0 <= bb_offset b' <= zlen (bb_data b') /\
  (r = Err -> b' = b) /\
  ((o <> OClear /\ forall d, o <> OReset d) ->
     (r = Err <-> ~ (0 <= bb_offset b + bop_delta o <= zlen (bb_data b))) /\
     (r <> Err -> bb_offset b' = bb_offset b + bop_delta o /\ zlen (bb_data b') = zlen (bb_data b))).
Proof.
  intros ops data o b rs L K F Ho E.
  destruct (bb_run_spec ops (bb_new data)) as (b0 & rs0 & E0 & I & _); auto using bb_new_inv.
  rewrite E in E0. injection E0 as <- <-.
  destruct (bb_step_spec b o I Ho) as (b' & r & E1 & I' & S). rewrite E1.
  pose proof I as (Lb & Bb & Ob & Kb). pose proof I' as (L' & B' & O' & K').
  assert (EQ : bb_data b' = bb_data b -> bb_offset b' = bb_offset b -> b' = b).
  { intros Q1 Q2. destruct b, b'; cbn in *. subst. reflexivity. }
  assert (OW : forall enc, 0 <= bb_offset b + zlen enc <= zlen (bb_data b) -> zlen (overwrite (bb_data b) (bb_offset b) enc) = zlen (bb_data b)).
  { intros enc He. unfold overwrite, zlen in *. rewrite !app_length, firstn_length, skipn_length. lia. }
  split; [|split; [|split; [exact O'|split]]].
  - intros ->. destruct o; cbn [spec_step] in S; try destruct (_ && _) in S; discriminate.
  - intros ->. destruct o; cbn [spec_step] in S; try destruct (_ && _) in S; discriminate.
  - intros ->. destruct o; cbn [spec_step] in S; try destruct (_ && _) in S; try discriminate; injection S as S1 S2; apply EQ; congruence.
  - intros [N1 N2].
    assert (Z0 : forall n v, zlen (be_bytes n v) = Z.of_nat n) by (intros; unfold zlen; now rewrite be_bytes_length).
    destruct o as [n|n| |d|n|n|n v|d]; try congruence; try (now specialize (N2 d)); cbn [spec_step bop_delta] in *;
    destruct ((0 <=? _) && _) eqn:Q; injection S as S1 S2 <-;
    (split; [split; [discriminate || (intros _; lia) | (intros; reflexivity) || (intros; lia)]|]);
    intros NE; try congruence; (split; [congruence|]); rewrite <- S1; auto;
    apply OW; rewrite ?Z0; lia.
Qed.

Example C04_example :
  snd (bb_run (bb_new [1; 2; 3; 4; 5])
    [ORead 2; OSeek (2 ^ 63 - 1); OSeekBack (- 2 ^ 63); OSeekBack 1; OBytes 3; OWrite 4 7; OWrite 1 9; OClear; ORead 4])
  = [Ok (VNum 258); Err; Err; Ok VUnit; Ok (VList [2; 3; 4]); Err; Ok VUnit; Ok VUnit; Ok (VNum 16909060)].
Proof. vm_compute. reflexivity. Qed.
Print Assumptions C04_cursor_matches_spec.
Print Assumptions C04_cursor_never_leaves.

(** ** C05: false as stated; ReadBytes of a negative size after the cursor moved panics. *)
Theorem C05_read_bytes_never_panics_refuted :
  exists b size, bb_inv b /\ is_i64 size /\ snd (rd_bytes b size) = Panic.
Proof.
  exists (fst (bb_run (bb_new [1; 2; 3]) [ORead 2])), (-1).
  split; [vm_compute; repeat constructor; discriminate|]. split; vm_compute; auto. split; [discriminate|reflexivity].
Qed.

(** What holds: it panics exactly for the negative sizes that stay inside the buffer, so never for size >= 0. *)
Theorem C05_read_bytes_never_panics_partial : forall data ops b rs size,
  zlen data < 2 ^ 63 -> bytes_ok data -> Forall bop_ok ops -> bb_run (bb_new data) ops = (b, rs) -> is_i64 size ->
  snd (rd_bytes b size) <> NoFuel /\
  (snd (rd_bytes b size) = Panic <-> (size < 0 /\ 0 <= bb_offset b + size)).
Proof.
  intros data ops b rs size L K F E Hs.
  destruct (bb_run_spec ops (bb_new data)) as (b0 & rs0 & E0 & I & _); auto using bb_new_inv.
  rewrite E in E0. injection E0 as <- <-. now apply rd_bytes_char.
Qed.
Print Assumptions C05_read_bytes_never_panics_refuted.
Print Assumptions C05_read_bytes_never_panics_partial.

(** ** C06 *)
Theorem C06_typed_round_trip : forall items buf b rs,
  Forall item_ok items -> bytes_ok buf -> zlen buf < 2 ^ 63 ->
  bb_run (bb_new buf) (map item_write items) = (b, rs) -> Forall (fun r => r = Ok VUnit) rs ->
  exists w b2, wr_written b = Ok w /\ bb_data b = w ++ skipn (length w) buf /\
    bb_run (bb_new w) (map item_read items) = (b2, map (fun i => Ok (item_val i)) items) /\
    bb_readable b2 = 0.
Proof. exact typed_round_trip. Qed.

Example C06_example :
  let items := [INum 2 513; IBytes [9; 8]; INum 4 7; INum 1 255] in
  Forall item_ok items /\
  snd (bb_run (bb_new (zeros 10)) (map item_write items)) = [Ok VUnit; Ok VUnit; Ok VUnit; Ok VUnit] /\
  wr_written (fst (bb_run (bb_new (zeros 10)) (map item_write items))) = Ok [2; 1; 9; 8; 0; 0; 0; 7; 255] /\
  snd (bb_run (bb_new [2; 1; 9; 8; 0; 0; 0; 7; 255]) (map item_read items)) = [Ok (VNum 513); Ok (VList [9; 8]); Ok (VNum 7); Ok (VNum 255)].
Proof. split; [|repeat split]. repeat constructor; cbn; try lia; unfold byte_ok; lia. Qed.
Print Assumptions C06_typed_round_trip.

(** ** C07 *)
Theorem C07_uint24_round_trip : forall dst v, bytes_ok dst -> 3 <= zlen dst -> 0 <= v < 2 ^ 32 ->
  exists dst', put_uint24 dst v = Ok dst' /\ length dst' = length dst /\ skipn 3 dst' = skipn 3 dst /\
    uint24 dst' = Ok (v mod 2 ^ 24) /\
    rd_u24 (bb_new dst') = (bb_set_offset (bb_new dst') 3, Ok (v mod 2 ^ 24)).
Proof.
  intros dst v K L Hv. exists (be_bytes 3 v ++ skipn 3 dst). split; [apply put_uint24_correct; lia|].
  assert (LB : length (be_bytes 3 v) = 3%nat) by apply be_bytes_length.
  assert (U : uint24 (be_bytes 3 v ++ skipn 3 dst) = Ok (v mod 2 ^ 24)).
  { rewrite uint24_correct.
    - rewrite firstn_app, LB, Nat.sub_diag, firstn_O, app_nil_r. rewrite firstn_all2 by lia.
      now rewrite be_bytes_value.
    - apply bytes_ok_app. split; [apply be_bytes_ok|now apply bytes_ok_skipn].
    - rewrite zlen_app. unfold zlen at 1. rewrite LB. pose proof (zlen_nonneg (skipn 3 dst)). lia. }
  split; [rewrite app_length, LB, skipn_length; unfold zlen in L; lia|].
  split; [rewrite skipn_app, LB; reflexivity|]. split; [exact U|].
  unfold rd_u24, peekN. cbn [bb_new bb_offset bb_length bb_data]. rewrite Z.add_0_l. change (i64 3) with 3.
  replace (zlen (be_bytes 3 v ++ skipn 3 dst) <? 3) with false.
  2:{ rewrite zlen_app. unfold zlen at 1. rewrite LB. pose proof (zlen_nonneg (skipn 3 dst)). lia. }
  change (3 <? 0) with false. cbn [orb bb_set_offset bb_data bb_offset bb_new]. change (3 - 3) with 0. rewrite slice_from_some.
  2:{ cbn [bb_new bb_data]. pose proof (zlen_nonneg (be_bytes 3 v ++ skipn 3 dst)). lia. }
  cbn [of_opt bind]. change (Z.to_nat 0) with 0%nat. rewrite skipn_O, U. reflexivity.
Qed.

Example C07_example : put_uint24 [9; 9; 9; 4] (2 ^ 24 + 66051) = Ok [1; 2; 3; 4].
Proof. reflexivity. Qed.
Print Assumptions C07_uint24_round_trip.

(** ** C08 *)
(** [g_bits g] are the bits of the stream the reader has not consumed; a reader over [data] starts with
    all of them (second conjunct), and every read leaves a reader whose unread bits are the expected suffix. *)
Theorem C08_golomb_fixed_width : forall g n, g_wf g -> 0 <= n ->
  (n <= zlen (g_bits g) ->
     let v := bits_value (firstn (Z.to_nat n) (g_bits g)) in
     (exists g', g_read_bits n g = (g', Ok (v mod 2 ^ 64)) /\ g_wf g' /\ g_bits g' = skipn (Z.to_nat n) (g_bits g)) /\
     (exists g', g_read_bits32 n g = (g', Ok (v mod 2 ^ 32)) /\ g_wf g' /\ g_bits g' = skipn (Z.to_nat n) (g_bits g)) /\
     (exists g', g_read_bits64 n g = (g', Ok (v mod 2 ^ 64)) /\ g_wf g' /\ g_bits g' = skipn (Z.to_nat n) (g_bits g))) /\
  (zlen (g_bits g) < n ->
     (exists g', g_read_bits n g = (g', Err) /\ g_wf g' /\ g_bits g' = []) /\
     (exists g', g_read_bits32 n g = (g', Err) /\ g_wf g' /\ g_bits g' = []) /\
     (exists g', g_read_bits64 n g = (g', Err) /\ g_wf g' /\ g_bits g' = [])).
Proof.
  intros g n W Hn. split; intros L v || intros L; unfold zlen in L.
  - assert (L2 : (Z.to_nat n <= length (g_bits g))%nat) by lia. split; [|split].
    + now apply g_read_bits_ok.
    + exact (g_read_bits32_loop_ok _ g _ 0 W eq_refl L2).
    + exact (g_read_bits64_loop_ok _ g _ 0 W eq_refl L2).
  - assert (L2 : (length (g_bits g) < Z.to_nat n)%nat) by lia. split; [|split].
    + now apply (g_read_bits_err n g (g_bits g)).
    + exact (g_read_bits32_loop_err _ g _ 0 W eq_refl L2).
    + exact (g_read_bits64_loop_err _ g _ 0 W eq_refl L2).
Qed.

Theorem C08_golomb_read_bit : forall g, g_wf g ->
  match g_bits g with
  | [] => g_read_bit g = (g, Err)
  | b :: t => exists g', g_read_bit g = (g', Ok (Z.b2z b)) /\ g_wf g' /\ g_bits g' = t
  end.
Proof.
  intros g W. destruct (g_bits g) as [|b t] eqn:E; [now apply g_read_bit_nil|now apply g_read_bit_cons].
Qed.

(** Every reader in use is well formed: it starts that way and its unread bits are the input. *)
Theorem C08_golomb_start : forall data, g_wf (golomb_new data) /\ g_bits (golomb_new data) = bits_of_bytes data.
Proof. intros. split; [apply golomb_new_wf|apply golomb_new_bits]. Qed.

Example C08_example :
  snd (g_read_bits 11 (golomb_new [165; 60])) = Ok 1321 /\ snd (g_read_bits32 17 (golomb_new [165; 60])) = Err.
Proof. vm_compute. auto. Qed.
Print Assumptions C08_golomb_fixed_width.
Print Assumptions C08_golomb_read_bit.
Print Assumptions C08_golomb_start.

(** ** C09 *)
Theorem C09_ue_decodes : forall g v rest,
  0 <= v < 2 ^ 33 - 1 -> g_wf g -> g_bits g = ue_code v ++ rest ->
  exists g', g_read_ue g = (g', Ok v) /\ g_wf g' /\ g_bits g' = rest.
Proof. exact g_read_ue_code. Qed.

(** On any stream: a value whose code was consumed, or 33 zero bits (not a code of the standard)
    followed by 32 bits, read as if the last zero were a one, or an end-of-data error within the first 65 bits. *)
Theorem C09_ue_total : forall g, g_wf g ->
  exists g' r, g_read_ue g = (g', r) /\ g_wf g' /\
  ((exists v, r = Ok v /\ 0 <= v < 2 ^ 33 - 1 /\ g_bits g = ue_code v ++ g_bits g') \/
   (exists v x, r = Ok v /\ v = 2 ^ 32 - 1 + bits_value x /\ length x = 32%nat /\ g_bits g = repeat false 33 ++ x ++ g_bits g') \/
   (r = Err /\ g_bits g' = [] /\ (length (g_bits g) < 65)%nat)).
Proof. exact g_read_ue_total. Qed.

Example C09_example : ue_code 7 = [false; false; false; true; false; false; false] /\
  snd (g_read_ue (golomb_new [16; 255])) = Ok 7 /\ snd (g_read_ue (golomb_new [0])) = Err.
Proof. vm_compute. auto. Qed.
Print Assumptions C09_ue_decodes.
Print Assumptions C09_ue_total.

(** ** C10: false for negative values ((-res)/2 is an unsigned division). *)
Theorem C10_se_decodes_refuted : exists data v g',
  bits_of_bytes data = se_code v ++ [true; true; true; true; true] /\ g_read_se (golomb_new data) = (g', Ok (2 ^ 63 - 1)) /\
  v = -1 /\ u64 v <> 2 ^ 63 - 1.
Proof. exists [127], (-1). eexists. vm_compute. repeat split; discriminate. Qed.

(** What holds: exact for v >= 0, and for v < 0 exact modulo 2^63 only (bit 63 is lost). *)
Theorem C10_se_decodes_partial : forall g v rest,
  - (2 ^ 32 - 1) <= v <= 2 ^ 32 - 1 -> g_wf g -> g_bits g = se_code v ++ rest ->
  exists g', g_read_se g = (g', Ok (if 0 <=? v then v else 2 ^ 63 + v)) /\ g_wf g' /\ g_bits g' = rest.
Proof. exact g_read_se_code. Qed.

Example C10_example : se_code 3 = ue_code 5 /\ snd (g_read_se (golomb_new [48])) = Ok 3.
Proof. vm_compute. auto. Qed.
Print Assumptions C10_se_decodes_refuted.
Print Assumptions C10_se_decodes_partial.

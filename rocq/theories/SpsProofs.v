(** * SpsProofs: what the SPS parsers read from an encoded syntax structure, and their totality. *)
From Verif Require Import Base BitSpec BufioModel GolombProofs NaluModel NaluProofs RecordModel FloatModel SpsModel SpsSpec.

(** [m] consumes exactly the bits [bs] and returns [a]. *)
Definition Reads {A} (m : G A) (bs : list bool) (a : A) : Prop :=
  forall g rest, g_wf g -> g_bits g = bs ++ rest -> exists g', m g = (g', Ok a) /\ g_wf g' /\ g_bits g' = rest.

Lemma reads_ret {A} (a : A) : Reads (g_ret a) [] a.
Proof. intros g rest W H. exists g. auto. Qed.

Lemma reads_bind {A B} (m : G A) (f : A -> G B) b1 b2 a b : Reads m b1 a -> Reads (f a) b2 b -> Reads (g_bind m f) (b1 ++ b2) b.
Proof.
  intros H1 H2 g rest W H. rewrite <- app_assoc in H. destruct (H1 g _ W H) as (g1 & E1 & W1 & B1).
  unfold g_bind. rewrite E1. exact (H2 g1 rest W1 B1).
Qed.
Lemma reads_last {A} (m : G A) b a : Reads m b a -> Reads m (b ++ []) a.
Proof. now rewrite app_nil_r. Qed.
Lemma reads_eq {A} (m : G A) b b' a : b = b' -> Reads m b a -> Reads m b' a.
Proof. now intros ->. Qed.

Lemma reads_bit b : Reads g_read_bit [b] (Z.b2z b).
Proof. intros g rest W H. apply (g_read_bit_cons g b rest W H). Qed.

Lemma reads_bits n v k : k = Z.to_nat n -> 0 <= n <= 64 -> 0 <= v < 2 ^ n -> Reads (g_read_bits n) (be_bits k v) v.
Proof.
  intros -> Hn Hv g rest W H.
  destruct (g_read_bits_ok n g _ W H) as (g' & R & W' & B'); [rewrite app_length, be_bits_length; lia|].
  exists g'. rewrite R. rewrite firstn_app, be_bits_length, Nat.sub_diag in *. rewrite skipn_app, be_bits_length, Nat.sub_diag in *.
  rewrite firstn_all2 by (rewrite be_bits_length; lia). rewrite skipn_all2 in B' by (rewrite be_bits_length; lia).
  cbn [firstn skipn app] in *. rewrite app_nil_r, be_bits_value, Z2Nat.id by lia.
  rewrite (Z.mod_small v) by lia. rewrite Z.mod_small; [auto|]. split; [lia|]. eapply Z.lt_le_trans; [apply Hv|]. apply Z.pow_le_mono_r; lia.
Qed.

Lemma reads_bits32 n v k : k = Z.to_nat n -> 0 <= n <= 32 -> Reads (g_read_bits32 n) (be_bits k v) (v mod 2 ^ n).
Proof.
  intros -> Hn g rest W H.
  destruct (g_read_bits32_loop_ok (Z.to_nat n) g _ 0 W H) as (g' & R & W' & B'); [rewrite app_length, be_bits_length; lia|].
  exists g'. unfold g_read_bits32. rewrite Z.mod_0_l in R by lia. rewrite R.
  rewrite firstn_app, be_bits_length, Nat.sub_diag in *. rewrite skipn_app, be_bits_length, Nat.sub_diag in *.
  rewrite firstn_all2 by (rewrite be_bits_length; lia). rewrite skipn_all2 in B' by (rewrite be_bits_length; lia).
  cbn [firstn skipn app] in *. rewrite app_nil_r. fold (bits_value (be_bits (Z.to_nat n) v)). rewrite be_bits_value, Z2Nat.id by lia.
  rewrite Z.mod_small; [auto|]. assert (0 < 2 ^ n) by (apply Z.pow_pos_nonneg; lia). assert (2 ^ n <= 2 ^ 32) by (apply Z.pow_le_mono_r; lia).
  pose proof (Z.mod_pos_bound v (2 ^ n)). lia.
Qed.
Lemma reads_bits64 n v k : k = Z.to_nat n -> 0 <= n <= 64 -> Reads (g_read_bits64 n) (be_bits k v) (v mod 2 ^ n).
Proof.
  intros -> Hn g rest W H.
  destruct (g_read_bits64_loop_ok (Z.to_nat n) g _ 0 W H) as (g' & R & W' & B'); [rewrite app_length, be_bits_length; lia|].
  exists g'. unfold g_read_bits64. rewrite Z.mod_0_l in R by lia. rewrite R.
  rewrite firstn_app, be_bits_length, Nat.sub_diag in *. rewrite skipn_app, be_bits_length, Nat.sub_diag in *.
  rewrite firstn_all2 by (rewrite be_bits_length; lia). rewrite skipn_all2 in B' by (rewrite be_bits_length; lia).
  cbn [firstn skipn app] in *. rewrite app_nil_r. fold (bits_value (be_bits (Z.to_nat n) v)). rewrite be_bits_value, Z2Nat.id by lia.
  rewrite Z.mod_small; [auto|]. assert (0 < 2 ^ n) by (apply Z.pow_pos_nonneg; lia). assert (2 ^ n <= 2 ^ 64) by (apply Z.pow_le_mono_r; lia).
  pose proof (Z.mod_pos_bound v (2 ^ n)). lia.
Qed.

Lemma reads_ue v : ue_ok v -> Reads g_read_ue (ue_code v) v.
Proof. intros Hv g rest W H. apply (g_read_ue_code g v rest); auto. unfold ue_ok in Hv. change (2 ^ 32) with 4294967296 in Hv. change (2 ^ 33) with 8589934592. lia. Qed.

Definition se_value (v : Z) : Z := if 0 <=? v then v else 2 ^ 63 + v.
Lemma reads_se v : se_ok v -> Reads g_read_se (se_code v) (se_value v).
Proof. intros Hv g rest W H. apply (g_read_se_code g v rest); auto. unfold se_ok in Hv. change (2 ^ 32) with 4294967296. change (2 ^ 31) with 2147483648 in Hv. lia. Qed.

(** ReadSE on a ue code: the same bits are consumed. *)
Lemma reads_se_ue v : ue_ok v -> exists x, Reads g_read_se (ue_code v) x.
Proof.
  intros Hv. eexists. intros g rest W H. destruct (reads_ue v Hv g rest W H) as (g' & R & W' & B').
  exists g'. unfold g_read_se, g_bind. rewrite R.
  instantiate (1 := if negb (Z.land v 1 =? 0) then u64 (v + 1) / 2 else u64 (- v) / 2).
  destruct (negb (Z.land v 1 =? 0)); auto.
Qed.

(** Optional parts. *)
Lemma reads_opt {A} (o : option A) (f : A -> list bool) (m : G unit) :
  (forall a, o = Some a -> Reads m (f a) tt) ->
  Reads (g_bind g_read_bit (fun x => if negb (x =? 0) then m else g_ret tt)) (opt f o) tt.
Proof.
  intros H. destruct o as [a|]; cbn [opt].
  - change (true :: f a) with ([true] ++ f a). eapply reads_bind; [apply reads_bit|]. cbn. auto.
  - change [false] with ([false] ++ []). eapply reads_bind; [apply reads_bit|]. apply reads_ret.
Qed.

(* ---------------------------------------------------------------------------------------- *)
(** ** H.264 *)

Lemma scale_step last d : 0 <= last < 256 -> -128 <= d <= 127 ->
  u64 (u64 (last + se_value d) + 256) mod 256 = (last + d + 256) mod 256.
Proof.
  intros Hl Hd. unfold u64, se_value. change (2 ^ 64) with (2 ^ 56 * 256). 
  assert (P : 0 < 2 ^ 56) by (apply Z.pow_pos_nonneg; lia).
  assert (M : forall x, (x mod (2 ^ 56 * 256)) mod 256 = x mod 256).
  { intros x. rewrite (Z.mul_comm (2 ^ 56)). rewrite Z.rem_mul_r by lia. rewrite (Z.mul_comm 256), Z.mod_add by lia. apply Z.mod_mod; lia. }
  rewrite M. rewrite <- Z.add_mod_idemp_l, M by lia. rewrite Z.add_mod_idemp_l by lia.
  destruct (0 <=? d) eqn:E; [reflexivity|].
  replace (last + (2 ^ 63 + d) + 256) with (last + d + 256 + 2 ^ 55 * 256) by lia. apply Z.mod_add; lia.
Qed.

Lemma reads_scaling n : forall last next ds, 0 <= last < 256 -> deltas_ok n last next ds ->
  Reads (avc_scaling_list n last next) (flat_map se_code ds) tt.
Proof.
  induction n as [|n IH]; intros last next ds Hl Hd; cbn [deltas_ok avc_scaling_list] in *.
  - subst ds. apply reads_ret.
  - destruct (next =? 0) eqn:E; cbn [negb].
    + change (flat_map se_code ds) with ([] ++ flat_map se_code ds). eapply reads_bind; [apply reads_ret|].
      cbn beta. rewrite E. cbn [negb]. auto.
    + destruct ds as [|d r]; [easy|]. destruct Hd as [Hr Hd]. cbn [flat_map]. 
      eapply reads_bind.
      * rewrite <- (app_nil_r (se_code d)). eapply reads_bind; [apply reads_se; unfold se_ok; lia|]. apply reads_ret.
      * cbn beta zeta. rewrite scale_step by lia. 
        replace (if negb ((last + d + 256) mod 256 =? 0) then (last + d + 256) mod 256 else last)
           with (if (last + d + 256) mod 256 =? 0 then last else (last + d + 256) mod 256) by (destruct ((last + d + 256) mod 256 =? 0); reflexivity).
        apply IH; [|exact Hd]. pose proof (Z.mod_pos_bound (last + d + 256) 256). destruct ((last + d + 256) mod 256 =? 0); lia.
Qed.

Lemma reads_scalings n : forall (i : nat) ls, length ls = n -> scaling_ok_from i ls ->
  Reads (avc_scaling_lists n (Z.of_nat i)) (scaling_bits ls) tt.
Proof.
  induction n as [|n IH]; intros i ls Hn Hs; destruct ls as [|o r]; try discriminate; cbn [avc_scaling_lists].
  - apply reads_ret.
  - destruct Hs as [Ho Hs]. cbn [scaling_bits flat_map].
    assert (Tail : Reads (avc_scaling_lists n (Z.of_nat i + 1)) (scaling_bits r) tt).
    { replace (Z.of_nat i + 1) with (Z.of_nat (S i)) by lia. apply IH; [cbn in Hn; lia|exact Hs]. }
    destruct o as [ds|]; cbn [opt].
    + change ((true :: flat_map se_code ds) ++ flat_map (opt (flat_map se_code)) r)
        with ([true] ++ (flat_map se_code ds ++ scaling_bits r)).
      eapply reads_bind; [apply reads_bit|]. cbn [Z.b2z]. change (negb (1 =? 0)) with true. cbn iota.
      eapply reads_bind; [|exact Tail]. 
      replace (if Z.of_nat i <? 6 then 16%nat else 64%nat) with (scaling_size i)
        by (unfold scaling_size; destruct (Nat.ltb_spec i 6), (Z.ltb_spec (Z.of_nat i) 6); lia).
      apply reads_scaling; [lia|exact Ho].
    + change ([false] ++ flat_map (opt (flat_map se_code)) r) with ([false] ++ ([] ++ scaling_bits r)).
      eapply reads_bind; [apply reads_bit|]. cbn [Z.b2z]. change (negb (0 =? 0)) with false. cbn iota.
      eapply reads_bind; [apply reads_ret|exact Tail].
Qed.

Ltac rd_step := eapply reads_bind; [first [apply reads_bit | apply reads_ue; assumption | apply reads_se; assumption | apply reads_bits; [reflexivity | lia | assumption] | apply reads_bits32; [reflexivity|lia] | apply reads_bits64; [reflexivity|lia] | apply reads_ret] |]; cbn beta.
Ltac rd := cbn [concat]; repeat (try unfold u; try unfold flag; rd_step).

Lemma reads_high h : high_ok h -> (h_chroma h = 3 -> h_scaling h = None) -> Reads avc_sps_high (high_bits h) tt.
Proof.
  intros (Hc & Hl & Hd & Hs) H3. unfold avc_sps_high, high_bits. cbn [concat].
  assert (ue_ok (h_chroma h)) by (unfold ue_ok; change (2 ^ 32) with 4294967296; lia).
  rd_step. eapply reads_bind.
  { destruct (h_chroma h =? 3); [|apply reads_ret]. unfold flag. rewrite <- (app_nil_r [_]). rd_step. apply reads_ret. }
  cbn beta. unfold flag. do 3 rd_step. apply reads_last. apply reads_opt. intros ls E. rewrite E in Hs. destruct Hs as [L Hs].
  apply (reads_scalings 8 0 ls); [|exact Hs]. rewrite L. unfold scaling_count. destruct (Z.eqb_spec (h_chroma h) 3); [|reflexivity].
  rewrite H3 in E by assumption. discriminate.
Qed.

Lemma reads_cycle cycle : forall fuel i n, Forall se_ok cycle -> n = i + zlen cycle -> (length cycle <= fuel)%nat ->
  Reads (avc_cycle_loop fuel i n) (flat_map se_code cycle) tt.
Proof.
  induction cycle as [|x r IH]; intros fuel i n Hs Hn Hf.
  - change (zlen (@nil Z)) with 0 in Hn. destruct fuel; cbn [avc_cycle_loop]; replace (i <? n) with false by lia; apply reads_ret.
  - apply Forall_cons_iff in Hs as [Hx Hs]. rewrite zlen_cons in Hn. pose proof (zlen_nonneg r). cbn [length] in Hf.
    destruct fuel as [|f]; [lia|]. cbn [avc_cycle_loop]. replace (i <? n) with true by lia. cbn [flat_map]. rd_step.
    apply IH; auto; lia.
Qed.

Lemma se_code_nonempty v : (1 <= length (se_code v))%nat.
Proof. unfold se_code, ue_code. rewrite app_length, be_bits_length. lia. Qed.
Lemma flat_se_length l : (length l <= length (flat_map se_code l))%nat.
Proof. induction l as [|x l IH]; cbn [flat_map length]; [lia|]. rewrite app_length. pose proof (se_code_nonempty x). lia. Qed.

Lemma g_bits_length g : g_wf g -> length (g_bits g) = (8 * length (g_rest g) + Z.to_nat (g_left g))%nat.
Proof. intros W. unfold g_bits. rewrite app_length, be_bits_length, bits_of_bytes_length. lia. Qed.

Lemma reads_sps_cycle cycle : Forall se_ok cycle -> Reads (avc_sps_cycle (zlen cycle)) (flat_map se_code cycle) tt.
Proof.
  intros Hs g rest W H. unfold avc_sps_cycle. apply (reads_cycle cycle); auto.
  rewrite <- g_bits_length by assumption. rewrite H, app_length. pose proof (flat_se_length cycle). lia.
Qed.

Lemma reads_poc p : poc_ok p -> Reads avc_sps_poc (poc_bits p) tt.
Proof.
  assert (U0 : ue_ok 0) by (unfold ue_ok; lia). assert (U1 : ue_ok 1) by (unfold ue_ok; lia). assert (U2 : ue_ok 2) by (unfold ue_ok; lia).
  intros H. unfold avc_sps_poc, poc_bits. destruct p as [lsb|z a b cycle|]; cbn [concat].
  - rd_step. cbn [Z.eqb]. cbn in H. rd_step. apply reads_ret.
  - destruct H as (Ha & Hb & Hn & Hc). rd_step. change (1 =? 0) with false. change (1 =? 1) with true. cbn iota.
    unfold flag. do 3 rd_step. assert (ue_ok (zlen cycle)) by (pose proof (zlen_nonneg cycle); unfold ue_ok; lia).
    rd_step. apply reads_last. now apply reads_sps_cycle.
  - rewrite <- (app_nil_r (ue_code 2)). rd_step. apply reads_ret.
Qed.

Lemma reads_crop o : opt_ok crop_ok o -> Reads avc_sps_crop (opt crop_bits o) (match o with Some c => c | None => (0, 0, 0, 0) end).
Proof.
  intros H. unfold avc_sps_crop. destruct o as [[[[l r] t] b]|]; cbn [opt].
  - destruct H as (Hl & Hr & Ht & Hb). cbn [crop_bits concat]. change (true :: ?x) with ([true] ++ x). rd_step. cbn [Z.b2z].
    change (negb (1 =? 0)) with true. cbn iota. do 4 rd_step. apply reads_ret.
  - change [false] with ([false] ++ []). rd_step. apply reads_ret.
Qed.

Lemma reads_bit_lax b : Reads g_read_bit_lax [b] (Z.b2z b).
Proof.
  intros g rest W H. destruct (g_read_bit_cons g b rest W H) as (g' & R & W' & B'). exists g'. unfold g_read_bit_lax. rewrite R. auto.
Qed.

(** The two shapes of an optional part inside a chain: the flag is one element of the chain, the part the next one. *)
Lemma reads_opt2 {A B} (o : option A) (f : A -> list bool) (r : G Z) (m : G unit) (k : G B) bs b :
  (forall x, Reads r [x] (Z.b2z x)) -> (forall a, o = Some a -> Reads m (f a) tt) -> Reads k bs b ->
  Reads (g_bind r (fun x => g_bind (if negb (x =? 0) then m else g_ret tt) (fun _ => k))) (opt f o ++ bs) b.
Proof.
  intros Hr H Hk. destruct o as [a|]; cbn [opt].
  - change ((true :: f a) ++ bs) with ([true] ++ (f a ++ bs)). eapply reads_bind; [apply Hr|]. cbn [Z.b2z].
    change (negb (1 =? 0)) with true. cbn iota. eapply reads_bind; eauto.
  - change ([false] ++ bs) with ([false] ++ ([] ++ bs)). eapply reads_bind; [apply Hr|]. cbn [Z.b2z].
    change (negb (0 =? 0)) with false. cbn iota. eapply reads_bind; [apply reads_ret|exact Hk].
Qed.

Definition vui_fps (v : vui264) : option (option Z) :=
  match v_timing v with Some (n, s, _) => Some (sps_fps s n) | None => None end.

Lemma reads_aspect a : aspect_ok a ->
  Reads (idc <== g_read_bits 8 ;;; if idc =? 255 then g_read_bits 16 ;;; g_read_bits 16 ;;; g_ret tt else g_ret tt) (aspect_bits a) tt.
Proof.
  destruct a as (idc & w & h). intros (Hi & Hw & Hh). unfold aspect_bits, u, u_ok in *. cbn [concat]. rd_step.
  apply reads_last. destruct (idc =? 255); [|apply reads_ret]. rewrite <- (app_nil_r (be_bits 16 h)). do 2 rd_step. apply reads_ret.
Qed.

Lemma reads_signal s : signal_ok s ->
  Reads (g_read_bits 3 ;;; g_read_bit ;;; colour <== g_read_bit ;;;
         if negb (colour =? 0) then g_read_bits 8 ;;; g_read_bits 8 ;;; g_read_bits 8 ;;; g_ret tt else g_ret tt) (signal_bits s) tt.
Proof.
  destruct s as [[f r] c]. intros (Hf & Hc). unfold signal_bits, u, flag, u_ok in *. cbn [concat]. do 2 rd_step.
  apply reads_last. apply reads_opt. intros [[p t] m] ->. destruct Hc as (Hp & Ht & Hm). unfold u_ok, colour_bits, u in *. cbn [concat]. do 3 rd_step. apply reads_ret.
Qed.

Lemma reads_vui v : vui_ok v -> Reads avc_sps_vui (vui_bits v) (vui_fps v).
Proof.
  intros (Ha & Hs & Hc & Ht). unfold avc_sps_vui, vui_bits. cbn [concat].
  apply reads_opt2; [apply reads_bit| |].
  { intros a E. rewrite E in Ha. now apply reads_aspect. }
  apply reads_opt2; [apply reads_bit| |].
  { intros a E. unfold flag. rewrite <- (app_nil_r [a]). rd_step. apply reads_ret. }
  apply reads_opt2; [apply reads_bit_lax| |].
  { intros s E. rewrite E in Hs. now apply reads_signal. }
  apply reads_opt2; [apply reads_bit| |].
  { intros [a b] E. rewrite E in Hc. destruct Hc as [H1 H2]. destruct (reads_se_ue a H1) as [x X]. destruct (reads_se_ue b H2) as [y Y].
    eapply reads_bind; [exact X|]. rewrite <- (app_nil_r (ue_code b)). eapply reads_bind; [exact Y|]. apply reads_ret. }
  apply reads_last. unfold vui_fps. destruct (v_timing v) as [[[n s] f]|] eqn:E; cbn [opt].
  - destruct Ht as [Hn Hsc]. unfold timing_bits, u, flag, u_ok in *. cbn [concat]. change (true :: ?x) with ([true] ++ x). rd_step. cbn [Z.b2z]. change (negb (1 =? 0)) with true.
    cbn iota. do 3 rd_step. apply reads_ret.
  - change [false] with ([false] ++ []). rd_step. apply reads_ret.
Qed.

(** The profiles the code treats as high. *)
Lemma is_high_spec p : high_profile p = avc_is_high p || existsb (Z.eqb p) [128; 138; 139; 134; 135].
Proof.
  unfold high_profile, avc_is_high. cbn [existsb]. rewrite !orb_false_r, !orb_assoc. reflexivity.
Qed.

Definition sps264_value (p : sps264) : avc_sps :=
  let '(l, r, t, b) := crop_of p in
  {| as_id := p_id p; as_profile := p_profile p; as_level := p_level p; as_constraint := p_constraint p / 4;
     as_mbw := p_mbw p + 1; as_mbh := p_map_units p + 1; as_cl := l; as_cr := r; as_ct := t; as_cb := b;
     as_width := 16 * (p_mbw p + 1) - 2 * (l + r);
     as_height := 16 * (field_factor p * (p_map_units p + 1)) - 2 * (t + b);
     as_fps := match timing_of p with Some (n, s, _) => sps_fps s n | None => Some 0 end |}.

Lemma reads_sps p : sps264_ok p -> avc_is_high (p_profile p) = high_profile (p_profile p) ->
  (high_profile (p_profile p) = true -> h_chroma (p_high p) = 3 -> h_scaling (p_high p) = None) ->
  Reads avc_sps_body (sps264_bits p) (sps264_value p).
Proof.
  intros (H0 & H1 & H2 & H3 & H4 & H5 & H6 & H7 & H8 & H9 & H10 & H11 & H12) Hh H444.
  unfold u_ok in *. unfold avc_sps_body, sps264_bits, u, flag. cbn [concat].
  do 5 rd_step.
  eapply reads_bind. { rewrite Hh. destruct (high_profile (p_profile p)); [apply reads_high; auto|apply reads_ret]. }
  cbn beta. rd_step. eapply reads_bind; [apply reads_poc; assumption|]. cbn beta.
  do 5 rd_step. eapply reads_bind with (a := tt).
  { destruct (p_mbs_only p); cbn [Z.b2z Z.eqb]; [apply reads_ret|]. rewrite <- (app_nil_r [_]). rd_step. apply reads_ret. }
  cbn beta. rd_step. eapply reads_bind; [apply reads_crop; assumption|]. cbn beta.
  assert (HC : let '(l, r, t, b) := crop_of p in ue_ok l /\ ue_ok r /\ ue_ok t /\ ue_ok b).
  { unfold crop_of. destruct (p_crop p) as [[[[l r] t] b]|]; [exact H11|]. unfold ue_ok. lia. }
  unfold sps264_value. fold (crop_of p). destruct (crop_of p) as [[[l r] t] b]. destruct HC as (Hl & Hr & Ht & Hb).
  unfold ue_ok in *. change (2 ^ 32) with 4294967296 in *.
  assert (Ew : u64 (p_mbw p + 1) = p_mbw p + 1) by (unfold u64; apply Z.mod_small; change (2 ^ 64) with 18446744073709551616; lia).
  assert (Eh : u64 (p_map_units p + 1) = p_map_units p + 1) by (unfold u64; apply Z.mod_small; change (2 ^ 64) with 18446744073709551616; lia).
  cbn zeta. rewrite Ew, Eh.
  assert (EW : i64 ((p_mbw p + 1) * 16 - l * 2 - r * 2) = 16 * (p_mbw p + 1) - 2 * (l + r)).
  { rewrite i64_id; [ring|]. unfold is_i64. change (2 ^ 63) with 9223372036854775808. lia. }
  assert (EH : i64 ((2 - Z.b2z (p_mbs_only p)) * (p_map_units p + 1) * 16 - t * 2 - b * 2)
               = 16 * (field_factor p * (p_map_units p + 1)) - 2 * (t + b)).
  { unfold field_factor. rewrite i64_id; [destruct (p_mbs_only p); cbn [Z.b2z]; ring|].
    unfold is_i64. change (2 ^ 63) with 9223372036854775808. destruct (p_mbs_only p); cbn [Z.b2z]; lia. }
  rewrite EW, EH. rewrite Z.shiftr_div_pow2 by lia. change (2 ^ 2) with 4.
  apply reads_last. unfold timing_of. destruct (p_vui p) as [v|]; cbn [opt].
  - change (true :: vui_bits v) with ([true] ++ vui_bits v). rd_step. cbn [Z.b2z]. change (negb (1 =? 0)) with true. cbn iota.
    rewrite <- (app_nil_r (vui_bits v)). eapply reads_bind; [apply reads_vui; exact H12|].
    unfold vui_fps. destruct (v_timing v) as [[[n s] f]|]; apply reads_ret.
  - change [false] with ([false] ++ ([] ++ [])). rd_step. rd_step. apply reads_ret.
Qed.

Lemma avc_parse_reads d p rest : remove_start_code d = Ok d -> Reads avc_sps_body (sps264_bits p) (sps264_value p) ->
  bits_of_bytes d = sps264_bits p ++ rest -> avc_parse_sps d = Ok (sps264_value p).
Proof.
  intros Hd R B. unfold avc_parse_sps. rewrite Hd. cbn [bind].
  destruct (R (golomb_new d) rest (golomb_new_wf d)) as (g' & E & _); [rewrite golomb_new_bits; exact B|]. rewrite E. reflexivity.
Qed.

(* ---------------------------------------------------------------------------------------- *)
(** ** H.265 *)

Definition sub_flags_z (s : sub265) : Z * Z := (Z.b2z (present (sl_profile s)), Z.b2z (present (sl_level s))).

Lemma reads_ptl_flags ss : Reads (ptl_flags (length ss)) (flat_map sub_flags ss) (map sub_flags_z ss).
Proof.
  induction ss as [|s r IH]; cbn [length ptl_flags flat_map map]; [apply reads_ret|].
  change (sub_flags s ++ flat_map sub_flags r) with ([present (sl_profile s)] ++ ([present (sl_level s)] ++ flat_map sub_flags r)).
  do 2 rd_step. rewrite <- (app_nil_r (flat_map sub_flags r)). eapply reads_bind; [exact IH|]. apply reads_ret.
Qed.

Lemma reads_reserved n : Reads (ptl_reserved n) (repeat false (2 * n)) tt.
Proof.
  induction n as [|n IH]; cbn [ptl_reserved]; [apply reads_ret|].
  replace (2 * S n)%nat with (2 + 2 * n)%nat by lia. rewrite repeat_app. eapply reads_bind; [|exact IH].
  change (repeat false 2) with (be_bits 2 0). apply reads_bits; [reflexivity|lia|lia].
Qed.

Lemma reads_any_bits n v k : k = Z.to_nat n -> 0 <= n <= 64 -> exists x, Reads (g_read_bits n) (be_bits k v) x.
Proof.
  intros -> Hn. exists (v mod 2 ^ n). replace (be_bits (Z.to_nat n) v) with (be_bits (Z.to_nat n) (v mod 2 ^ n)).
  - apply reads_bits; auto. apply Z.mod_pos_bound. apply Z.pow_pos_nonneg; lia.
  - pose proof (be_bits_eq_bits (be_bits (Z.to_nat n) v)) as E. rewrite be_bits_value, be_bits_length, Z2Nat.id in E by lia. exact E.
Qed.

Lemma reads_ptl_sub ss : Reads (ptl_sub (map sub_flags_z ss)) (flat_map sub_bits ss) tt.
Proof.
  induction ss as [|s r IH]; cbn [map ptl_sub flat_map]; [apply reads_ret|].
  unfold sub_flags_z at 1. unfold sub_bits at 1. cbn [concat]. rewrite app_nil_r, <- app_assoc.
  eapply reads_bind; [|eapply reads_bind; [|exact IH]].
  - destruct (sl_profile s) as [[[a b] c]|]; cbn [present Z.b2z Z.eqb negb]; [|apply reads_ret].
    unfold u. cbn [concat]. do 3 rd_step. apply reads_ret.
  - destruct (sl_level s) as [l|]; cbn [present Z.b2z Z.eqb negb]; [|apply reads_ret].
    unfold u. destruct (reads_any_bits 8 l 8) as [x X]; [reflexivity|lia|]. rewrite <- (app_nil_r (be_bits 8 l)).
    eapply reads_bind; [exact X|]. apply reads_ret.
Qed.

(** The level is kept whatever the tier. *)
Definition ptl_value (t : ptl265) : Z * Z * Z * Z := (t_space t, Z.b2z (t_tier t), t_idc t, t_level t).

Lemma reads_ptl t n : ptl_ok t -> n = Z.of_nat (length (t_subs t)) -> Reads (hevc_ptl n) (ptl_bits t) (ptl_value t).
Proof.
  intros (H1 & H2 & H3 & H4 & H5 & H6) ->. unfold u_ok in *. unfold hevc_ptl, ptl_bits, u, flag. cbn [concat].
  do 6 rd_step. eapply reads_bind with (a := tt).
  - destruct (t_subs t) as [|s r] eqn:E; [apply reads_ret|]. replace (Z.of_nat (length (s :: r)) =? 0) with false by (cbn [length]; lia).
    rewrite Nat2Z.id. cbn [concat]. eapply reads_bind; [apply reads_ptl_flags|]. cbn beta. eapply reads_bind.
    + replace (Z.to_nat (8 - Z.of_nat (length (s :: r)))) with (8 - length (s :: r))%nat by lia. apply reads_reserved.
    + cbn beta. apply reads_last. apply reads_ptl_sub.
  - cbn beta. unfold ptl_value. 
    assert (EL : (if t_level t >? 0 then t_level t else 0) = t_level t) by (destruct (Z.gtb_spec (t_level t) 0); lia).
    assert (EI : (if t_idc t >? 0 then t_idc t else 0) = t_idc t) by (destruct (Z.gtb_spec (t_idc t) 0); lia).
    rewrite EL, EI. destruct (t_tier t); cbn [Z.b2z]; change (1 >? 0) with true; change (0 >? 0) with false; cbn iota; apply reads_ret.
Qed.

Lemma reads_ordering os : Forall ordering_ok os -> Reads (hevc_ordering (length os)) (flat_map ordering_bits os) tt.
Proof.
  induction os as [|[[a b] c] r IH]; intros H; cbn [length hevc_ordering flat_map]; [apply reads_ret|].
  apply Forall_cons_iff in H as [(Ha & Hb & Hc) H]. unfold ordering_bits at 1. cbn [concat]. rewrite <- !app_assoc. do 3 rd_step. auto.
Qed.

Definition sps265_value (q : sps265) : hevc_sps :=
  {| hsp_layers := Z.of_nat (length (t_subs (q_ptl q))) + 1; hsp_nested := Z.b2z (q_nesting q); hsp_chroma := q_chroma q;
     hsp_pic_width := q_width q; hsp_pic_height := q_height q; hsp_depth_chroma := q_depth_chroma q;
     hsp_space := t_space (q_ptl q); hsp_tier := Z.b2z (t_tier (q_ptl q)); hsp_idc := t_idc (q_ptl q);
     hsp_compat := 0; hsp_constraint := 0; hsp_level := t_level (q_ptl q); hsp_width := q_width q; hsp_height := q_height q |}.

Lemma reads_sps265 q : sps265_ok q -> Reads hevc_sps_body (sps265_bits q) (sps265_value q).
Proof.
  intros (H0 & H1 & H2 & H3 & H4 & H5 & H6 & H7 & H8 & H9 & H10 & H11 & H12).
  unfold hevc_sps_body, sps265_bits, u, flag. cbn [concat]. unfold u_ok in H0.
  assert (H6' : (length (t_subs (q_ptl q)) <= 6)%nat) by apply H1.
  assert (0 <= Z.of_nat (length (t_subs (q_ptl q))) < 2 ^ 3) by (change (2 ^ 3) with 8; lia).
  do 3 rd_step. eapply reads_bind; [apply reads_ptl; [exact H1|reflexivity]|]. cbn beta. unfold ptl_value. cbn iota.
  do 2 rd_step. eapply reads_bind with (a := tt).
  { destruct (q_chroma q =? 3); [|apply reads_ret]. rewrite <- (app_nil_r [_]). rd_step. apply reads_ret. }
  cbn beta. do 2 rd_step.
  apply (reads_opt2 (q_window q) crop_bits); [apply reads_bit| |].
  { intros [[[l r] t] b] E. rewrite E in H6. destruct H6 as (Hl & Hr & Ht & Hb). cbn [crop_bits concat]. do 4 rd_step. apply reads_ret. }
  do 4 rd_step. cbn zeta. eapply reads_bind.
  { replace (Z.to_nat _) with (length (q_ordering q)); [apply reads_ordering; exact H11|].
    rewrite H10. destruct (q_ordering_present q); cbn [Z.b2z Z.eqb negb]; lia. }
  cbn beta. destruct (q_tail q) as [[[[[a b] c] d] e] f]. destruct H12 as (Ta & Tb & Tc & Td & Te & Tf). cbn [tail_bits concat].
  rewrite app_nil_r. do 6 rd_step. unfold sps265_value. unfold ue_ok in *.
  rewrite !i64_id by (unfold is_i64; change (2 ^ 63) with 9223372036854775808; change (2 ^ 32) with 4294967296 in *; lia).
  apply reads_ret.
Qed.

(* ---------------------------------------------------------------------------------------- *)
(** ** Emulation prevention *)

Lemma nal2rbsp_cons x r : (x <> 0 \/ hd 1 r <> 0 \/ nth 1 r 0 <> 3) -> nal2rbsp (x :: r) = x :: nal2rbsp r.
Proof.
  intros H. cbn [nal2rbsp]. destruct r as [|y [|z t]]; try reflexivity. cbn [hd nth] in H.
  replace ((x =? 0) && (y =? 0) && (z =? 3)) with false; [reflexivity|]. symmetry. apply not_true_is_false. rewrite !andb_true_iff. lia.
Qed.
Lemma nal2rbsp_hit t : nal2rbsp (0 :: 0 :: 3 :: t) = 0 :: 0 :: nal2rbsp t.
Proof. reflexivity. Qed.

Lemma nal2rbsp_escape l : forall z, (z <= 2)%nat -> Forall (fun b => 0 <= b) l ->
  nal2rbsp (repeat 0 z ++ escape_from z l) = repeat 0 z ++ l.
Proof.
  induction l as [|b r IH]; intros z Hz Hb.
  - destruct z as [|[|[|z]]]; try lia; reflexivity.
  - apply Forall_cons_iff in Hb as [Hb0 Hb]. cbn [escape_from].
    destruct z as [|[|[|z]]]; try lia; cbn [repeat app Nat.leb andb].
    + destruct (Z.eqb_spec b 0) as [->|Hn]; [apply (IH 1%nat); [lia|exact Hb]|].
      rewrite nal2rbsp_cons by auto. f_equal. apply (IH 0%nat); [lia|exact Hb].
    + destruct (Z.eqb_spec b 0) as [->|Hn]; [apply (IH 2%nat); [lia|exact Hb]|].
      rewrite nal2rbsp_cons by (right; left; exact Hn). rewrite nal2rbsp_cons by auto. do 2 f_equal. apply (IH 0%nat); [lia|exact Hb].
    + destruct (Z.leb_spec b 3) as [H3|H3].
      * rewrite nal2rbsp_hit. do 2 f_equal.
        destruct (Z.eqb_spec b 0) as [->|Hn]; [apply (IH 1%nat); [lia|exact Hb]|].
        rewrite nal2rbsp_cons by auto. f_equal. apply (IH 0%nat); [lia|exact Hb].
      * replace (b =? 0) with false by lia.
        rewrite nal2rbsp_cons by (right; right; cbn; lia). rewrite nal2rbsp_cons by (right; left; cbn; lia). rewrite nal2rbsp_cons by lia.
        do 3 f_equal. apply (IH 0%nat); [lia|exact Hb].
Qed.

Lemma nal2rbsp_escape0 l : bytes_ok l -> nal2rbsp (escape l) = l.
Proof. intros H. apply (nal2rbsp_escape l 0); [lia|]. eapply Forall_impl; [|exact H]. unfold byte_ok. intros; lia. Qed.

(** Escaping leaves the two byte NAL unit header alone (the second byte is never 0). *)
Lemma escape_header h0 h1 p : h1 <> 0 -> escape (h0 :: h1 :: p) = h0 :: h1 :: escape p.
Proof.
  intros H. unfold escape. cbn [escape_from Nat.leb andb]. 
  replace (h1 =? 0) with false by lia. destruct (h0 =? 0); reflexivity.
Qed.

(** No byte sequence 00 00 00, 00 00 01, 00 00 02 in an escaped payload: no start code is imitated. *)
Fixpoint no_imitation (l : list Z) : Prop :=
  match l with
  | [] => True
  | x :: r => match r with y :: z :: _ => ~ (x = 0 /\ y = 0 /\ 0 <= z <= 2) | _ => True end /\ no_imitation r
  end.
Lemma escape_no_imitation l : forall z, (z <= 2)%nat -> Forall (fun b => 0 <= b) l -> no_imitation (repeat 0 z ++ escape_from z l).
Proof.
  induction l as [|b r IH]; intros z Hz Hb.
  - destruct z as [|[|[|z]]]; try lia; cbn; repeat split; lia.
  - apply Forall_cons_iff in Hb as [Hb0 Hb]. cbn [escape_from].
    destruct z as [|[|[|z]]]; try lia; cbn [repeat app Nat.leb andb].
    + destruct (Z.eqb_spec b 0) as [->|Hn]; [apply (IH 1%nat); [lia|exact Hb]|].
      pose proof (IH 0%nat ltac:(lia) Hb) as I. cbn [repeat app] in I. cbn [no_imitation]. split; [|exact I]. destruct (escape_from 0 r) as [|? [|? ?]]; auto. lia.
    + destruct (Z.eqb_spec b 0) as [->|Hn]; [apply (IH 2%nat); [lia|exact Hb]|].
      pose proof (IH 0%nat ltac:(lia) Hb) as I. cbn [repeat app] in I. cbn [no_imitation].
      split; [destruct (escape_from 0 r) as [|? ?]; auto; lia|]. split; [|exact I]. destruct (escape_from 0 r) as [|? [|? ?]]; auto. lia.
    + destruct (Z.leb_spec b 3) as [H3|H3].
      * assert (I : no_imitation (b :: escape_from (if b =? 0 then 1%nat else 0%nat) r)).
        { destruct (Z.eqb_spec b 0) as [->|Hn]; [apply (IH 1%nat); [lia|exact Hb]|].
          pose proof (IH 0%nat ltac:(lia) Hb) as I. cbn [repeat app] in I. cbn [no_imitation]. split; [|exact I]. destruct (escape_from 0 r) as [|? [|? ?]]; auto. lia. }
        cbn [no_imitation] in *. repeat split; try apply I; try lia. destruct (escape_from _ r); auto. lia.
      * replace (b =? 0) with false by lia. pose proof (IH 0%nat ltac:(lia) Hb) as I. cbn [repeat app] in I. cbn [no_imitation].
        repeat split; try exact I; try lia. { destruct (escape_from 0 r); auto; lia. } destruct (escape_from 0 r) as [|? [|? ?]]; auto. lia.
Qed.

(* ---------------------------------------------------------------------------------------- *)
(** ** Totality *)

(** [m] never panics, never runs out of fuel, and does not unread bits. *)
Definition Tot {A} (m : G A) : Prop :=
  forall g, g_wf g -> exists g' r, m g = (g', r) /\ g_wf g' /\ (length (g_bits g') <= length (g_bits g))%nat /\ (r = Err \/ exists a, r = Ok a).
(** A success consumes at least one bit. *)
Definition Tot1 {A} (m : G A) : Prop :=
  forall g, g_wf g -> exists g' r, m g = (g', r) /\ g_wf g' /\
    ((r = Err /\ (length (g_bits g') <= length (g_bits g))%nat) \/ (exists a, r = Ok a /\ (length (g_bits g') < length (g_bits g))%nat)).

Lemma tot1_tot {A} (m : G A) : Tot1 m -> Tot m.
Proof.
  intros H g W. destruct (H g W) as (g' & r & E & W' & [[-> L]|(a & -> & L)]); exists g'; eexists; (split; [eassumption || reflexivity|]); (split; [assumption|]); (split; [lia|]); first [left; reflexivity | right; eexists; reflexivity].
Qed.
Lemma tot_ret {A} (a : A) : Tot (g_ret a).
Proof. intros g W. exists g, (Ok a). split; [reflexivity|]. split; [exact W|]. split; [lia|]. right. now exists a. Qed.
Lemma tot_bind {A B} (m : G A) (f : A -> G B) : Tot m -> (forall a, Tot (f a)) -> Tot (g_bind m f).
Proof.
  intros Hm Hf g W. destruct (Hm g W) as (g1 & r1 & E1 & W1 & L1 & [->|[a ->]]); unfold g_bind; rewrite E1.
  - exists g1, Err. auto.
  - destruct (Hf a g1 W1) as (g2 & r2 & E2 & W2 & L2 & R2). exists g2, r2. split; [exact E2|]. split; [exact W2|]. split; [lia|exact R2].
Qed.
Lemma tot1_bind {A B} (m : G A) (f : A -> G B) : Tot1 m -> (forall a, Tot (f a)) -> Tot1 (g_bind m f).
Proof.
  intros Hm Hf g W. destruct (Hm g W) as (g1 & r1 & E1 & W1 & [[-> L1]|(a & -> & L1)]); unfold g_bind; rewrite E1.
  - exists g1, Err. auto.
  - destruct (Hf a g1 W1) as (g2 & r2 & E2 & W2 & L2 & [->|[b ->]]); exists g2; eexists; (split; [exact E2|]); (split; [exact W2|]).
    + left. split; [reflexivity|lia].
    + right. exists b. split; [reflexivity|lia].
Qed.
Lemma tot1_bit : Tot1 g_read_bit.
Proof.
  intros g W. destruct (g_bits g) as [|b t] eqn:E.
  - rewrite (g_read_bit_nil g W E). exists g, Err. rewrite E. auto.
  - destruct (g_read_bit_cons g b t W E) as (g' & R & W' & B'). rewrite R. exists g', (Ok (Z.b2z b)). rewrite B'.
    split; [reflexivity|]. split; [exact W'|]. right. exists (Z.b2z b). split; [reflexivity|]. cbn [length]. lia.
Qed.
Lemma tot_bit : Tot g_read_bit. Proof. apply tot1_tot, tot1_bit. Qed.
Lemma tot_bits n : Tot (g_read_bits n).
Proof.
  unfold g_read_bits. generalize 0. induction (Z.to_nat n) as [|k IH]; intros acc; cbn [g_read_bits_loop]; [apply tot_ret|].
  apply tot_bind; [apply tot_bit|]. intros; apply IH.
Qed.
Lemma tot_bits32 n : Tot (g_read_bits32 n).
Proof.
  unfold g_read_bits32. generalize 0. induction (Z.to_nat n) as [|k IH]; intros acc; cbn [g_read_bits32_loop]; [apply tot_ret|].
  apply tot_bind; [apply tot_bit|]. intros; apply IH.
Qed.
Lemma tot_bits64 n : Tot (g_read_bits64 n).
Proof.
  unfold g_read_bits64. generalize 0. induction (Z.to_nat n) as [|k IH]; intros acc; cbn [g_read_bits64_loop]; [apply tot_ret|].
  apply tot_bind; [apply tot_bit|]. intros; apply IH.
Qed.
Lemma tot1_ue : Tot1 g_read_ue.
Proof.
  intros g W. destruct (g_read_ue_total g W) as (g' & r & E & W' & [(v & -> & _ & B)|[(v & x & -> & _ & _ & B)|(-> & B & _)]]);
    exists g'; eexists; (split; [exact E|]); (split; [exact W'|]).
  - right. exists v. split; [reflexivity|]. rewrite B, app_length. unfold ue_code. rewrite app_length, be_bits_length. lia.
  - right. exists v. split; [reflexivity|]. rewrite B, !app_length, repeat_length. lia.
  - left. split; [reflexivity|]. rewrite B. cbn [length]. lia.
Qed.
Lemma tot_ue : Tot g_read_ue. Proof. apply tot1_tot, tot1_ue. Qed.
Lemma tot1_se : Tot1 g_read_se.
Proof. unfold g_read_se. apply tot1_bind; [apply tot1_ue|]. intros a. destruct (negb (Z.land a 1 =? 0)); apply tot_ret. Qed.
Lemma tot_se : Tot g_read_se. Proof. apply tot1_tot, tot1_se. Qed.
Lemma tot_lax : Tot g_read_bit_lax.
Proof.
  intros g W. destruct (tot1_bit g W) as (g' & r & E & W' & [[-> L]|(a & -> & L)]); unfold g_read_bit_lax; rewrite E; exists g'; eexists; (split; [eassumption || reflexivity|]); (split; [assumption|]); (split; [lia|]); first [left; reflexivity | right; eexists; reflexivity].
Qed.
Lemma tot_if {A} (b : bool) (x y : G A) : Tot x -> Tot y -> Tot (if b then x else y).
Proof. destruct b; auto. Qed.

Ltac tot := repeat first
  [ apply tot_bit | apply tot_ue | apply tot_se | apply tot_bits | apply tot_bits32 | apply tot_bits64 | apply tot_ret | apply tot_lax
  | assumption | (apply tot_bind; [|intro]) | apply tot_if ].

Lemma tot_scaling n : forall last next, Tot (avc_scaling_list n last next).
Proof. induction n as [|n IH]; intros; cbn [avc_scaling_list]; cbv zeta; tot; apply IH. Qed.
Lemma tot_scalings n : forall i, Tot (avc_scaling_lists n i).
Proof. induction n as [|n IH]; intros; cbn [avc_scaling_lists]; tot; first [apply tot_scaling|apply IH]. Qed.
Lemma tot_cycle_loop fuel : forall i n g, g_wf g -> (length (g_bits g) < fuel)%nat ->
  exists g' r, avc_cycle_loop fuel i n g = (g', r) /\ g_wf g' /\ (length (g_bits g') <= length (g_bits g))%nat /\ (r = Err \/ exists a, r = Ok a).
Proof.
  induction fuel as [|f IH]; intros i n g W L; [lia|]. cbn [avc_cycle_loop].
  destruct (i <? n); [|apply (tot_ret tt g W)].
  unfold g_bind. destruct (tot1_se g W) as (g1 & r1 & E1 & W1 & [[-> L1]|(a & -> & L1)]); rewrite E1.
  - exists g1, Err. auto.
  - destruct (IH (i + 1) n g1 W1) as (g2 & r2 & E2 & W2 & L2 & R2); [lia|]. exists g2, r2. split; [exact E2|]. split; [exact W2|]. split; [lia|exact R2].
Qed.
Lemma tot_cycle n : Tot (avc_sps_cycle n).
Proof. intros g W. unfold avc_sps_cycle. apply tot_cycle_loop; auto. rewrite (g_bits_length g W). lia. Qed.

Lemma tot_avc_body : Tot avc_sps_body.
Proof.
  unfold avc_sps_body, avc_sps_high, avc_sps_poc, avc_sps_crop, avc_sps_vui. tot.
  all: try apply tot_scalings. all: try apply tot_cycle.
  match goal with x : (Z * Z * Z * Z)%type |- _ => destruct x as [[[? ?] ?] ?] end. cbv zeta. tot.
Qed.

Lemma tot_hevc_body : Tot hevc_sps_body.
Proof.
  assert (F : forall n, Tot (ptl_flags n)) by (induction n; cbn [ptl_flags]; tot).
  assert (R : forall n, Tot (ptl_reserved n)) by (induction n; cbn [ptl_reserved]; tot).
  assert (S0 : forall l, Tot (ptl_sub l)) by (induction l as [|[] ?]; cbn [ptl_sub]; tot).
  assert (O : forall n, Tot (hevc_ordering n)) by (induction n; cbn [hevc_ordering]; tot).
  assert (P : forall n, Tot (hevc_ptl n)).
  { intros n. unfold hevc_ptl. tot; auto. destruct (a0 >? 0); apply tot_ret. }
  unfold hevc_sps_body. set (ptl := hevc_ptl) in *. clearbody ptl. tot; auto.
  match goal with x : (Z * Z * Z * Z)%type |- _ => destruct x as [[[? ?] ?] ?] end. cbv zeta. tot; auto.
Qed.

Lemma tot_res {A} (m : G A) d : Tot m -> snd (m (golomb_new d)) = Err \/ exists a, snd (m (golomb_new d)) = Ok a.
Proof. intros H. destruct (H (golomb_new d) (golomb_new_wf d)) as (g' & r & E & _ & _ & R). rewrite E. exact R. Qed.

(* ---------------------------------------------------------------------------------------- *)
(** ** Escaping keeps a prefix in which nothing is inserted. *)
Lemma escape_from_longer l : forall z, (length l <= length (escape_from z l))%nat.
Proof.
  induction l as [|b r IH]; intros z; cbn [escape_from length]; [lia|].
  destruct (_ && _); cbn [length]; [pose proof (IH (if b =? 0 then 1%nat else 0%nat)); lia|pose proof (IH (if b =? 0 then S z else 0%nat)); lia].
Qed.
Lemma escape_prefix d1 d2 : forall z, escape_from z d1 = d1 -> exists t, escape_from z (d1 ++ d2) = d1 ++ t.
Proof.
  induction d1 as [|b r IH]; intros z E; [now exists (escape_from z d2)|]. cbn [escape_from app] in *.
  destruct ((2 <=? z)%nat && (b <=? 3)).
  - apply (f_equal (@length Z)) in E. cbn [length] in E. pose proof (escape_from_longer r (if b =? 0 then 1%nat else 0%nat)). lia.
  - injection E as E. destruct (IH _ E) as [t Et]. exists t. now rewrite Et.
Qed.

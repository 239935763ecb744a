(** * Theorems C73, C74: random helpers, names of codecs and media types. *)
From Coq Require Import String Ascii Decimal DecimalString DecimalZ.
From Verif Require Import Base AacModel UtilModel.

(* ---------------------------------------------------------------------------------------- *)
(** ** C73 Random helpers *)
Lemma zlen_letters : zlen letter_bytes = 62. Proof. reflexivity. Qed.

Lemma rand_letters_spec n src s rest : rand_letters n src = Ok (s, rest) ->
  length s = n /\ Forall (fun c => In c letter_bytes) s /\ exists used, src = used ++ rest /\ length used = n.
Proof.
  revert src s. induction n as [|n IH]; intros src s H; cbn [rand_letters] in H.
  - inversion H; subst. repeat split; [constructor|]. now exists [].
  - unfold draw in H. rewrite zlen_letters in H. cbn [Z.leb Z.compare] in H. destruct src as [|x src]; [discriminate|].
    destruct ((0 <=? x) && (x <? 62)) eqn:R; [|discriminate]. cbn [bind] in H.
    destruct (idx letter_bytes x) as [c|] eqn:I; [|discriminate]. cbn [of_opt bind] in H.
    destruct (rand_letters n src) as [[r src']| | |] eqn:E; try discriminate. cbn [bind] in H. inversion H; subst.
    destruct (IH _ _ E) as (L & F & used & -> & Lu). cbn [length]. split; [lia|]. split.
    + constructor; [|exact F]. unfold idx in I. destruct (x <? 0); [discriminate|]. eapply nth_error_In; eauto.
    + exists (x :: used). cbn. split; [reflexivity|lia].
Qed.

Lemma letter_index c : In c letter_bytes -> exists i, 0 <= i < 62 /\ idx letter_bytes i = Some c.
Proof.
  intros H. apply In_nth_error in H as [n Hn]. assert (n < 62)%nat by (apply (nth_error_Some letter_bytes n); congruence).
  exists (Z.of_nat n). split; [lia|]. unfold idx. replace (Z.of_nat n <? 0) with false by lia. now rewrite Nat2Z.id.
Qed.

Lemma rand_letters_reach s rest : Forall (fun c => In c letter_bytes) s -> exists used, rand_letters (length s) (used ++ rest) = Ok (s, rest).
Proof.
  induction 1 as [|c s Hc _ [used IH]]; [now exists []|]. destruct (letter_index c Hc) as (i & Hi & I). exists (i :: used).
  cbn [length rand_letters app]. unfold draw. rewrite zlen_letters. cbn [Z.leb Z.compare]. replace ((0 <=? i) && (i <? 62)) with true by lia.
  cbn [bind]. rewrite I. cbn [of_opt bind]. rewrite IH. reflexivity.
Qed.

Lemma rand_letters_no_panic n src : rand_letters n src <> Panic /\ rand_letters n src <> Err.
Proof.
  revert src. induction n as [|n IH]; intros src; cbn [rand_letters]; [split; discriminate|]. unfold draw. rewrite zlen_letters. cbn [Z.leb Z.compare].
  destruct src as [|x src]; [split; discriminate|]. destruct ((0 <=? x) && (x <? 62)) eqn:R; [|split; discriminate]. cbn [bind].
  destruct (idx letter_bytes x) as [c|] eqn:I.
  - cbn [of_opt bind]. destruct (IH src). destruct (rand_letters n src) as [[r src']| | |]; split; try discriminate; contradiction.
  - exfalso. unfold idx in I. replace (x <? 0) with false in I by lia. apply nth_error_None in I. change (length letter_bytes) with 62%nat in I. lia.
Qed.

Theorem C73_random_ranges :
  (* RandomIntInRange: every outcome is in range, every value in range is an outcome, and exactly these calls panic *)
  (forall min max src, is_i64 min -> is_i64 max ->
     (random_int_in_range min max src = Panic <-> (min > max \/ max - min + 1 >= 2 ^ 63)) /\
     (forall v rest, random_int_in_range min max src = Ok (v, rest) -> min <= v <= max /\ exists x, src = x :: rest /\ v = min + x)) /\
  (forall min max v rest, is_i64 min -> is_i64 max -> max - min + 1 < 2 ^ 63 -> min <= v <= max ->
     exists x, 0 <= x <= max - min /\ random_int_in_range min max (x :: rest) = Ok (v, rest)) /\
  (* RandStringBytes: n letters of the alphabet; every such string is an outcome; only a negative length panics *)
  (forall n src s rest, rand_string_bytes n src = Ok (s, rest) -> zlen s = n /\ Forall (fun c => In c letter_bytes) s) /\
  (forall s rest, Forall (fun c => In c letter_bytes) s -> exists used, rand_string_bytes (zlen s) (used ++ rest) = Ok (s, rest)) /\
  (forall n src, rand_string_bytes n src = Panic <-> n < 0).
Proof.
  assert (D : forall min max src, is_i64 min -> is_i64 max -> min <= max -> max - min + 1 < 2 ^ 63 ->
    random_int_in_range min max src = match src with [] => NoFuel | x :: r => if (0 <=? x) && (x <? max - min + 1) then Ok (min + x, r) else NoFuel end).
  { intros min max src H1 H2 Hle Hs. unfold random_int_in_range. replace (min >? max) with false by lia. unfold is_i64 in *.
    rewrite (i64_id (max - min)) by (unfold is_i64; lia). rewrite (i64_id (max - min + 1)) by (unfold is_i64; lia). unfold draw. replace (max - min + 1 <=? 0) with false by lia.
    destruct src as [|x r]; [reflexivity|]. destruct ((0 <=? x) && (x <? max - min + 1)) eqn:R; [|reflexivity]. cbn [bind]. rewrite i64_id by (unfold is_i64; lia). do 2 f_equal. lia. }
  split; [|split; [|split; [|split]]].
  - intros min max src H1 H2. destruct (Z_gt_dec min max) as [G|G].
    { unfold random_int_in_range. replace (min >? max) with true by lia. split; [split; [auto|reflexivity]|discriminate]. }
    destruct (Z_ge_dec (max - min + 1) (2 ^ 63)) as [G2|G2].
    { assert (E : random_int_in_range min max src = Panic).
      { unfold random_int_in_range. replace (min >? max) with false by lia. unfold is_i64 in *.
        assert (N : i64 (i64 (max - min) + 1) <= 0). { unfold i64 in *. change (2 ^ 63) with 9223372036854775808 in *. change (2 ^ 64) with 18446744073709551616 in *. Z.div_mod_to_equations. lia. }
        unfold draw. replace (i64 (i64 (max - min) + 1) <=? 0) with true by lia. reflexivity. }
      rewrite E. split; [split; [auto|reflexivity]|discriminate]. }
    rewrite D by (auto; lia). split.
    + split; [|lia]. destruct src as [|x r]; [discriminate|]. destruct (_ && _); discriminate.
    + intros v rest E. destruct src as [|x r]; [discriminate|]. destruct ((0 <=? x) && (x <? max - min + 1)) eqn:R; [|discriminate]. inversion E; subst. split; [lia|]. now exists x.
  - intros min max v rest H1 H2 Hs Hv. exists (v - min). split; [lia|]. rewrite D by (auto; lia). replace ((0 <=? v - min) && (v - min <? max - min + 1)) with true by lia. do 2 f_equal. lia.
  - intros n src s rest. unfold rand_string_bytes. destruct (n <? 0) eqn:N; [discriminate|]. intros E. destruct (rand_letters_spec _ _ _ _ E) as (L & F & _). split; [|exact F]. unfold zlen. lia.
  - intros s rest F. destruct (rand_letters_reach s rest F) as [used E]. exists used. unfold rand_string_bytes, zlen. replace (Z.of_nat (length s) <? 0) with false by lia. now rewrite Nat2Z.id.
  - intros n src. unfold rand_string_bytes. destruct (n <? 0) eqn:N; [split; [lia|reflexivity]|]. split; [|lia]. intros E. now apply rand_letters_no_panic in E.
Qed.
Print Assumptions C73_random_ranges.

Example C73_example :
  random_int_in_range (-3) 4 [5; 9] = Ok (2, [9]) /\ rand_string_bytes 3 [0; 61; 26; 7] = Ok ([97; 57; 65], [7]) /\
  random_int_in_range (- 2 ^ 63) (2 ^ 63 - 1) [0] = Panic.
Proof. repeat split; vm_compute; reflexivity. Qed.

(* ---------------------------------------------------------------------------------------- *)
(** ** C74 Names *)
Definition parse_int (s : string) : option int := NilZero.int_of_string s.

Lemma to_int_nonnil z : Z.to_int z <> Pos Nil /\ Z.to_int z <> Neg Nil.
Proof.
  split; intros E.
  - assert (Z.of_int (Z.to_int z) = z) as O by apply DecimalZ.of_to. rewrite E in O. cbn in O. subst z. discriminate E.
  - assert (Z.of_int (Z.to_int z) = z) as O by apply DecimalZ.of_to. rewrite E in O. cbn in O. subst z. discriminate E.
Qed.

Lemma parse_itoa z : parse_int (itoa z) = Some (Z.to_int z).
Proof. unfold parse_int, itoa. destruct (to_int_nonnil z). now apply NilZero.isi. Qed.

Lemma itoa_inj a b : itoa a = itoa b -> a = b.
Proof.
  intros E. assert (Some (Z.to_int a) = Some (Z.to_int b)) as F by (now rewrite <- !parse_itoa, E).
  inversion F as [F']. rewrite <- (DecimalZ.of_to a), <- (DecimalZ.of_to b). now rewrite F'.
Qed.

(** The named codecs. *)
Definition codec_names : list (Z * string) :=
  [(4, "H263"); (27, "H264"); (173, "H265"); (139, "VP8"); (167, "VP9"); (32797, "AV1"); (86018, "AAC"); (65543, "PCMA"); (65542, "PCMU");
   (86076, "OPUS"); (86017, "MP3"); (69660, "G722"); (69643, "G726"); (65536, "PCMS16LE")]%string.

Fixpoint lookup (l : list (Z * string)) (a : Z) : option string :=
  match l with [] => None | (k, n) :: r => if a =? k then Some n else lookup r a end.

Lemma codec_string_spec a : codec_string a = match lookup codec_names a with Some n => n | None => itoa a end.
Proof.
  unfold codec_string, codec_names, AVCodecIdH263, AVCodecIdH264, AVCodecIdH265, AVCodecIdVP8, AVCodecIdVP9, AVCodecIdAV1, AVCodecIdAAC, AVCodecIdPCMALAW, AVCodecIdPCMMULAW, AVCodecIdOPUS, AVCodecIdMP3, AVCodecIdADPCMG722, AVCodecIdADPCMG726, AVCodecIdPCMS16LE.
  cbn [lookup]. repeat (destruct (a =? _); [reflexivity|]). reflexivity.
Qed.

Lemma lookup_in l a n : lookup l a = Some n -> In (a, n) l.
Proof. induction l as [|[k m] l IH]; cbn; [discriminate|]. destruct (a =? k) eqn:E; [|auto]. intros H; inversion H; subst. left. f_equal. lia. Qed.

Lemma names_not_numbers n : In n (map snd codec_names) -> parse_int n = None.
Proof.
  intros H. assert (T : forallb (fun n => match parse_int n with None => true | Some _ => false end) (map snd codec_names) = true) by (vm_compute; reflexivity).
  rewrite forallb_forall in T. specialize (T n H). now destruct (parse_int n).
Qed.

Lemma nodup_snd (l : list (Z * string)) a b n : NoDup (map snd l) -> In (a, n) l -> In (b, n) l -> a = b.
Proof.
  induction l as [|[k m] l IH]; cbn; intros ND Ha Hb; [contradiction|]. apply NoDup_cons_iff in ND as [Nn ND].
  destruct Ha as [Ha|Ha], Hb as [Hb|Hb].
  - congruence.
  - inversion Ha; subst. exfalso. apply Nn. now apply (in_map snd l (b, n)).
  - inversion Hb; subst. exfalso. apply Nn. now apply (in_map snd l (a, n)).
  - eauto.
Qed.

Theorem C74_names_unambiguous :
  (forall a b, codec_string a = codec_string b -> a = b) /\
  (forall a, codec_string a = match lookup codec_names a with Some n => n | None => itoa a end) /\
  (forall a, -1 <= a <= 5 -> exists n, media_string a = Ok n) /\
  (forall a b n, media_string a = Ok n -> media_string b = Ok n -> a = b) /\
  (forall a, media_string a = Panic <-> ~ (-1 <= a <= 5)).
Proof.
  split; [|split; [|split; [|split]]].
  - intros a b. rewrite !codec_string_spec. assert (ND : NoDup (map snd codec_names)) by (cbn; repeat (constructor; [cbn; intuition discriminate|]); constructor).
    destruct (lookup codec_names a) as [n|] eqn:Ea, (lookup codec_names b) as [m|] eqn:Eb; intros E.
    + subst m. apply lookup_in in Ea, Eb. eapply nodup_snd; eauto.
    + apply lookup_in in Ea. exfalso. pose proof (names_not_numbers n (in_map snd _ _ Ea)) as N. rewrite E, parse_itoa in N. discriminate.
    + apply lookup_in in Eb. exfalso. pose proof (names_not_numbers m (in_map snd _ _ Eb)) as N. rewrite <- E, parse_itoa in N. discriminate.
    + now apply itoa_inj.
  - apply codec_string_spec.
  - intros a H. assert (a = -1 \/ a = 0 \/ a = 1 \/ a = 2 \/ a = 3 \/ a = 4 \/ a = 5) as Q by lia. repeat (destruct Q as [->|Q]; [eexists; reflexivity|]). subst a. eexists; reflexivity.
  - intros a b n. unfold media_string.
    repeat (match goal with |- context [if ?x =? a then _ else _] => let E := fresh in destruct (x =? a) eqn:E; [apply Z.eqb_eq in E|] end);
    repeat (match goal with |- context [if ?x =? b then _ else _] => let E := fresh in destruct (x =? b) eqn:E; [apply Z.eqb_eq in E|] end); try congruence.
  - intros a. unfold media_string. repeat (match goal with |- context [if ?x =? a then _ else _] => let E := fresh in destruct (x =? a) eqn:E; [split; [discriminate|lia]|] end). split; [lia|reflexivity].
Qed.
Print Assumptions C74_names_unambiguous.

Example C74_example : codec_string 27 = "H264"%string /\ codec_string (-12) = "-12"%string /\ codec_string 0 = "0"%string /\ media_string 3 = Ok "subtitle"%string.
Proof. repeat split; vm_compute; reflexivity. Qed.

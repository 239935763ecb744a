(** * ReturnsProofs: the loops of the library end. *)
From Verif Require Import Base BufioModel GolombProofs NaluSpec NaluModel NaluProofs RecordModel SpsModel SpsProofs AacModel FloatModel CapModel PacketModel DemuxModel UtilModel HandlerModel.
From Coq Require Import String.
Local Open Scope list_scope.

Definition ends {A} (r : res A) : Prop := r <> NoFuel.

Lemma ends_bind {A B} (m : res A) (k : A -> res B) : ends m -> (forall a, m = Ok a -> ends (k a)) -> ends (bind m k).
Proof. unfold ends. intros E K. destruct m; cbn [bind]; [apply (K a eq_refl)|discriminate|discriminate|congruence]. Qed.
Lemma ends_opt {A} (o : option A) : ends (of_opt o).
Proof. unfold ends. destruct o; discriminate. Qed.
Lemma ends_ok {A} (a : A) : ends (Ok a). Proof. discriminate. Qed.
Lemma ends_err {A} : ends (@Err A). Proof. discriminate. Qed.
Lemma ends_panic {A} : ends (@Panic A). Proof. discriminate. Qed.
Lemma ends_assert b : ends (assert b). Proof. unfold ends, assert. destruct b; discriminate. Qed.

Create HintDb ends.
Ltac ends := repeat
  match goal with
  | |- ends (Ok _) => apply ends_ok
  | |- ends Err => apply ends_err
  | |- ends Panic => apply ends_panic
  | |- ends (of_opt _) => apply ends_opt
  | |- ends (assert _) => apply ends_assert
  | H : ?m = NoFuel |- ends NoFuel => exfalso; revert H; change (ends m); clear
  | |- ends (bind _ _) => apply ends_bind; [|let a := fresh "a" in intros a ?]
  | |- ends (if ?b then _ else _) => destruct b eqn:?
  | |- ends (let '(_, _) := ?x in _) => destruct x eqn:?
  | |- ends (match ?x with _ => _ end) => destruct x eqn:?
  | H : ends ?x |- ends ?x => exact H
  | |- _ => solve [auto 2 with ends]
  end.

Lemma ends_be_get n l : ends (be_get n l). Proof. unfold be_get. ends. Qed.
Lemma ends_be_put n l v : ends (be_put n l v). Proof. unfold be_put. ends. Qed.
Lemma ends_put24 l v : ends (put_uint24 l v). Proof. unfold put_uint24. ends. Qed.
Lemma ends_u24 l : ends (uint24 l). Proof. unfold uint24. ends. Qed.
#[export] Hint Resolve ends_be_get ends_be_put ends_put24 ends_u24 : ends.
Lemma ends_write_sub d lo f : (forall s, ends (f s)) -> ends (write_sub d lo f). Proof. intros F. unfold write_sub. ends. Qed.
Lemma ends_call_sub d lo f : (forall s, ends (f s)) -> ends (call_sub d lo f). Proof. intros F. unfold call_sub. ends. Qed.
Lemma ends_finish b r : ends r -> ends (snd (finish_write b r)). Proof. unfold finish_write, ends. destruct r; cbn; congruence. Qed.

Lemma ends_seek b n : ends (snd (bb_seek b n)). Proof. unfold bb_seek. destruct (peekN b n); cbn; ends. Qed.
Lemma ends_seek_back b n : ends (snd (bb_seek_back b n)). Proof. unfold bb_seek_back. destruct (peekN _ _); cbn; ends. Qed.
Lemma ends_rd_u8 b : ends (snd (rd_u8 b)). Proof. unfold rd_u8. destruct (peekN _ _); cbn; ends. Qed.
Lemma ends_rd_u24 b : ends (snd (rd_u24 b)). Proof. unfold rd_u24. destruct (peekN _ _); cbn [snd]; ends. Qed.
Lemma ends_rd_uint n b : ends (snd (rd_uint n b)). Proof. unfold rd_uint. destruct (peekN _ _); cbn [snd]; ends. Qed.
Lemma ends_rd_bytes n b : ends (snd (rd_bytes b n)). Proof. unfold rd_bytes. destruct (peekN _ _); cbn [snd]; ends. Qed.
Lemma ends_wr_u8 b v : ends (snd (wr_u8 b v)). Proof. unfold wr_u8. destruct (peekN _ _); [apply ends_finish|]; cbn [snd]; ends. Qed.
Lemma ends_wr_uint n b v : ends (snd (wr_uint n b v)).
Proof. unfold wr_uint. destruct (peekN _ _); [apply ends_finish, ends_write_sub; intros|]; cbn [snd]; ends. Qed.
Lemma ends_wr_bytes b v : ends (snd (wr_bytes b v)). Proof. unfold wr_bytes. destruct (peekN _ _); [apply ends_finish|]; cbn [snd]; ends. Qed.
Lemma ends_try {A} (x : bytes_buffer * res A) : ends (snd x) -> ends (try_ x). Proof. unfold try_, ends. destruct (snd x); congruence. Qed.
Lemma ends_try_w x : ends (snd x) -> ends (try_w x). Proof. unfold try_w, ends. destruct (snd x); congruence. Qed.
#[export] Hint Resolve ends_seek ends_seek_back ends_rd_u8 ends_rd_u24 ends_rd_uint ends_rd_bytes ends_wr_u8 ends_wr_uint ends_wr_bytes ends_try ends_try_w ends_write_sub ends_call_sub : ends.

(** ** Start codes *)
Lemma fsc_loop_ends p : forall f i, (Z.to_nat (zlen p - i) < f)%nat -> ends (find_start_code_loop f p i).
Proof.
  induction f as [|f IH]; intros i L; [lia|]. cbn [find_start_code_loop].
  destruct (i <? zlen p) eqn:C; [|apply ends_ok].
  ends; apply IH; lia.
Qed.
Lemma fsc_loop_from p : forall f i j, find_start_code_loop f p i = Ok j -> i <= j /\ (j < zlen p -> i < j).
Proof.
  induction f as [|f IH]; intros i j; cbn [find_start_code_loop]; [discriminate|].
  destruct (i <? zlen p) eqn:L; [|intros [= <-]; lia].
  destruct (idx p i); cbn [of_opt bind]; [|discriminate]. destruct (z >? 1); [intros E; apply IH in E; lia|].
  destruct (idx p (i - 1)); cbn [of_opt bind]; [|discriminate]. destruct (negb (z0 =? 0)); [intros E; apply IH in E; lia|].
  destruct (idx p (i - 2)); cbn [of_opt bind]; [|discriminate]. destruct (negb _); [intros E; apply IH in E; lia|intros [= <-]; lia].
Qed.
Lemma fsc_ends p : ends (find_start_code p).
Proof. unfold find_start_code. apply ends_bind; [apply fsc_loop_ends; unfold zlen; lia|]. intros i _. ends. Qed.
#[export] Hint Resolve fsc_ends : ends.
(** A start code is found at a positive distance, in the slice, not before its own length. *)
Lemma fsc_far p i n : find_start_code p = Ok (i, n) -> i < 0 \/ (3 <= i < zlen p /\ 3 <= n <= i).
Proof.
  unfold find_start_code. destruct (find_start_code_loop _ p 2) as [j| | |] eqn:E; cbn [bind]; try discriminate. apply fsc_loop_from in E.
  destruct (j <? zlen p) eqn:L; [|intros [= <- <-]; lia]. destruct (j >? 3) eqn:G.
  - destruct (idx p (j - 4)); cbn [of_opt bind]; [|discriminate]. intros [= <- <-]. destruct (z =? 0); lia.
  - intros [= <- <-]. lia.
Qed.
Lemma fsc_reader_ends r : ends (snd (find_start_code_with_reader r)).
Proof.
  unfold find_start_code_with_reader. assert (E : ends (bb_remaining r)) by apply ends_opt. destruct (bb_remaining r); [clear E|apply ends_err|apply ends_panic|now contradiction E].
  assert (F := fsc_ends a). destruct (find_start_code a) as [[i n]| | |]; [clear F|apply ends_err|apply ends_panic|now contradiction F]. destruct (i <? 0); cbn [snd]; ends.
Qed.
Lemma fsc2_ends p : ends (find_start_code2 p). Proof. unfold find_start_code2. ends. Qed.
#[export] Hint Resolve fsc2_ends : ends.

Lemma of_opt_ok {A} (o : option A) a : of_opt o = Ok a -> o = Some a.
Proof. destruct o; cbn [of_opt]; [now intros [= ->]|discriminate]. Qed.
Ltac opts := repeat match goal with H : of_opt _ = Ok _ |- _ => apply of_opt_ok in H end.

(** ** Key frames *)
Lemma avc_key_ends p : forall f i, (Z.to_nat (zlen p - i) < f)%nat -> ends (avc_is_key_frame_loop f p i).
Proof.
  induction f as [|f IH]; intros i L; [lia|]. cbn [avc_is_key_frame_loop]. cbv zeta.
  ends; opts. match goal with H : find_start_code _ = Ok _ |- _ => apply fsc_far in H end.
  match goal with H : slice_from _ _ = Some _ |- _ => apply slice_length in H end. apply IH; lia.
Qed.
Lemma hevc_key_ends p : forall f i, (Z.to_nat (zlen p - i) < f)%nat -> ends (hevc_is_key_frame_loop f p i).
Proof.
  induction f as [|f IH]; intros i L; [lia|]. cbn [hevc_is_key_frame_loop]. cbv zeta.
  ends; opts. match goal with H : find_start_code _ = Ok _ |- _ => apply fsc_far in H end.
  match goal with H : slice_from _ _ = Some _ |- _ => apply slice_length in H end. apply IH; lia.
Qed.

(** ** AVCC and Annex-B *)
Lemma slice_bytes l lo hi s : bytes_ok l -> slice l lo hi = Some s -> bytes_ok s.
Proof. intros B. unfold slice. destruct (_ && _ && _); [|discriminate]. intros [= <-]. apply bytes_ok_firstn, bytes_ok_skipn, B. Qed.
Lemma be_get_nonneg n l v : bytes_ok l -> be_get n l = Ok v -> 0 <= v.
Proof.
  intros B. unfold be_get. destruct (slice l 0 (Z.of_nat n)) as [s|] eqn:E; cbn [of_opt bind]; [|discriminate]. intros [= <-].
  apply be_value_bound. eapply slice_bytes; eassumption.
Qed.
Lemma ends_copy_nalu_with d x k a : ends (copy_nalu_with_bytes d x k a).
Proof. unfold copy_nalu_with_bytes. cbv zeta. ends. Qed.
Lemma ends_copy_nalu w d k a : ends (copy_nalu w d k a).
Proof.
  unfold copy_nalu. cbv zeta.
  assert (S : forall w d, ends (match wr_bytes w d with (w', Panic) => Panic | (w', NoFuel) => NoFuel | (w', _) => Ok w' end)).
  { intros w1 d1. pose proof (ends_wr_bytes w1 d1) as E. destruct (wr_bytes w1 d1) as [w' []]; cbn [snd] in E; ends. now contradiction E. }
  apply ends_bind; [destruct a; [apply S|apply ends_ok]|]. intros w1 _. apply ends_bind; [apply S|]. intros; apply ends_ok.
Qed.
#[export] Hint Resolve ends_copy_nalu_with ends_copy_nalu : ends.

Lemma avcc2annexb_ends avcc extra : bytes_ok avcc -> forall f dst i k a b, (Z.to_nat (zlen avcc - i) < f)%nat -> ends (avcc2annexb_loop f avcc extra dst i k a b).
Proof.
  intros B. induction f as [|f IH]; intros dst i k a b L; [lia|]. cbn [avcc2annexb_loop]. cbv zeta.
  destruct (i <? zlen avcc) eqn:C; [|apply ends_ok].
  apply ends_bind; [apply ends_opt|]. intros s S. apply of_opt_ok in S. apply ends_bind; [apply ends_be_get|]. intros v V. apply be_get_nonneg in V; [|eapply slice_bytes; eassumption].
  ends; apply IH; lia.
Qed.
Lemma skip_zeros_ends p : forall f i, (Z.to_nat (zlen p - i) < f)%nat -> ends (skip_zeros f p i).
Proof. induction f as [|f IH]; intros i L; [lia|]. cbn [skip_zeros]. destruct (i <? zlen p) eqn:C; [|apply ends_ok]. ends. apply IH; lia. Qed.
Lemma skip_zeros_from p : forall f i j, skip_zeros f p i = Ok j -> i <= j.
Proof.
  induction f as [|f IH]; intros i j; cbn [skip_zeros]; [discriminate|]. destruct (i <? zlen p); [|intros [= <-]; lia].
  destruct (idx p i); cbn [of_opt bind]; [|discriminate]. destruct (z =? 0); [intros E; apply IH in E; lia|intros [= <-]; lia].
Qed.
Lemma annexb2avcc_ends p : forall f dst i k, (Z.to_nat (zlen p - i) < f)%nat -> ends (annexb2avcc_loop f p dst i k).
Proof.
  induction f as [|f IH]; intros dst i k L; [lia|]. cbn [annexb2avcc_loop]. cbv zeta.
  destruct (i <? zlen p) eqn:C; [|apply ends_ok].
  destruct (Z.lt_ge_cases i 0) as [N|N].
  { (* a negative index panics *)
    assert (I : idx p i = None) by (unfold idx; destruct (i <? 0) eqn:?; [reflexivity|lia]).
    cbn [skip_zeros]. rewrite C, I. cbn [of_opt bind]. apply ends_panic. }
  apply ends_bind; [apply skip_zeros_ends; unfold zlen; lia|]. intros j J. apply skip_zeros_from in J.
  destruct (j >=? zlen p) eqn:D; [apply ends_ok|].
  apply ends_bind; [apply ends_opt|]. intros r R. apply of_opt_ok, slice_length in R.
  apply ends_bind; [apply fsc_ends|]. intros [e n] E. apply fsc_far in E.
  assert (X : exists e' n', (if e <? 0 then (zlen r, 0) else (e, n)) = (e', n') /\ 1 <= e') by (destruct (e <? 0) eqn:?; do 2 eexists; (split; [reflexivity|lia])).
  destruct X as (e' & n' & -> & X). ends; apply IH; lia.
Qed.
Lemma avc_mp4_ends data extra : bytes_ok data -> forall f w i k a b, (Z.to_nat (zlen data - i) < f)%nat -> ends (avc_mp4_to_annexb_loop f w data extra i k a b).
Proof.
  intros B. induction f as [|f IH]; intros w i k a b L; [lia|]. cbn [avc_mp4_to_annexb_loop]. cbv zeta.
  destruct (i <? zlen data) eqn:C; [|apply ends_ok].
  apply ends_bind; [apply ends_opt|]. intros s S. apply of_opt_ok in S. apply ends_bind; [apply ends_be_get|]. intros v V. apply be_get_nonneg in V; [|eapply slice_bytes; eassumption].
  ends; apply IH; lia.
Qed.
Lemma ends_read_length data : forall k i acc, ends (read_length k data i acc).
Proof. induction k as [|k IH]; intros; cbn [read_length]; ends; apply IH. Qed.
Lemma read_length_from data : forall k i acc v j, read_length k data i acc = Ok (v, j) -> i <= j.
Proof.
  induction k as [|k IH]; intros i acc v j; cbn [read_length]; [intros [= _ <-]; lia|]. destruct (idx data i); cbn [of_opt bind]; [|discriminate].
  intros E. apply IH in E. lia.
Qed.
Lemma hevc_mp4_ends data extra k : forall f dst i n g, (Z.to_nat (zlen data - i) < f)%nat -> ends (hevc_mp4_to_annexb_loop f dst data extra k i n g).
Proof.
  induction f as [|f IH]; intros dst i n g L; [lia|]. cbn [hevc_mp4_to_annexb_loop]. cbv zeta.
  destruct (i <? zlen data) eqn:C; [|apply ends_ok]. destruct (_ <? k); [apply ends_err|].
  apply ends_bind; [apply ends_read_length|]. intros [v j] V. apply read_length_from in V.
  ends; apply IH; lia.
Qed.
Lemma split_nalu_ends data : forall f i, (Z.to_nat (zlen data - i) < f)%nat -> ends (split_nalu_loop f data i).
Proof.
  induction f as [|f IH]; intros i L; [lia|]. cbn [split_nalu_loop]. cbv zeta.
  apply ends_bind; [apply ends_opt|]. intros q Q. apply of_opt_ok, slice_length in Q.
  apply ends_bind; [apply fsc2_ends|]. intros n _. destruct (n >? -1) eqn:C.
  - apply ends_bind; [apply ends_opt|]. intros pc _. apply ends_bind; [apply IH; lia|]. intros; apply ends_ok.
  - ends.
Qed.
Lemma ends_remove d : ends (remove_start_code d). Proof. unfold remove_start_code. ends. Qed.
Lemma ends_with d : ends (with_start_code d). Proof. unfold with_start_code. ends. Qed.
#[export] Hint Resolve ends_remove ends_with : ends.
Lemma ends_avc_extra_loop : forall l a b, ends (avc_extra_loop l a b).
Proof. induction l as [|x l IH]; intros; cbn [avc_extra_loop]; cbv zeta; ends; apply IH. Qed.
Lemma ends_hevc_extra_loop : forall l a b c, ends (hevc_extra_loop l a b c).
Proof. induction l as [|x l IH]; intros; cbn [hevc_extra_loop]; cbv zeta; ends; apply IH. Qed.
Lemma ends_split d : ends (split_nalu d). Proof. apply split_nalu_ends. unfold zlen; lia. Qed.
#[export] Hint Resolve ends_avc_extra_loop ends_hevc_extra_loop ends_split : ends.
Lemma ends_avc_extra d : ends (avc_parse_extra_data d). Proof. unfold avc_parse_extra_data. ends. Qed.
Lemma ends_hevc_extra d : ends (hevc_parse_extra_data d). Proof. unfold hevc_parse_extra_data. ends. Qed.
#[export] Hint Resolve ends_avc_extra ends_hevc_extra : ends.
Lemma ends_avcc2annexb dst p extra : bytes_ok p -> ends (avcc2annexb dst p extra). Proof. intros B. apply avcc2annexb_ends; [exact B|unfold zlen; lia]. Qed.
Lemma ends_annexb2avcc dst p : ends (annexb2avcc dst p).
Proof. unfold annexb2avcc. apply ends_bind; [apply fsc_ends|]. intros [i n] E. apply fsc_far in E. destruct (i <? 0) eqn:?; [apply ends_ok|]. apply annexb2avcc_ends. unfold zlen; lia. Qed.
Lemma ends_avc_mp4 w p extra : bytes_ok p -> ends (avc_mp4_to_annexb w p extra). Proof. intros B. apply avc_mp4_ends; [exact B|unfold zlen; lia]. Qed.
Lemma ends_hevc_mp4 dst p extra k : ends (hevc_mp4_to_annexb dst p extra k). Proof. apply hevc_mp4_ends. unfold zlen; lia. Qed.
Lemma ends_avc_key p : ends (avc_is_key_frame p). Proof. apply avc_key_ends. unfold zlen; lia. Qed.
Lemma ends_hevc_key p : ends (hevc_is_key_frame p). Proof. apply hevc_key_ends. unfold zlen; lia. Qed.
#[export] Hint Resolve ends_avcc2annexb ends_annexb2avcc ends_avc_mp4 ends_hevc_mp4 ends_avc_key ends_hevc_key : ends.

(** ** The Golomb reader and the sequence parameter sets *)
Definition gends {A} (m : G A) : Prop := forall g, ends (snd (m g)).
Lemma gends_ret {A} (a : A) : gends (g_ret a). Proof. intros g. apply ends_ok. Qed.
Lemma gends_bind {A B} (m : G A) (f : A -> G B) : gends m -> (forall a, gends (f a)) -> gends (g_bind m f).
Proof. intros M F g. unfold g_bind. specialize (M g). destruct (m g) as [g' []]; cbn [snd] in *; [apply F|apply ends_err|apply ends_panic|now contradiction M]. Qed.
Lemma gends_bit : gends g_read_bit.
Proof. intros g. unfold g_read_bit. destruct (g_left g =? 0); [destruct (g_rest g)|]; cbn [snd]; ends. Qed.
Lemma gends_bits n : gends (g_read_bits n).
Proof. unfold g_read_bits. generalize 0. induction (Z.to_nat n) as [|k IH]; intros a; cbn [g_read_bits_loop]; [apply gends_ret|]. apply gends_bind; [apply gends_bit|]. intros; apply IH. Qed.
Lemma gends_bits32 n : gends (g_read_bits32 n).
Proof. unfold g_read_bits32. generalize 0. induction (Z.to_nat n) as [|k IH]; intros a; cbn [g_read_bits32_loop]; [apply gends_ret|]. apply gends_bind; [apply gends_bit|]. intros; apply IH. Qed.
Lemma gends_bits64 n : gends (g_read_bits64 n).
Proof. unfold g_read_bits64. generalize 0. induction (Z.to_nat n) as [|k IH]; intros a; cbn [g_read_bits64_loop]; [apply gends_ret|]. apply gends_bind; [apply gends_bit|]. intros; apply IH. Qed.
Lemma gends_zeros : forall f i, (Z.to_nat (32 - i) < f)%nat -> gends (g_zeros_loop f i).
Proof.
  induction f as [|f IH]; intros i L; [lia|]. cbn [g_zeros_loop]. apply gends_bind; [apply gends_bit|]. intros b.
  destruct (b =? 0), (i <? 32) eqn:C; cbn [andb negb]; try apply gends_ret. apply IH. lia.
Qed.
Lemma gends_ue : gends g_read_ue.
Proof. unfold g_read_ue. apply gends_bind; [apply gends_zeros; lia|]. intros. apply gends_bind; [apply gends_bits|]. intros; apply gends_ret. Qed.
Lemma gends_se : gends g_read_se.
Proof. unfold g_read_se. apply gends_bind; [apply gends_ue|]. intros a. destruct (negb _); apply gends_ret. Qed.

Lemma ends_avc_sps d : ends (avc_parse_sps d).
Proof. unfold avc_parse_sps. ends. destruct (tot_res _ a tot_avc_body) as [-> | [s ->]]; ends. Qed.
Lemma ends_hevc_sps d : ends (hevc_parse_sps d).
Proof. unfold hevc_parse_sps. ends. destruct (tot_res _ (nal2rbsp a0) tot_hevc_body) as [-> | [s ->]]; ends. Qed.
#[export] Hint Resolve ends_avc_sps ends_hevc_sps : ends.

(** ** Records *)
Lemma ends_write_sets : forall l w o, ends (write_sets w l o).
Proof. induction l as [|x l IH]; intros; cbn [write_sets]; ends; apply IH. Qed.
Lemma ends_read_sets : forall n r acc, ends (read_sets n r acc).
Proof. induction n as [|n IH]; intros; cbn [read_sets]; ends; apply IH. Qed.
Lemma ends_write_all : forall l w, ends (write_all w l).
Proof. induction l as [|x l IH]; intros; cbn [write_all]; ends; apply IH. Qed.
#[export] Hint Resolve ends_write_sets ends_read_sets ends_write_all : ends.
Lemma ends_avc_marshal s p : ends (avc_marshal s p). Proof. unfold avc_marshal. ends. Qed.
Lemma ends_avc_unmarshal a d : ends (avc_unmarshal a d). Proof. unfold avc_unmarshal. cbv zeta. ends. Qed.
#[export] Hint Resolve ends_avc_marshal ends_avc_unmarshal : ends.
Lemma ends_avc_to_annexb d : ends (avc_extra_to_annexb d). Proof. unfold avc_extra_to_annexb. ends. Qed.
Lemma ends_hevc_write w l : ends (hevc_write w l). Proof. unfold hevc_write. ends. Qed.
#[export] Hint Resolve ends_hevc_write : ends.
Lemma ends_hevc_marshal v s p : ends (hevc_marshal v s p). Proof. unfold hevc_marshal. ends. Qed.
Lemma ends_hevc_nalus gr t : forall n r s, ends (hevc_read_nalus gr n t r s).
Proof. induction n as [|n IH]; intros; cbn [hevc_read_nalus]; ends; apply IH. Qed.
#[export] Hint Resolve ends_hevc_nalus : ends.
Lemma ends_hevc_arrays gr : forall n r s, ends (hevc_read_arrays gr n r s).
Proof. induction n as [|n IH]; intros; cbn [hevc_read_arrays]; ends; apply IH. Qed.
Lemma ends_get_be n d lo : ends (get_be n d lo). Proof. unfold get_be. ends. Qed.
#[export] Hint Resolve ends_hevc_arrays ends_get_be : ends.
Lemma ends_hevc_header d : ends (hevc_read_header d). Proof. unfold hevc_read_header. ends. Qed.
#[export] Hint Resolve ends_hevc_header : ends.
Lemma ends_hevc_unmarshal gr d : ends (hevc_unmarshal gr d). Proof. unfold hevc_unmarshal. ends. Qed.
#[export] Hint Resolve ends_hevc_marshal ends_hevc_unmarshal : ends.
Lemma ends_hevc_to_annexb gr d : ends (hevc_extra_to_annexb gr d). Proof. unfold hevc_extra_to_annexb. ends. Qed.
#[export] Hint Resolve ends_avc_to_annexb ends_hevc_to_annexb : ends.

Lemma seek_data b n : bb_data (fst (bb_seek b n)) = bb_data b.
Proof. unfold bb_seek, peekN. destruct (_ || _); reflexivity. Qed.
Lemma rd_u8_data b : bb_data (fst (rd_u8 b)) = bb_data b.
Proof. unfold rd_u8, peekN. destruct (_ || _); reflexivity. Qed.
Lemma rd_uint_data n b : bb_data (fst (rd_uint n b)) = bb_data b.
Proof. unfold rd_uint, peekN. destruct (_ || _); reflexivity. Qed.
Lemma rd_u8_byte b v : bytes_ok (bb_data b) -> snd (rd_u8 b) = Ok v -> byte_ok v.
Proof.
  intros B. unfold rd_u8, peekN. destruct (_ || _); cbn [snd]; [discriminate|]. cbn [bb_set_offset bb_data bb_offset]. intros E. apply of_opt_ok in E.
  eapply bytes_ok_idx; eassumption.
Qed.
Lemma try_ok {A} (x : bytes_buffer * res A) r a : try_ x = Ok (r, a) -> r = fst x /\ snd x = Ok a.
Proof. unfold try_. destruct (snd x); try discriminate. now intros [= <- <-]. Qed.
Lemma try_w_ok x r : try_w x = Ok r -> r = fst x.
Proof. unfold try_w. destruct (snd x); try discriminate. now intros [= <-]. Qed.

Lemma m4vc_ends src : forall f r w n k, bytes_ok (bb_data r) -> 0 <= n -> 0 <= k -> (Z.to_nat (n + if (k =? 0)%Z then 256 else 0) < f)%nat -> ends (m4vc_loop f src r w n k).
Proof.
  induction f as [|f IH]; intros r w n k B N K L; [lia|]. cbn [m4vc_loop]. cbv zeta.
  destruct (n =? 0) eqn:Z0; [apply ends_ok|].
  apply ends_bind; [ends|]. intros [r1 size] R1. apply try_ok in R1 as [-> _]. apply ends_bind; [ends|]. intros w1 _. apply ends_bind; [ends|]. intros x _.
  apply ends_bind; [ends|]. intros w2 _. apply ends_bind; [ends|]. intros r2 R2. apply try_w_ok in R2.
  assert (B2 : bytes_ok (bb_data r2)) by (subst r2; now rewrite seek_data, rd_uint_data). clear R2.
  destruct (_ && _ && _) eqn:C.
  - pose proof (rd_u8_data r2) as D. pose proof (rd_u8_byte r2) as Y. pose proof (ends_rd_u8 r2) as E. destruct (rd_u8 r2) as [r3 [v| | |]]; cbn [fst snd] in *; [| |apply ends_panic|now contradiction E].
    + specialize (Y v B2 eq_refl). unfold byte_ok in Y. destruct (k + 1 =? 1) eqn:?; [|exfalso; lia]. destruct (k =? 0) eqn:?; [|lia].
      apply IH; [now rewrite D|lia|lia|]. destruct (k + 1 =? 0) eqn:?; lia.
    + apply IH; [now rewrite D|lia|lia|]. destruct (k + 1 =? 0) eqn:?; [lia|]. destruct (k =? 0); lia.
  - apply IH; [exact B2|lia|lia|]. destruct (k + 1 =? 0) eqn:?; [lia|]. destruct (k =? 0); lia.
Qed.
Lemma m4vc_cap_ends src spare : forall f r w n k, bytes_ok (bb_data r) -> 0 <= n -> 0 <= k -> (Z.to_nat (n + if (k =? 0)%Z then 256 else 0) < f)%nat -> ends (m4vc_loop_cap f src spare r w n k).
Proof.
  induction f as [|f IH]; intros r w n k B N K L; [lia|]. cbn [m4vc_loop_cap]. cbv zeta.
  destruct (n =? 0) eqn:Z0; [apply ends_ok|].
  apply ends_bind; [ends|]. intros [r1 size] R1. apply try_ok in R1 as [-> _]. apply ends_bind; [ends|]. intros w1 _. apply ends_bind; [ends|]. intros x _.
  apply ends_bind; [ends|]. intros w2 _. apply ends_bind; [ends|]. intros r2 R2. apply try_w_ok in R2.
  assert (B2 : bytes_ok (bb_data r2)) by (subst r2; now rewrite seek_data, rd_uint_data). clear R2.
  destruct (_ && _ && _) eqn:C.
  - pose proof (rd_u8_data r2) as D. pose proof (rd_u8_byte r2) as Y. pose proof (ends_rd_u8 r2) as E. destruct (rd_u8 r2) as [r3 [v| | |]]; cbn [fst snd] in *; [| |apply ends_panic|now contradiction E].
    + specialize (Y v B2 eq_refl). unfold byte_ok in Y. destruct (k + 1 =? 1) eqn:?; [|exfalso; lia]. destruct (k =? 0) eqn:?; [|lia].
      apply IH; [now rewrite D|lia|lia|]. destruct (k + 1 =? 0) eqn:?; lia.
    + apply IH; [now rewrite D|lia|lia|]. destruct (k + 1 =? 0) eqn:?; [lia|]. destruct (k =? 0); lia.
  - apply IH; [exact B2|lia|lia|]. destruct (k + 1 =? 0) eqn:?; [lia|]. destruct (k =? 0); lia.
Qed.
Lemma land31 v : 0 <= Z.land v 31 <= 31.
Proof. change 31 with (Z.ones 5) at 1 2. rewrite Z.land_ones by lia. pose proof (Z.mod_pos_bound v (2 ^ 5)). change (2 ^ 5) with 32 in *. lia. Qed.
Lemma ends_m4vc src : bytes_ok src -> ends (m4vc_extra_to_annexb src).
Proof.
  intros B. unfold m4vc_extra_to_annexb. apply ends_bind; [ends|]. intros r0 R0. apply try_w_ok in R0. apply ends_bind; [ends|]. intros [r1 y] R1. apply try_ok in R1 as [-> _].
  pose proof (ends_rd_u8 (fst (rd_u8 r0))) as E. pose proof (rd_u8_data (fst (rd_u8 r0))) as D. destruct (rd_u8 (fst (rd_u8 r0))) as [r2 x]. cbn [fst snd] in *.
  assert (B2 : bytes_ok (bb_data r2)) by (rewrite D, rd_u8_data, R0, seek_data; exact B).
  apply ends_bind; [destruct x; ends; now contradiction E|]. intros n Hn.
  assert (Z : 0 <= n <= 31) by (destruct x; [injection Hn as <-; apply land31|injection Hn as <-; lia|discriminate|discriminate]).
  apply ends_bind; [apply m4vc_ends; [exact B2|lia|lia|cbn; lia]|]. intros. apply ends_opt.
Qed.
Lemma ends_m4vc_cap src spare : bytes_ok src -> ends (m4vc_extra_to_annexb_cap src spare).
Proof.
  intros B. unfold m4vc_extra_to_annexb_cap. apply ends_bind; [ends|]. intros r0 R0. apply try_w_ok in R0. apply ends_bind; [ends|]. intros [r1 y] R1. apply try_ok in R1 as [-> _].
  pose proof (ends_rd_u8 (fst (rd_u8 r0))) as E. pose proof (rd_u8_data (fst (rd_u8 r0))) as D. destruct (rd_u8 (fst (rd_u8 r0))) as [r2 x]. cbn [fst snd] in *.
  assert (B2 : bytes_ok (bb_data r2)) by (rewrite D, rd_u8_data, R0, seek_data; exact B).
  apply ends_bind; [destruct x; ends; now contradiction E|]. intros n Hn.
  assert (Z : 0 <= n <= 31) by (destruct x; [injection Hn as <-; apply land31|injection Hn as <-; lia|discriminate|discriminate]).
  apply ends_bind; [apply m4vc_cap_ends; [exact B2|lia|lia|cbn; lia]|]. intros. apply ends_opt.
Qed.

(** ** Audio, packets *)
Lemma ends_asc d : ends (parse_asc d). Proof. unfold parse_asc. cbv zeta. ends. Qed.
Lemma ends_adts d : ends (read_adts_fixed_header d). Proof. unfold read_adts_fixed_header. cbv zeta. ends. Qed.
#[export] Hint Resolve ends_asc ends_adts : ends.
Lemma ends_audio_extra c d : ends (extract_audio_extra_data c d). Proof. unfold extract_audio_extra_data. cbv zeta. ends. Qed.
Lemma ends_video_extra c d : ends (extract_video_extra_data c d). Proof. unfold extract_video_extra_data. ends. Qed.
Lemma ends_parse_avc d : ends (parse_avc_record d). Proof. unfold parse_avc_record. ends. Qed.
Lemma ends_parse_hevc gr d : ends (parse_hevc_record gr d). Proof. unfold parse_hevc_record. ends. Qed.
Lemma ends_new_avc s p : ends (new_avc_codec_data s p). Proof. unfold new_avc_codec_data. ends. Qed.
Lemma ends_new_hevc v s p : ends (new_hevc_codec_data v s p). Proof. unfold new_hevc_codec_data. ends. Qed.
#[export] Hint Resolve ends_audio_extra ends_video_extra ends_parse_avc ends_parse_hevc ends_new_avc ends_new_hevc : ends.
Lemma ends_generate gr t id d : ends (generate_video_codec_data gr t id d). Proof. unfold generate_video_codec_data. ends. Qed.
Lemma ends_create_hevc d i : ends (create_hevc_stream d i). Proof. unfold create_hevc_stream. ends. Qed.
Lemma ends_create_avc d i : ends (create_avc_stream d i). Proof. unfold create_avc_stream. ends. Qed.
Lemma ends_first_header x : ends (first_header x). Proof. unfold first_header. ends. Qed.
#[export] Hint Resolve ends_generate ends_first_header : ends.
Lemma ends_is_key id d : ends (is_key_frame id d). Proof. unfold is_key_frame. ends. Qed.
Lemma ends_to_avcc p : ends (annexb_packet_to_avcc p). Proof. unfold annexb_packet_to_avcc. ends. Qed.
Lemma ends_to_annexb s p : bytes_ok (pk_data p) -> ends (avcc_packet_to_annexb s p).
Proof.
  intros B. unfold avcc_packet_to_annexb. apply ends_bind; [apply ends_assert|]. intros _ _. destruct (negb _ || negb _).
  - ends.
  - destruct (pk_annexb p); [apply ends_ok|]. cbv zeta. apply ends_bind; [|intros; ends].
    destruct (AVCodecIdH264 =? pk_codec p); [apply ends_call_sub; intros; now apply ends_avcc2annexb|]. destruct (AVCodecIdH265 =? pk_codec p); [|apply ends_ok].
    destruct (st_params s) as [[]|]; try apply ends_panic.
    match goal with |- ends (match ?m with _ => _ end) => assert (E : ends m) by (apply ends_call_sub; intros; apply ends_hevc_mp4); destruct m; ends; now contradiction E end.
Qed.

(** ** The demuxer *)
Lemma ends_timebase n : ends (get_timebase n). Proof. unfold get_timebase. ends. Qed.
Lemma ends_create_audio d b i t e c : ends (create_audio_track d b i t e c). Proof. unfold create_audio_track. cbv zeta. ends. Qed.
Lemma ends_create_video o d b i t e : ends (create_video_track o d b i t e). Proof. unfold create_video_track. ends. Qed.
Lemma ends_find o d b : ends (find_track o d b). Proof. unfold find_track, tm_get. cbv zeta. ends. Qed.
#[export] Hint Resolve ends_timebase ends_create_audio ends_create_video ends_find : ends.
Lemma ends_forward d p : ends (forward_packet d p). Proof. unfold forward_packet. ends. Qed.
#[export] Hint Resolve ends_forward : ends.
Lemma ends_forward_all d : forall l, ends (forward_all d l). Proof. induction l as [|p l IH]; cbn [forward_all]; ends. Qed.
#[export] Hint Resolve ends_forward_all : ends.
Lemma ends_complete o d : ends (on_probe_complete o d). Proof. unfold on_probe_complete. cbv zeta. ends. Qed.
#[export] Hint Resolve ends_complete : ends.
Lemma ends_process o d p : ends (process_buffered_packet o d p). Proof. unfold process_buffered_packet. cbv zeta. ends. Qed.
#[export] Hint Resolve ends_process : ends.
Lemma ends_step o d a : ends (step o d a).
Proof.
  destruct a; cbn [step]; unfold on_new_audio_track, on_new_video_track, on_audio_packet, on_video_packet, try_complete_probe, tm_get; cbv zeta; ends.
Qed.
Lemma ends_run : forall l d, ends (run d l).
Proof. induction l as [|[o a] l IH]; intros d; cbn [run]; [apply ends_ok|]. apply ends_bind; [apply ends_step|]. intros [d1 e] _. apply ends_bind; [apply IH|]. intros [d2 e'] _. apply ends_ok. Qed.

(** ** The file handler *)
Lemma ends_media a : ends (media_string a). Proof. unfold media_string. ends. Qed.
Lemma ends_fh_write h i d : ends (fh_write h i d). Proof. unfold fh_write. ends. Qed.
#[export] Hint Resolve ends_media ends_fh_write ends_to_annexb : ends.
Lemma ends_fh_packet h p : bytes_ok (pk_data p) -> ends (fh_on_packet h p).
Proof. intros B. unfold fh_on_packet, tm_get. ends. Qed.
Lemma ends_fh_session path : forall l h, Forall (fun e => match e with EvPacket p => bytes_ok (pk_data p) | _ => True end) l -> ends (fh_session path h l).
Proof.
  induction l as [|e l IH]; intros h F; cbn [fh_session]; [apply ends_ok|]. apply Forall_cons_iff in F as [F1 F]. apply ends_bind; [|intros h1 _; now apply IH].
  destruct e; cbn [fh_event]; unfold fh_new_track, file_name; ends. now apply ends_fh_packet.
Qed.

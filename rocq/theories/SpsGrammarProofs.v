(** * SpsGrammarProofs: the SPS parsers accept exactly their forms. *)
From Verif Require Import Base BitSpec BufioModel GolombProofs NaluModel NaluProofs RecordModel FloatModel SpsModel SpsSpec SpsProofs SpsGrammarSpec.

(** [m] returns [a] exactly by consuming a bit string of [F a]. *)
Definition Exact {A} (m : G A) (F : A -> form) : Prop :=
  (forall a bs, F a bs -> Reads m bs a) /\
  (forall g g' a, g_wf g -> m g = (g', Ok a) -> g_wf g' /\ exists bs, g_bits g = bs ++ g_bits g' /\ F a bs).
Definition andthen {A B} (F : A -> form) (K : A -> B -> form) : B -> form := fun b bs => exists a b1 b2, bs = b1 ++ b2 /\ F a b1 /\ K a b b2.

Lemma exact_ret {A} (a : A) : Exact (g_ret a) (fun x bs => x = a /\ bs = []).
Proof.
  split.
  - intros x bs [-> ->]. apply reads_ret.
  - intros g g' x W [= <- <-]. split; [exact W|]. exists []. auto.
Qed.
Lemma exact_bind {A B} (m : G A) (f : A -> G B) F K : Exact m F -> (forall a, Exact (f a) (K a)) -> Exact (g_bind m f) (andthen F K).
Proof.
  intros [M1 M2] H. split.
  - intros b bs (a & b1 & b2 & -> & E1 & E2). apply (reads_bind m f b1 b2 a b); [now apply M1|]. now apply H.
  - intros g g' b W E. unfold g_bind in E. destruct (m g) as [g1 [a| | |]] eqn:E1; try discriminate. destruct (M2 g g1 a W E1) as (W1 & b1 & B1 & F1).
    destruct (proj2 (H a) g1 g' b W1 E) as (W' & b2 & B2 & F2). split; [exact W'|]. exists (b1 ++ b2). rewrite B1, B2, app_assoc. split; [reflexivity|]. exists a, b1, b2. auto.
Qed.
Lemma exact_iff {A} (m : G A) F K : Exact m F -> (forall a bs, F a bs <-> K a bs) -> Exact m K.
Proof.
  intros [M1 M2] H. split.
  - intros a bs E. apply M1. now apply H.
  - intros g g' a W E. destruct (M2 g g' a W E) as (W' & bs & B & Fa). split; [exact W'|]. exists bs. split; [exact B|]. now apply H.
Qed.
Lemma exact_if {A} (b : bool) (m n : G A) F K : Exact m F -> Exact n K -> Exact (if b then m else n) (fun a bs => if b then F a bs else K a bs).
Proof. destruct b; auto. Qed.

Lemma exact_bit : Exact g_read_bit (fun a bs => exists b, a = Z.b2z b /\ bs = [b]).
Proof.
  split.
  - intros a bs (b & -> & ->). apply reads_bit.
  - intros g g' a W E. destruct (g_bits g) as [|b t] eqn:B; [rewrite (g_read_bit_nil g W B) in E; discriminate|].
    destruct (g_read_bit_cons g b t W B) as (g1 & R & W1 & B1). rewrite R in E. injection E as <- <-. split; [exact W1|]. exists [b]. rewrite B1. split; [reflexivity|]. eauto.
Qed.
Lemma some_bits (n : nat) (l : list bool) : (n <= length l)%nat -> exists v, 0 <= v < 2 ^ Z.of_nat n /\ firstn n l = be_bits n v.
Proof.
  intros L. exists (bits_value (firstn n l)). pose proof (bits_value_bound (firstn n l)) as Bd. unfold zlen in Bd. rewrite firstn_length_le in Bd by lia.
  split; [exact Bd|]. pose proof (be_bits_eq_bits (firstn n l)) as E. rewrite firstn_length_le in E by lia. now symmetry.
Qed.
Lemma exact_bits n : 0 <= n <= 64 -> Exact (g_read_bits n) (fun a bs => u_form (Z.to_nat n) a bs).
Proof.
  intros Hn. unfold u_form, u_ok. rewrite Z2Nat.id by lia. split.
  - intros a bs [Ha ->]. now apply reads_bits.
  - intros g g' a W E. destruct (Nat.le_gt_cases (Z.to_nat n) (length (g_bits g))) as [L|L].
    + destruct (some_bits _ _ L) as (v & Hv & Ef). rewrite Z2Nat.id in Hv by lia.
      destruct (reads_bits n v (Z.to_nat n) eq_refl Hn Hv g (skipn (Z.to_nat n) (g_bits g)) W) as (g1 & R & W1 & B1); [rewrite <- Ef; symmetry; apply firstn_skipn|].
      rewrite R in E. injection E as <- <-. split; [exact W1|]. exists (be_bits (Z.to_nat n) v). rewrite B1, <- Ef. split; [symmetry; apply firstn_skipn|auto].
    + destruct (g_read_bits_err n g _ W eq_refl L) as (g1 & R & _). rewrite R in E. discriminate.
Qed.
Lemma exact_bits32 n : 0 <= n <= 32 -> Exact (g_read_bits32 n) (fun a bs => u_form (Z.to_nat n) a bs).
Proof.
  intros Hn. unfold u_form, u_ok. rewrite Z2Nat.id by lia. split.
  - intros a bs [Ha ->]. pose proof (reads_bits32 n a (Z.to_nat n) eq_refl Hn) as R. now rewrite Z.mod_small in R by exact Ha.
  - intros g g' a W E. destruct (Nat.le_gt_cases (Z.to_nat n) (length (g_bits g))) as [L|L].
    + destruct (some_bits _ _ L) as (v & Hv & Ef). rewrite Z2Nat.id in Hv by lia.
      destruct (reads_bits32 n v (Z.to_nat n) eq_refl Hn g (skipn (Z.to_nat n) (g_bits g)) W) as (g1 & R & W1 & B1); [rewrite <- Ef; symmetry; apply firstn_skipn|].
      rewrite R in E. injection E as <- <-. rewrite Z.mod_small by exact Hv. split; [exact W1|]. exists (be_bits (Z.to_nat n) v). rewrite B1, <- Ef. split; [symmetry; apply firstn_skipn|auto].
    + destruct (g_read_bits32_loop_err (Z.to_nat n) g _ 0 W eq_refl L) as (g1 & R & _). unfold g_read_bits32 in E. rewrite R in E. discriminate.
Qed.
Lemma exact_bits64 n : 0 <= n <= 64 -> Exact (g_read_bits64 n) (fun a bs => u_form (Z.to_nat n) a bs).
Proof.
  intros Hn. unfold u_form, u_ok. rewrite Z2Nat.id by lia. split.
  - intros a bs [Ha ->]. pose proof (reads_bits64 n a (Z.to_nat n) eq_refl Hn) as R. now rewrite Z.mod_small in R by exact Ha.
  - intros g g' a W E. destruct (Nat.le_gt_cases (Z.to_nat n) (length (g_bits g))) as [L|L].
    + destruct (some_bits _ _ L) as (v & Hv & Ef). rewrite Z2Nat.id in Hv by lia.
      destruct (reads_bits64 n v (Z.to_nat n) eq_refl Hn g (skipn (Z.to_nat n) (g_bits g)) W) as (g1 & R & W1 & B1); [rewrite <- Ef; symmetry; apply firstn_skipn|].
      rewrite R in E. injection E as <- <-. rewrite Z.mod_small by exact Hv. split; [exact W1|]. exists (be_bits (Z.to_nat n) v). rewrite B1, <- Ef. split; [symmetry; apply firstn_skipn|auto].
    + destruct (g_read_bits64_loop_err (Z.to_nat n) g _ 0 W eq_refl L) as (g1 & R & _). unfold g_read_bits64 in E. rewrite R in E. discriminate.
Qed.

Lemma reads_ue_long x : length x = 32%nat -> Reads g_read_ue (repeat false 33 ++ x) (2 ^ 32 - 1 + bits_value x).
Proof.
  intros L g rest W H. rewrite <- app_assoc in H. unfold g_read_ue. destruct (g_zeros_max 32 100 0 g (x ++ rest)) as (g1 & R1 & W1 & B1); auto; try lia.
  unfold g_bind at 1. rewrite R1. change 32 with (Z.of_nat 32) at 1 2. destruct (g_read_ue_tail 32 g1 _ ltac:(lia) W1 B1) as [T _]. destruct T as (g' & R & W' & B'); [rewrite app_length; lia|].
  exists g'. change (Z.of_nat 32) with 32 in *. rewrite R. rewrite firstn_app, skipn_app, L, Nat.sub_diag in *. rewrite firstn_all2 by lia. rewrite skipn_all2 in B' by lia. cbn [firstn skipn app] in *. rewrite app_nil_r. auto.
Qed.
Lemma reads_ue_form v bs : ue_form v bs -> Reads g_read_ue bs v.
Proof.
  intros [[H ->]|[H ->]].
  - intros g rest W E. now apply (g_read_ue_code g v rest).
  - pose proof (reads_ue_long (u 32 (v - (2 ^ 32 - 1))) (be_bits_length _ _)) as R. unfold u in *. rewrite be_bits_value in R. change (Z.of_nat 32) with 32 in R.
    rewrite Z.mod_small in R by (change (2 ^ 32) with 4294967296 in *; change (2 ^ 33) with 8589934592 in *; lia). now replace (2 ^ 32 - 1 + (v - (2 ^ 32 - 1))) with v in R by lia.
Qed.
Lemma exact_ue : Exact g_read_ue ue_form.
Proof.
  split; [exact reads_ue_form|]. intros g g' a W E. destruct (g_read_ue_total g W) as (g1 & r & E1 & W1 & C). rewrite E in E1. injection E1 as <- <-. split; [exact W1|].
  destruct C as [(v & [= ->] & Hv & B)|[(v & x & [= ->] & -> & L & B)|([=] & _)]].
  - exists (ue_code v). split; [exact B|]. left. auto.
  - exists (repeat false 33 ++ x). rewrite <- app_assoc. split; [exact B|]. right. pose proof (bits_value_bound x) as Bd. unfold zlen in Bd. rewrite L in Bd. change (Z.of_nat 32) with 32 in Bd.
    split; [change (2 ^ 32) with 4294967296 in *; change (2 ^ 33) with 8589934592 in *; lia|]. replace (_ - _) with (bits_value x) by lia. f_equal. pose proof (be_bits_eq_bits x) as X. rewrite L in X. now rewrite <- X at 1.
Qed.
Lemma ue_bound v bs : ue_form v bs -> 0 <= v < 2 ^ 33 - 1.
Proof. intros [[H _]|[H _]]; change (2 ^ 32) with 4294967296 in *; change (2 ^ 33) with 8589934592 in *; lia. Qed.
(** ReadSE in terms of the signed number. *)
Definition se_of (k : Z) : Z := if Z.odd k then (k + 1) / 2 else - (k / 2).
Lemma se_of_form k bs : 0 <= k -> ue_form k bs <-> se_form (se_of k) bs.
Proof.
  intros H. unfold se_form, se_of. replace (if 0 <? _ then _ else _) with k; [tauto|].
  pose proof (Zdiv2_odd_eqn k) as E. rewrite Z.div2_div in E. destruct (Z.odd k).
  - assert ((k + 1) / 2 = k / 2 + 1) by (Z.div_mod_to_equations; lia). replace (0 <? (k + 1) / 2) with true by lia. lia.
  - replace (0 <? - (k / 2)) with false by lia. lia.
Qed.
Lemma exact_se : Exact g_read_se (fun a bs => exists v, a = se_value v /\ se_form v bs).
Proof.
  eapply exact_iff; [unfold g_read_se; apply exact_bind; [apply exact_ue|intros k; apply (exact_if _ _ _ _ _ (exact_ret _) (exact_ret _))]|].
  intros a bs. unfold andthen. cbn beta.
  assert (V : forall k, 0 <= k < 2 ^ 33 - 1 -> (if negb (Z.land k 1 =? 0) then u64 (k + 1) / 2 else u64 (- k) / 2) = se_value (se_of k)).
  { intros k H. rewrite land1_odd. unfold se_of, se_value, u64. change (2 ^ 33) with 8589934592 in H. change (2 ^ 63) with 9223372036854775808. change (2 ^ 64) with 18446744073709551616.
    pose proof (Zdiv2_odd_eqn k) as E. rewrite Z.div2_div in E. destruct (Z.odd k).
    - rewrite Z.mod_small by lia. replace (0 <=? (k + 1) / 2) with true; [reflexivity|]. symmetry. apply Z.leb_le. apply Z.div_pos; lia.
    - destruct (0 <=? - (k / 2)) eqn:X; Z.div_mod_to_equations; lia. }
  split.
  - intros (k & b1 & b2 & -> & F & R). pose proof (ue_bound _ _ F) as Bk. specialize (V k Bk). exists (se_of k).
    destruct (negb (Z.land k 1 =? 0)); destruct R as [-> ->]; rewrite app_nil_r; (split; [exact V|]); (apply (proj1 (se_of_form k b1 (proj1 Bk))); exact F).
  - intros (v & -> & F). unfold se_form in F. pose proof (ue_bound _ _ F) as Bk. set (k := if 0 <? v then 2 * v - 1 else - 2 * v) in *.
    exists k, bs, []. rewrite app_nil_r. split; [reflexivity|]. split; [exact F|]. specialize (V k Bk).
    assert (S : se_of k = v).
    { unfold se_of, k. destruct (0 <? v) eqn:Ev.
      - replace (Z.odd (2 * v - 1)) with true by (replace (2 * v - 1) with (1 + 2 * (v - 1)) by lia; now rewrite Z.odd_add_mul_2). replace (2 * v - 1 + 1) with (v * 2) by lia. apply Z.div_mul. lia.
      - replace (Z.odd (- 2 * v)) with false by (replace (- 2 * v) with (0 + 2 * (- v)) by lia; now rewrite Z.odd_add_mul_2). replace (- 2 * v) with (- v * 2) by lia. rewrite Z.div_mul by lia. lia. }
    rewrite S in V. destruct (negb (Z.land k 1 =? 0)); auto.
Qed.

(** ** Chains of elements *)
(** The set of strings of a model piece that returns nothing. *)
Definition quiet (f : form) : unit -> form := fun _ => f.
Lemma exact_quiet m F : Exact m F -> Exact m (quiet (F tt)).
Proof. intros H. eapply exact_iff; [exact H|]. now intros []. Qed.
Lemma seq_cons f t bs : seq (f :: t) bs <-> exists a b, bs = a ++ b /\ f a /\ seq t b.
Proof. reflexivity. Qed.
Lemma seq_one f bs : seq [f] bs <-> f bs.
Proof.
  cbn. unfold is. split.
  - intros (a & b & -> & H & ->). now rewrite app_nil_r.
  - intros H. exists bs, []. now rewrite app_nil_r.
Qed.
Lemma seq_in (f : form) bs : f bs -> seq [f] bs.
Proof. exact (proj2 (seq_one f bs)). Qed.
Lemma seq_out f bs : seq [f] bs -> f bs.
Proof. exact (proj1 (seq_one f bs)). Qed.
Lemma one_bit bs : any_form 1 bs <-> exists b, bs = [b].
Proof.
  unfold any_form. split; [|now intros (b & ->)]. destruct bs as [|b [|]]; try discriminate. eauto.
Qed.
Lemma any_u n bs : any_form n bs <-> exists v, u_form n v bs.
Proof.
  unfold any_form, u_form, u_ok. split.
  - intros <-. destruct (some_bits (length bs) bs (le_n _)) as (v & Hv & E). rewrite firstn_all in E. exists v. auto.
  - intros (v & _ & ->). apply be_bits_length.
Qed.
(** Read an element and forget it. *)
Lemma exact_skip {A B} (m : G A) (F : A -> form) (f : form) (k : G B) K : Exact m F -> (forall bs, f bs <-> exists a, F a bs) -> Exact k K ->
  Exact (g_bind m (fun _ => k)) (fun b bs => exists x y, bs = x ++ y /\ f x /\ K b y).
Proof.
  intros M H Hk. eapply exact_iff; [exact (exact_bind m (fun _ => k) F (fun _ => K) M (fun _ => Hk))|]. intros b bs. unfold andthen. split.
  - intros (a & x & y & -> & E & Ek). exists x, y. split; [reflexivity|]. split; [apply H; eauto|exact Ek].
  - intros (x & y & -> & E & Ek). apply H in E as (a & E). exists a, x, y. auto.
Qed.
Lemma exact_nil : Exact (g_ret tt) (quiet (is [])).
Proof. eapply exact_iff; [apply exact_ret|]. intros []. unfold quiet, is. tauto. Qed.
Lemma se_any bs : a_code bs <-> exists a, exists v, a = se_value v /\ se_form v bs.
Proof.
  unfold a_code. split.
  - intros (k & F). pose proof (ue_bound _ _ F) as Bk. exists (se_value (se_of k)), (se_of k). split; [reflexivity|]. exact (proj1 (se_of_form k bs (proj1 Bk)) F).
  - intros (a & v & _ & F). eexists. exact F.
Qed.
Lemma bit_any bs : any_form 1 bs <-> exists a b, a = Z.b2z b /\ bs = [b].
Proof. rewrite one_bit. split; [intros (b & ->); eauto|intros (a & b & _ & ->); eauto]. Qed.
(** Skipping one element in front of a chain. *)
Lemma skip_bit (k : G unit) l : Exact k (quiet (seq l)) -> Exact (g_read_bit ;;; k) (quiet (seq (any_form 1 :: l))).
Proof. intros H. exact (exact_skip _ _ _ _ _ exact_bit bit_any H). Qed.
Lemma skip_ue (k : G unit) l : Exact k (quiet (seq l)) -> Exact (g_read_ue ;;; k) (quiet (seq (a_code :: l))).
Proof. intros H. refine (exact_skip _ _ _ _ _ exact_ue _ H). reflexivity. Qed.
Lemma skip_se (k : G unit) l : Exact k (quiet (seq l)) -> Exact (g_read_se ;;; k) (quiet (seq (a_code :: l))).
Proof. intros H. exact (exact_skip _ _ _ _ _ exact_se se_any H). Qed.
Lemma skip_bits n (k : G unit) l : 0 <= n <= 64 -> Exact k (quiet (seq l)) -> Exact (g_read_bits n ;;; k) (quiet (seq (any_form (Z.to_nat n) :: l))).
Proof. intros Hn H. exact (exact_skip _ _ _ _ _ (exact_bits n Hn) (any_u _) H). Qed.
Lemma skip_bits32 n (k : G unit) l : 0 <= n <= 32 -> Exact k (quiet (seq l)) -> Exact (g_read_bits32 n ;;; k) (quiet (seq (any_form (Z.to_nat n) :: l))).
Proof. intros Hn H. exact (exact_skip _ _ _ _ _ (exact_bits32 n Hn) (any_u _) H). Qed.
Lemma skip_part (m k : G unit) f l : Exact m (quiet f) -> Exact k (quiet (seq l)) -> Exact (m ;;; k) (quiet (seq (f :: l))).
Proof. intros Hm H. refine (exact_skip _ _ f _ _ Hm _ H). intros bs. unfold quiet. split; [intros F; exists tt; exact F|intros (_ & F); exact F]. Qed.
Lemma exact_form m f f' : Exact m (quiet f) -> (forall bs, f bs <-> f' bs) -> Exact m (quiet f').
Proof. intros H E. eapply exact_iff; [exact H|]. intros []. exact E. Qed.
Lemma exact_if_form (b : bool) (m n : G unit) f g : Exact m (quiet f) -> Exact n (quiet g) -> Exact (if b then m else n) (quiet (if b then f else g)).
Proof. destruct b; auto. Qed.
(** A flag and the part it announces. *)
Lemma maybe_part (r : G Z) (m : G unit) f : Exact r (fun a bs => exists b, a = Z.b2z b /\ bs = [b]) -> Exact m (quiet f) ->
  Exact (x <== r ;;; if negb (x =? 0) then m else g_ret tt) (quiet (maybe f)).
Proof.
  intros R M. eapply exact_iff; [apply exact_bind; [exact R|intros x; apply exact_if_form; [exact M|apply exact_nil]]|]. intros [] bs. unfold andthen, quiet, maybe. split.
  - intros (a & x & y & -> & (b & -> & ->) & F). destruct b; cbn in F; [right; exists [true], y; split; [reflexivity|]; split; [reflexivity|now apply seq_in]|left; now rewrite F].
  - intros [->|(x & y & -> & -> & F)]; [exists 0, [false], []; repeat split; now exists false|]. apply seq_out in F. exists 1, [true], y. split; [reflexivity|]. split; [now exists true|]. exact F.
Qed.

(** [m] returns [P w] exactly by consuming the chain [l w], for some [w]. *)
Definition Parse {A W} (m : G A) (P : W -> A) (l : W -> list form) : Prop := Exact m (fun s bs => exists w, s = P w /\ seq (l w) bs).
Lemma parse_ret {A} (a : A) : Parse (g_ret a) (fun _ : unit => a) (fun _ => []).
Proof.
  eapply exact_iff; [apply exact_ret|]. intros x bs. cbn. unfold is. split; [intros [-> ->]; now exists tt|]. intros (_ & H). exact H.
Qed.
Lemma parse_step {A B U W} (m : G A) (k : A -> G B) (v : U -> A) (F : U -> form) (P : U -> W -> B) (l : U -> W -> list form) :
  Exact m (fun a bs => exists u, a = v u /\ F u bs) -> (forall u, Parse (k (v u)) (P u) (l u)) ->
  Parse (g_bind m k) (fun w : U * W => P (fst w) (snd w)) (fun w => F (fst w) :: l (fst w) (snd w)).
Proof.
  intros [M1 M2] H. split.
  - intros b bs ((x & w) & -> & a & c & -> & Fa & L). cbn [fst snd] in *. apply (reads_bind m k a c (v x)); [apply M1; eauto|]. apply (H x). eauto.
  - intros g g' b W0 E. unfold g_bind in E. destruct (m g) as [g1 [a| | |]] eqn:E1; try discriminate. destruct (M2 g g1 a W0 E1) as (W1 & b1 & B1 & x & -> & F1).
    destruct (proj2 (H x) g1 g' b W1 E) as (W' & b2 & B2 & w & -> & F2). split; [exact W'|]. exists (b1 ++ b2). rewrite B1, B2, app_assoc. split; [reflexivity|]. exists (x, w). cbn [fst snd]. split; [reflexivity|]. exists b1, b2. auto.
Qed.
Lemma parse_skip {A B W} (m : G A) (k : G B) (F : A -> form) f (P : W -> B) l :
  Exact m F -> (forall bs, f bs <-> exists a, F a bs) -> Parse k P l -> Parse (m ;;; k) P (fun w => f :: l w).
Proof.
  intros M E H. eapply exact_iff; [exact (exact_skip m F f k _ M E H)|]. intros b bs. split.
  - intros (x & y & -> & Fx & w & -> & L). exists w. split; [reflexivity|]. exists x, y. auto.
  - intros (w & -> & x & y & -> & Fx & L). exists x, y. eauto.
Qed.
Lemma exact_id {A} (m : G A) F : Exact m F -> Exact m (fun a bs => exists u, a = u /\ F u bs).
Proof. intros H. eapply exact_iff; [exact H|]. intros a bs. split; [eauto|now intros (x & -> & E)]. Qed.
Lemma parse_part {B W} (m : G unit) (k : G B) f (P : W -> B) l : Exact m (quiet f) -> Parse k P l -> Parse (m ;;; k) P (fun w => f :: l w).
Proof. intros M H. apply (parse_skip m k _ f P l M); [|exact H]. intros bs. unfold quiet. split; [intros F; exists tt; exact F|intros (_ & F); exact F]. Qed.
Lemma parse_ue {B W} (k : Z -> G B) (P : Z -> W -> B) l : (forall v, Parse (k v) (P v) (l v)) ->
  Parse (g_bind g_read_ue k) (fun w : Z * W => P (fst w) (snd w)) (fun w => ue_form (fst w) :: l (fst w) (snd w)).
Proof. intros H. exact (parse_step g_read_ue k (fun v => v) ue_form P l (exact_id _ _ exact_ue) H). Qed.
Lemma parse_bits n {B W} (k : Z -> G B) (P : Z -> W -> B) l : 0 <= n <= 64 -> (forall v, Parse (k v) (P v) (l v)) ->
  Parse (g_bind (g_read_bits n) k) (fun w : Z * W => P (fst w) (snd w)) (fun w => u_form (Z.to_nat n) (fst w) :: l (fst w) (snd w)).
Proof. intros Hn H. exact (parse_step (g_read_bits n) k (fun v => v) (u_form (Z.to_nat n)) P l (exact_id _ _ (exact_bits n Hn)) H). Qed.
Lemma parse_bit {B W} (k : Z -> G B) (P : bool -> W -> B) l : (forall b, Parse (k (Z.b2z b)) (P b) (l b)) ->
  Parse (g_bind g_read_bit k) (fun w : bool * W => P (fst w) (snd w)) (fun w => is [fst w] :: l (fst w) (snd w)).
Proof. intros H. exact (parse_step g_read_bit k Z.b2z (fun b => is [b]) P l exact_bit H). Qed.
Lemma parse_skip_bit {B W} (k : G B) (P : W -> B) l : Parse k P l -> Parse (g_read_bit ;;; k) P (fun w => any_form 1 :: l w).
Proof. intros H. exact (parse_skip _ _ _ _ P l exact_bit bit_any H). Qed.
Lemma parse_skip_ue {B W} (k : G B) (P : W -> B) l : Parse k P l -> Parse (g_read_ue ;;; k) P (fun w => a_code :: l w).
Proof. intros H. refine (parse_skip _ _ _ _ P l exact_ue _ H). reflexivity. Qed.
Lemma parse_skip_bits n {B W} (k : G B) (P : W -> B) l : 0 <= n <= 64 -> Parse k P l -> Parse (g_read_bits n ;;; k) P (fun w => any_form (Z.to_nat n) :: l w).
Proof. intros Hn H. exact (parse_skip _ _ _ _ P l (exact_bits n Hn) (any_u _) H). Qed.
Lemma exact_ext {A} (m m' : G A) F : (forall g, m' g = m g) -> Exact m F -> Exact m' F.
Proof.
  intros E [M1 M2]. split.
  - intros a bs H g rest W B. rewrite E. exact (M1 a bs H g rest W B).
  - intros g g' a W R. rewrite E in R. exact (M2 g g' a W R).
Qed.
Lemma g_bind_assoc {A B C} (m : G A) (f : A -> G B) (k : B -> G C) g : g_bind m (fun a => g_bind (f a) k) g = g_bind (g_bind m f) k g.
Proof. unfold g_bind. now destruct (m g) as [g1 [a| | |]]. Qed.
(** A flag, the part it announces, and what follows. *)
Lemma parse_maybe {B W} (m : G unit) (k : G B) f (P : W -> B) l : Exact m (quiet f) -> Parse k P l ->
  Parse (x <== g_read_bit ;;; (if negb (x =? 0) then m else g_ret tt) ;;; k) P (fun w => maybe f :: l w).
Proof.
  intros M H. refine (exact_ext _ _ _ (g_bind_assoc _ _ _) _). apply parse_part; [|exact H]. apply maybe_part; [exact exact_bit|exact M].
Qed.
Lemma parse_last (m : G unit) f : Exact m (quiet f) -> Parse m (fun _ : unit => tt) (fun _ => [f]).
Proof.
  intros H. eapply exact_iff; [exact H|]. intros [] bs. unfold quiet. split; [intros F; exists tt; split; [reflexivity|]; now apply seq_in|intros (_ & _ & F); now apply seq_out in F].
Qed.
Lemma parse_quiet {W} (m : G unit) (P : W -> unit) l : Parse m P l -> Exact m (quiet (fun bs => exists w, seq (l w) bs)).
Proof.
  intros H. eapply exact_iff; [exact H|]. intros [] bs. unfold quiet. split; [intros (w & _ & F); eauto|]. intros (w & F). exists w. split; [now destruct (P w)|exact F].
Qed.
Lemma parse_unit (m : G unit) (P : unit -> unit) l : Parse m P (fun _ => l) -> Exact m (quiet (seq l)).
Proof.
  intros H. eapply exact_form; [exact (parse_quiet m P _ H)|]. intros bs. split; [now intros (_ & F)|intros F; now exists tt].
Qed.
Lemma bit_only b : (if Z.b2z b =? 0 then false else true) = b.
Proof. now destruct b. Qed.
Lemma negb_b2z b : negb (Z.b2z b =? 0) = b.
Proof. now destruct b. Qed.

(** Read a value and go on with it. *)
Lemma with_value {A} (m : G A) (F : A -> form) (k : A -> G unit) f : Exact m F -> (forall a, Exact (k a) (quiet (f a))) ->
  Exact (g_bind m k) (quiet (fun bs => exists a, seq [F a; f a] bs)).
Proof.
  intros M H. eapply exact_iff; [apply exact_bind; [exact M|exact H]|]. intros [] bs. unfold andthen, quiet. split.
  - intros (a & x & y & -> & Fa & E). exists a, x, y. split; [reflexivity|]. split; [exact Fa|]. now apply seq_in.
  - intros (a & x & y & -> & Fa & E). apply seq_out in E. exists a, x, y. auto.
Qed.
Lemma seq_app_form l m bs : seq (l ++ m) bs <-> exists a b, bs = a ++ b /\ seq l a /\ seq m b.
Proof.
  revert bs. induction l as [|f l IH]; intros bs.
  - cbn [app seq is]. unfold is. split; [intros H; exists [], bs; auto|intros (a & b & -> & -> & H); exact H].
  - cbn [app]. rewrite seq_cons. split.
    + intros (a & b & -> & Fa & H). apply IH in H as (c & e & -> & H1 & H2). exists (a ++ c), e. rewrite app_assoc. split; [reflexivity|]. split; [exists a, c; auto|exact H2].
    + intros (a & b & -> & (c & e & -> & Fc & H1) & H2). exists c, (e ++ b). rewrite <- app_assoc. split; [reflexivity|]. split; [exact Fc|]. apply IH. exists e, b. auto.
Qed.
Lemma seq_nest l m bs : seq (seq l :: m) bs <-> seq (l ++ m) bs.
Proof. rewrite seq_app_form, seq_cons. reflexivity. Qed.

(** ** H.264 *)
Lemma se_value_mod d x : u64 (u64 (x + se_value d) + 256) mod 256 = (x + d + 256) mod 256.
Proof.
  unfold u64. assert (M : forall y, (y mod 2 ^ 64) mod 256 = y mod 256).
  { intros y. change (2 ^ 64) with (256 * 72057594037927936). rewrite Z.rem_mul_r by lia. rewrite Z.mul_comm, Z.mod_add, Z.mod_mod by lia. reflexivity. }
  rewrite M, <- Zplus_mod_idemp_l, M, Zplus_mod_idemp_l. unfold se_value. destruct (0 <=? d); [reflexivity|].
  replace (x + (2 ^ 63 + d) + 256) with (x + d + 256 + 36028797018963968 * 256) by lia. now rewrite Z.mod_add by lia.
Qed.
Lemma exact_scaling n : forall last next, Exact (avc_scaling_list n last next) (quiet (deltas_form n last next)).
Proof.
  induction n as [|n IH]; intros last next; cbn [avc_scaling_list deltas_form]; [apply exact_nil|].
  destruct (next =? 0) eqn:E; cbn [negb].
  - eapply exact_iff; [exact (exact_bind (g_ret next) _ _ _ (exact_ret next) (fun nx => IH _ _))|]. intros [] bs. unfold andthen, quiet. split.
    + intros (a & x & y & -> & (-> & ->) & H). cbn [app]. now rewrite E in H.
    + intros H. exists next, [], bs. split; [reflexivity|]. split; [auto|]. now rewrite E.
  - eapply exact_iff.
    { apply exact_bind; [apply exact_bind; [apply exact_se|intros d; apply exact_ret]|intros nx; apply IH]. }
    intros [] bs. unfold andthen, quiet. split.
    + intros (nx & x & y & -> & (a & x1 & x2 & -> & (d & -> & F) & (-> & ->)) & H). rewrite app_nil_r. exists d, x1, y. split; [reflexivity|]. split; [exact F|]. apply seq_in.
      rewrite se_value_mod in H. now destruct ((last + d + 256) mod 256 =? 0); cbn [negb] in H.
    + intros (d & x & y & -> & F & H). apply seq_out in H. exists ((last + d + 256) mod 256), x, y. split; [reflexivity|]. split.
      * exists (se_value d), x, []. rewrite app_nil_r, se_value_mod. split; [reflexivity|]. split; [exists d; auto|auto].
      * now destruct ((last + d + 256) mod 256 =? 0); cbn [negb].
Qed.
Lemma exact_scalings n : forall i : nat, Exact (avc_scaling_lists n (Z.of_nat i)) (quiet (scalings_form n i)).
Proof.
  induction n as [|n IH]; intros i; cbn [avc_scaling_lists scalings_form]; [apply exact_nil|].
  replace (Z.of_nat i + 1) with (Z.of_nat (S i)) by lia. replace (if Z.of_nat i <? 6 then 16%nat else 64%nat) with (scaling_size i).
  2:{ unfold scaling_size. destruct (Nat.ltb_spec i 6), (Z.ltb_spec (Z.of_nat i) 6); auto; lia. }
  apply (parse_unit _ (fun _ => tt)). apply parse_maybe; [apply exact_scaling|]. apply parse_last, IH.
Qed.
Lemma exact_opt_bit (b : bool) : Exact (if b then g_read_bit ;;; g_ret tt else g_ret tt) (quiet (if b then any_form 1 else is [])).
Proof. apply exact_if_form; [|apply exact_nil]. eapply exact_form; [apply skip_bit, (exact_nil : Exact _ (quiet (seq [])))|]. apply seq_one. Qed.
Lemma exact_high : Exact avc_sps_high (quiet (high_form (fun _ => 8%nat))).
Proof.
  unfold avc_sps_high. eapply exact_form.
  - eapply parse_quiet. eapply parse_ue. intros c. eapply (parse_part _ _ (if c =? 3 then any_form 1 else is [])); [apply exact_opt_bit|]. eapply parse_skip_ue, parse_skip_ue, parse_skip_bit.
    apply parse_last, maybe_part; [exact exact_bit|apply (exact_scalings 8 0)].
  - intros bs. cbn beta. split; [intros ((c & w) & F); exists c; exact F|intros (c & F); exists (c, tt); exact F].
Qed.

(** The loop over the offsets of the picture order count. *)
Lemma exact_cycle_loop fuel : forall i n, Exact (avc_cycle_loop fuel i n) (quiet (fun bs => codes_form (Z.to_nat (n - i)) bs /\ (Z.to_nat (n - i) <= fuel)%nat)).
Proof.
  induction fuel as [|fuel IH]; intros i n; cbn [avc_cycle_loop]; destruct (i <? n) eqn:E.
  - split; [intros [] bs [_ H]; lia|intros g g' a W H; discriminate].
  - eapply exact_form; [apply exact_nil|]. intros bs. replace (Z.to_nat (n - i)) with O by lia. cbn. split; [auto|tauto].
  - eapply exact_iff; [exact (exact_skip _ _ _ _ _ exact_se se_any (IH (i + 1) n))|]. intros [] bs. replace (Z.to_nat (n - i)) with (S (Z.to_nat (n - (i + 1)))) by lia. unfold quiet. cbn [codes_form]. split.
    + intros (x & y & -> & C & F & L). split; [|lia]. exists x, y. split; [reflexivity|]. split; [exact C|now apply seq_in].
    + intros [(x & y & -> & C & F) L]. apply seq_out in F. exists x, y. split; [reflexivity|]. split; [exact C|]. split; [exact F|lia].
  - eapply exact_form; [apply exact_nil|]. intros bs. replace (Z.to_nat (n - i)) with O by lia. cbn. split; [intros ->; split; [reflexivity|lia]|tauto].
Qed.
Lemma code_length bs : a_code bs -> (1 <= length bs)%nat.
Proof.
  intros (v & [[_ ->]|[_ ->]]); [|rewrite app_length, repeat_length; lia]. unfold ue_code. cbv zeta. rewrite app_length, be_bits_length. lia.
Qed.
Lemma codes_length n : forall bs, codes_form n bs -> (n <= length bs)%nat.
Proof.
  induction n as [|n IH]; intros bs H; [lia|]. destruct H as (x & y & -> & C & F). apply seq_out, IH in F. apply code_length in C. rewrite app_length. lia.
Qed.
Lemma exact_cycle n : Exact (avc_sps_cycle n) (quiet (codes_form (Z.to_nat n))).
Proof.
  split.
  - intros [] bs F g rest W B. unfold avc_sps_cycle. apply (proj1 (exact_cycle_loop _ 0 n) tt bs); [|exact W|exact B]. unfold quiet in *. rewrite Z.sub_0_r. split; [exact F|].
    apply codes_length in F. rewrite <- g_bits_length by exact W. rewrite B, app_length. lia.
  - intros g g' a W E. unfold avc_sps_cycle in E. destruct (proj2 (exact_cycle_loop _ 0 n) g g' a W E) as (W' & bs & B & F & _). rewrite Z.sub_0_r in F. eauto.
Qed.
Lemma exact_poc : Exact avc_sps_poc (quiet poc_form).
Proof.
  unfold avc_sps_poc. eapply exact_form.
  - eapply parse_quiet. eapply parse_ue. intros t.
    instantiate (1 := fun t n => [if t =? 0 then a_code else if t =? 1 then seq [any_form 1; a_code; a_code; ue_form n; codes_form (Z.to_nat n)] else is []]).
    instantiate (1 := fun _ _ => tt). cbn beta.
    eapply exact_iff; [apply exact_if; [apply (skip_ue _ [] exact_nil)|apply exact_if; [|apply exact_nil]]|].
    + eapply parse_quiet. eapply parse_skip_bit. eapply (parse_skip _ _ _ _ _ _ exact_se se_any), (parse_skip _ _ _ _ _ _ exact_se se_any). eapply parse_ue. intros n. apply parse_last, exact_cycle.
    + intros [] bs. cbn beta. unfold quiet. destruct (t =? 0).
      * rewrite seq_one. split; [intros F; exists 0; split; [reflexivity|now apply seq_in]|intros (_ & _ & F); now apply seq_out in F].
      * destruct (t =? 1).
        -- split; [intros ((n & w) & F); exists n; split; [reflexivity|now apply seq_in]|intros (n & _ & F); apply seq_out in F; now exists (n, tt)].
        -- split; [intros F; exists 0; split; [reflexivity|now apply seq_in]|intros (_ & _ & F); now apply seq_out in F].
  - intros bs. cbn beta. unfold poc_form. split.
    + intros ((t & n) & x & y & -> & T & F). cbn [fst snd] in *. apply seq_out in F. pose proof (ue_bound _ _ T) as Bt. destruct (t =? 0) eqn:E0; [|destruct (t =? 1) eqn:E1].
      * left. replace t with 0 in T by lia. exists x, y. split; [reflexivity|]. split; [exact T|now apply seq_in].
      * right. left. replace t with 1 in T by lia. destruct F as (b & z & -> & Fb & c1 & z1 & -> & F1 & c2 & z2 & -> & F2 & c3 & z3 & -> & F3 & F4). pose proof (ue_bound _ _ F3) as Bn.
        exists (Z.to_nat n), x, (b ++ c1 ++ c2 ++ c3 ++ z3). split; [reflexivity|]. split; [exact T|]. rewrite Z2Nat.id by lia.
        exists b, (c1 ++ c2 ++ c3 ++ z3). split; [reflexivity|]. split; [exact Fb|]. exists c1, (c2 ++ c3 ++ z3). split; [reflexivity|]. split; [exact F1|]. exists c2, (c3 ++ z3). split; [reflexivity|]. split; [exact F2|]. exists c3, z3. auto.
      * right. right. exists t. cbn in F. unfold is in F. subst y. rewrite app_nil_r. split; [lia|exact T].
    + intros [(x & y & -> & T & F)|[(n & x & y & -> & T & F)|(t & Bt & T)]].
      * exists (0, 0), x, y. auto.
      * exists (1, Z.of_nat n), x, y. split; [reflexivity|]. split; [exact T|]. apply seq_in. cbn [fst snd]. rewrite Nat2Z.id. exact F.
      * exists (t, 0), bs, []. rewrite app_nil_r. split; [reflexivity|]. split; [exact T|]. apply seq_in. cbn [fst snd]. replace (t =? 0) with false by lia. replace (t =? 1) with false by lia. reflexivity.
Qed.

(** A flag and the part it announces, with a value. *)
Lemma exact_opt {A U} (m : G A) (v : U -> A) (F : U -> form) d : Exact m (fun a bs => exists u, a = v u /\ F u bs) ->
  Exact (x <== g_read_bit ;;; if negb (x =? 0) then m else g_ret d) (fun a bs => exists o, a = (match o with Some u => v u | None => d end) /\ opt_form F o bs).
Proof.
  intros M. eapply exact_iff; [apply exact_bind; [exact exact_bit|intros x; apply exact_if; [exact M|apply exact_ret]]|]. intros a bs. unfold andthen. split.
  - intros (z & x & y & -> & (b & -> & ->) & H). destruct b; cbn in H.
    + destruct H as (u0 & -> & Fu). exists (Some u0). split; [reflexivity|]. exists [true], y. split; [reflexivity|]. split; [reflexivity|now apply seq_in].
    + destruct H as [-> ->]. exists None. split; reflexivity.
  - intros ([u0|] & -> & H).
    + destruct H as (x & y & -> & -> & H). apply seq_out in H. exists 1, [true], y. split; [reflexivity|]. split; [now exists true|]. cbn. eauto.
    + unfold opt_form, is in H. subst bs. exists 0, [false], []. split; [reflexivity|]. split; [now exists false|]. cbn. auto.
Qed.
Lemma parse_end {A U} (m : G A) (v : U -> A) (F : U -> form) : Exact m (fun a bs => exists u, a = v u /\ F u bs) -> Parse m v (fun u => [F u]).
Proof.
  intros H. eapply exact_iff; [exact H|]. intros a bs. split; intros (x & E & Fx); exists x; (split; [exact E|]); [now apply seq_in|now apply seq_out in Fx].
Qed.
Lemma parse_exact {A W U} (m : G A) (P : W -> A) l (v : U -> A) (F : U -> form) : Parse m P l ->
  (forall w bs, seq (l w) bs -> exists u, P w = v u /\ F u bs) -> (forall u bs, F u bs -> exists w, v u = P w /\ seq (l w) bs) -> Exact m (fun a bs => exists u, a = v u /\ F u bs).
Proof.
  intros H H1 H2. eapply exact_iff; [exact H|]. intros a bs. split.
  - intros (w & -> & L). exact (H1 w bs L).
  - intros (x & -> & L). exact (H2 x bs L).
Qed.
Definition crop_value (o : option (Z * Z * Z * Z)) : Z * Z * Z * Z := match o with Some c => c | None => (0, 0, 0, 0) end.
Lemma exact_crop : Exact avc_sps_crop (fun a bs => exists o, a = crop_value o /\ opt_form crop_form o bs).
Proof.
  apply (exact_opt _ (fun c => c)). eapply parse_exact.
  - eapply parse_ue. intros l. eapply parse_ue. intros r. eapply parse_ue. intros t. eapply parse_ue. intros b. apply parse_ret.
  - intros (l & r & t & b & []) bs F. exists (l, r, t, b). split; [reflexivity|exact F].
  - intros [[[l r] t] b] bs F. exists (l, (r, (t, (b, tt)))). split; [reflexivity|exact F].
Qed.
(** The bit read without looking at the error. *)
Lemma exact_lax {A} (k : Z -> G A) F : Exact (g_bind g_read_bit k) F -> (forall g, g_wf g -> g_bits g = [] -> snd (k 0 g) = Err) -> Exact (g_bind g_read_bit_lax k) F.
Proof.
  intros [M1 M2] H. split.
  - intros a bs Fa g rest W B. destruct (M1 a bs Fa g rest W B) as (g' & E & R). exists g'. split; [|exact R]. unfold g_bind, g_read_bit_lax in *. destruct (g_read_bit g) as [g1 [x| | |]]; try discriminate. exact E.
  - intros g g' a W E. destruct (g_bits g) as [|b t] eqn:B.
    + unfold g_bind, g_read_bit_lax in E. rewrite (g_read_bit_nil g W B) in E. specialize (H g W B). rewrite E in H. discriminate.
    + rewrite <- B. apply M2; [exact W|]. destruct (g_read_bit_cons g b t W B) as (g1 & R & _ & _). unfold g_bind, g_read_bit_lax in *. rewrite R in *. exact E.
Qed.
Lemma exact_aspect : Exact (idc <== g_read_bits 8 ;;; if idc =? 255 then g_read_bits 16 ;;; g_read_bits 16 ;;; g_ret tt else g_ret tt) (quiet aspect_form).
Proof.
  eapply exact_form.
  - eapply parse_quiet. apply (parse_bits 8 _ (fun _ _ => tt) (fun idc (_ : unit) => [if idc =? 255 then any_form 32 else is []])); [lia|]. intros idc. apply parse_last. apply exact_if_form; [|apply exact_nil].
    eapply exact_form; [apply (skip_bits 16); [lia|]; apply (skip_bits 16 _ [] ltac:(lia) exact_nil)|]. intros bs. split.
    + intros (x & y & -> & X & F). apply seq_out in F. unfold any_form in *. rewrite app_length. change (Z.to_nat 16) with 16%nat in *. lia.
    + intros L. exists (firstn 16 bs), (skipn 16 bs). split; [symmetry; apply firstn_skipn|]. unfold any_form in *. split; [rewrite firstn_length; change (Z.to_nat 16) with 16%nat; lia|]. apply seq_in. unfold any_form. rewrite skipn_length. change (Z.to_nat 16) with 16%nat. lia.
  - intros bs. split; [intros ((idc & w) & F); exists idc; exact F|intros (idc & F); exists (idc, tt); exact F].
Qed.
Lemma any_split a b bs : any_form (a + b) bs <-> exists x y, bs = x ++ y /\ any_form a x /\ any_form b y.
Proof.
  unfold any_form. split.
  - intros L. exists (firstn a bs), (skipn a bs). rewrite firstn_skipn, firstn_length, skipn_length. split; [reflexivity|]. lia.
  - intros (x & y & -> & X & Y). rewrite app_length. lia.
Qed.
Lemma seq_any a b l bs : seq (any_form a :: any_form b :: l) bs <-> seq (any_form (a + b) :: l) bs.
Proof.
  split.
  - intros (x & y & -> & X & x2 & y2 & -> & X2 & L). exists (x ++ x2), y2. rewrite app_assoc. split; [reflexivity|]. split; [|exact L]. apply any_split. exists x, x2. auto.
  - intros (x & y & -> & X & L). apply any_split in X as (x1 & x2 & -> & X1 & X2). exists x1, (x2 ++ y). rewrite app_assoc. split; [reflexivity|]. split; [exact X1|]. exists x2, y. auto.
Qed.
Lemma exact_signal : Exact (g_read_bits 3 ;;; g_read_bit ;;; colour <== g_read_bit ;;; if negb (colour =? 0) then g_read_bits 8 ;;; g_read_bits 8 ;;; g_read_bits 8 ;;; g_ret tt else g_ret tt) (quiet signal_form).
Proof.
  unfold signal_form. change 4%nat with (3 + 1)%nat. eapply exact_form; [|intros bs; apply (seq_any 3 1)].
  apply (skip_bits 3); [lia|]. apply skip_bit. apply (parse_unit _ (fun _ => tt)), parse_last, maybe_part; [exact exact_bit|].
  eapply exact_form; [apply (skip_bits 8); [lia|]; apply (skip_bits 8); [lia|]; apply (skip_bits 8 _ [] ltac:(lia) exact_nil)|]. intros bs. rewrite (seq_any 8 8), (seq_any 16 8). apply seq_one.
Qed.
Definition timing_value (t : option (Z * Z * bool)) : option (option Z) := match t with Some (n, s, _) => Some (sps_fps s n) | None => None end.
Lemma exact_timing : Exact (timing <== g_read_bit ;;; if negb (timing =? 0) then units <== g_read_bits 32 ;;; scale <== g_read_bits 32 ;;; g_read_bit ;;; g_ret (Some (sps_fps scale units)) else g_ret None)
  (fun a bs => exists t, a = timing_value t /\ opt_form timing_form t bs).
Proof.
  eapply exact_iff.
  - apply (exact_opt _ (fun t : Z * Z * bool => Some (sps_fps (snd (fst t)) (fst (fst t)))) timing_form). eapply parse_exact.
    + eapply (parse_bits 32); [lia|]. intros n. eapply (parse_bits 32); [lia|]. intros s. eapply (parse_bit (fun _ => g_ret (Some (sps_fps s n)))). intros b. apply parse_ret.
    + intros (n & s & b & []) bs F. exists (n, s, b). split; [reflexivity|exact F].
    + intros [[n s] b] bs F. exists (n, (s, (b, tt))). split; [reflexivity|exact F].
  - intros a bs. split; intros (o & -> & F); exists o; (split; [|exact F]); now destruct o as [[[n s] b]|].
Qed.
Lemma exact_vui : Exact avc_sps_vui (fun a bs => exists t, a = timing_value t /\ vui_form t bs).
Proof.
  unfold avc_sps_vui. eapply parse_exact.
  - eapply parse_maybe; [apply exact_aspect|]. eapply parse_maybe; [exact (exact_opt_bit true)|]. eapply exact_lax.
    + eapply parse_maybe; [apply exact_signal|]. eapply parse_maybe; [eapply (skip_se _ [_]), (skip_se _ [] exact_nil)|]. eapply parse_end, exact_timing.
    + intros g W B. cbn [negb Z.eqb]. unfold g_bind at 1. cbn [g_ret]. unfold g_bind. now rewrite (g_read_bit_nil g W B).
  - intros t bs F. exists t. split; [reflexivity|]. exact F.
  - intros t bs F. exists t. split; [reflexivity|]. exact F.
Qed.

(** The values ParseSPS returns. *)
Definition value264 (w : sps264_view) : avc_sps :=
  let '(cl, cr, ct, cb) := crop_value (w_crop w) in
  {| as_id := w_id w; as_profile := w_profile w; as_level := w_level w; as_constraint := w_constraint w / 4; as_mbw := w_mbw w + 1; as_mbh := w_map_units w + 1;
     as_cl := cl; as_cr := cr; as_ct := ct; as_cb := cb;
     as_width := 16 * (w_mbw w + 1) - 2 * (cl + cr); as_height := (if w_mbs_only w then 16 else 32) * (w_map_units w + 1) - 2 * (ct + cb);
     as_fps := match w_timing w with Some (Some (units, scale, _)) => sps_fps scale units | _ => Some 0 end |}.
Lemma i64_small x : - 2 ^ 63 <= x < 2 ^ 63 -> i64 x = x.
Proof. intros H. unfold i64. change (2 ^ 63) with 9223372036854775808 in *. change (2 ^ 64) with 18446744073709551616. rewrite Z.mod_small by lia. lia. Qed.
(** The end of ParseSPS, before looking at the sizes of the numbers. *)
Definition raw264 (profile constraint level id mbw mbh : Z) (only : bool) (c : Z * Z * Z * Z) (t : option (option (Z * Z * bool))) : avc_sps :=
  let '(cl, cr, ct, cb) := c in
  {| as_id := id; as_profile := profile; as_level := level; as_constraint := Z.shiftr constraint 2; as_mbw := u64 (mbw + 1); as_mbh := u64 (mbh + 1);
     as_cl := cl; as_cr := cr; as_ct := ct; as_cb := cb; as_width := i64 (u64 (mbw + 1) * 16 - cl * 2 - cr * 2);
     as_height := i64 ((2 - Z.b2z only) * u64 (mbh + 1) * 16 - ct * 2 - cb * 2);
     as_fps := match (match t with Some x => timing_value x | None => None end) with Some f => f | None => Some 0 end |}.
Lemma parse_tail264 profile constraint level id mbw mbh only c :
  Parse (let '(cl, cr, ct, cb) := c in
    let mbw := u64 (mbw + 1) in
    let mbh := u64 (mbh + 1) in
    let width := i64 (mbw * 16 - cl * 2 - cr * 2) in
    let height := i64 ((2 - Z.b2z only) * mbh * 16 - ct * 2 - cb * 2) in
    vui <== g_read_bit ;;;
    fps <== (if negb (vui =? 0) then avc_sps_vui else g_ret None) ;;;
    g_ret {| as_id := id; as_profile := profile; as_level := level; as_constraint := Z.shiftr constraint 2; as_mbw := mbw; as_mbh := mbh;
           as_cl := cl; as_cr := cr; as_ct := ct; as_cb := cb; as_width := width; as_height := height;
           as_fps := match fps with Some f => f | None => Some 0 end |})
    (fun w => raw264 profile constraint level id mbw mbh only c (fst w)) (fun w : option (option (Z * Z * bool)) * unit => [opt_form vui_form (fst w)]).
Proof.
  destruct c as [[[cl cr] ct] cb]. cbv zeta. refine (exact_ext _ _ _ (g_bind_assoc _ _ _) _).
  apply (parse_step _ _ _ _ (fun t (_ : unit) => raw264 profile constraint level id mbw mbh only (cl, cr, ct, cb) t) (fun _ _ => []) (exact_opt _ _ _ _ exact_vui)). intros t. apply parse_ret.
Qed.
Lemma crop_bound o bs : opt_form crop_form o bs -> let '(l, r, t, b) := crop_value o in 0 <= l < 2 ^ 33 /\ 0 <= r < 2 ^ 33 /\ 0 <= t < 2 ^ 33 /\ 0 <= b < 2 ^ 33.
Proof.
  change (2 ^ 33) with 8589934592. destruct o as [[[[l r] t] b]|]; [|cbn; lia]. intros (x & y & -> & _ & F). apply seq_out in F. cbn [crop_value] in *.
  destruct F as (x1 & y1 & -> & F1 & x2 & y2 & -> & F2 & x3 & y3 & -> & F3 & x4 & y4 & -> & F4 & _).
  apply ue_bound in F1, F2, F3, F4. change (2 ^ 33) with 8589934592 in *. lia.
Qed.
Lemma raw_value profile constraint level id mbw mbh only crop t : 0 <= mbw < 2 ^ 33 - 1 -> 0 <= mbh < 2 ^ 33 - 1 ->
  (let '(l, r, t, b) := crop_value crop in 0 <= l < 2 ^ 33 /\ 0 <= r < 2 ^ 33 /\ 0 <= t < 2 ^ 33 /\ 0 <= b < 2 ^ 33) ->
  raw264 profile constraint level id mbw mbh only (crop_value crop) t =
  value264 {| w_profile := profile; w_constraint := constraint; w_level := level; w_id := id; w_mbw := mbw; w_map_units := mbh; w_mbs_only := only; w_crop := crop; w_timing := t |}.
Proof.
  intros Hw Hh Hc. unfold raw264, value264. cbn [w_profile w_constraint w_level w_id w_mbw w_map_units w_mbs_only w_crop w_timing]. destruct (crop_value crop) as [[[cl cr] ct] cb].
  change (2 ^ 33) with 8589934592 in *. unfold u64. change (2 ^ 64) with 18446744073709551616. rewrite !(Z.mod_small (_ + 1)) by lia. rewrite Z.shiftr_div_pow2 by lia. change (2 ^ 2) with 4.
  rewrite !i64_small by (change (2 ^ 63) with 9223372036854775808; destruct only; cbn [Z.b2z]; lia). f_equal; try (destruct only; cbn [Z.b2z]; lia).
  destruct t as [[[[n s] b]|]|]; reflexivity.
Qed.
Ltac peel F := let x := fresh "x" in let y := fresh "y" in let H := fresh "H" in destruct F as (x & y & -> & H & F); cbn [fst snd] in H.
Lemma exact_body264 : Exact avc_sps_body (fun a bs => exists w, a = value264 w /\ sps264_form avc_is_high (fun _ => 8%nat) w bs).
Proof.
  unfold avc_sps_body. eapply parse_exact.
  - eapply (parse_skip_bits 8); [lia|]. eapply (parse_bits 8); [lia|]. intros profile. eapply (parse_bits 8); [lia|]. intros constraint. eapply (parse_bits 8); [lia|]. intros level.
    eapply parse_ue. intros id. eapply (parse_part _ _ (if avc_is_high profile then high_form (fun _ => 8%nat) else is [])); [apply exact_if_form; [apply exact_high|apply exact_nil]|].
    eapply parse_skip_ue, (parse_part _ _ _ _ _ exact_poc), parse_skip_ue, parse_skip_bit, parse_ue. intros mbw. eapply parse_ue. intros mbh. eapply parse_bit. intros only.
    eapply (parse_part _ _ (if only then is [] else any_form 1)).
    { pose proof (exact_opt_bit (negb only)) as H. destruct only; exact H. }
    eapply parse_skip_bit, (parse_step _ _ _ _ _ _ exact_crop). intros crop. eapply parse_tail264.
  - intros (profile & constraint & level & id & mbw & mbh & only & crop & t & []) bs F.
    exists {| w_profile := profile; w_constraint := constraint; w_level := level; w_id := id; w_mbw := mbw; w_map_units := mbh; w_mbs_only := only; w_crop := crop; w_timing := t |}.
    split; [|exact F]. cbn [fst snd]. do 16 peel F. cbn [fst snd] in *. apply raw_value; [now apply ue_bound in H9|now apply ue_bound in H10|eapply crop_bound; eassumption].
  - intros [profile constraint level id mbw mbh only crop t] bs F.
    exists (profile, (constraint, (level, (id, (mbw, (mbh, (only, (crop, (t, tt))))))))). split; [|exact F]. cbn [fst snd]. symmetry.
    unfold sps264_form in F. cbn [w_profile w_constraint w_level w_id w_mbw w_map_units w_mbs_only w_crop w_timing] in F.
    do 16 peel F. cbn [fst snd] in *. apply raw_value; [now apply ue_bound in H9|now apply ue_bound in H10|eapply crop_bound; eassumption].
Qed.

(** ** H.265 *)
Definition flags_z (f : bool * bool) : Z * Z := (Z.b2z (fst f), Z.b2z (snd f)).
Lemma exact_flags n : Exact (ptl_flags n) (fun a bs => exists fl, a = map flags_z fl /\ length fl = n /\ bs = flat_map pair_bits fl).
Proof.
  induction n as [|n IH]; cbn [ptl_flags].
  - eapply exact_iff; [apply exact_ret|]. intros a bs. split; [intros [-> ->]; now exists []|]. intros (fl & -> & L & ->). destruct fl; [auto|discriminate].
  - eapply exact_iff.
    + eapply parse_bit. intros p. eapply parse_bit. intros l. eapply (parse_step _ _ (map flags_z) (fun fl bs => length fl = n /\ bs = flat_map pair_bits fl)); [exact IH|]. intros fl. apply parse_ret.
    + intros a bs. split.
      * intros ((p & l & fl & []) & -> & F). cbn [fst snd] in F. destruct F as (x & y & -> & -> & x2 & y2 & -> & -> & x3 & y3 & -> & (L & ->) & ->). rewrite app_nil_r. exists ((p, l) :: fl). cbn. repeat split. now rewrite L.
      * intros ([|[p l] fl] & -> & L & ->); [discriminate|]. injection L as L. exists (p, (l, (fl, tt))). split; [reflexivity|]. cbn [fst snd].
        exists [p], (l :: flat_map pair_bits fl). split; [reflexivity|]. split; [reflexivity|]. exists [l], (flat_map pair_bits fl). split; [reflexivity|]. split; [reflexivity|]. apply seq_in. auto.
Qed.
Lemma exact_reserved n : Exact (ptl_reserved n) (quiet (any_form (2 * n))).
Proof.
  induction n as [|n IH]; cbn [ptl_reserved].
  - eapply exact_form; [apply exact_nil|]. intros bs. unfold is, any_form. destruct bs; split; auto; discriminate.
  - eapply exact_form; [apply (skip_bits 2); [lia|]; apply (parse_unit _ (fun _ => tt)), parse_last, IH|]. intros bs. change (Z.to_nat 2) with 2%nat. rewrite seq_any, seq_one. now replace (2 + 2 * n)%nat with (2 * S n)%nat by lia.
Qed.
Lemma any_zero bs : is [] bs <-> any_form 0 bs.
Proof. unfold is, any_form. destruct bs; split; auto; discriminate. Qed.
Lemma exact_sub fl : Exact (ptl_sub (map flags_z fl)) (quiet (any_form (list_sum (map pair_size fl)))).
Proof.
  induction fl as [|[p l] fl IH]; cbn [map ptl_sub].
  - eapply exact_form; [apply exact_nil|]. apply any_zero.
  - unfold flags_z at 1. cbn [fst snd]. rewrite !negb_b2z. eapply exact_form.
    + apply (skip_part _ _ (any_form (if p then 88 else 0))).
      { destruct p; [|eapply exact_form; [apply exact_nil|apply any_zero]]. eapply exact_form; [apply (skip_bits32 32); [lia|]; apply (skip_bits32 32); [lia|]; apply (skip_bits32 24 _ [] ltac:(lia) exact_nil)|].
        intros bs. change (Z.to_nat 32) with 32%nat. change (Z.to_nat 24) with 24%nat. rewrite (seq_any 32 32), (seq_any 64 24). apply seq_one. }
      apply (skip_part _ _ (any_form (if l then 8 else 0))).
      { destruct l; [|eapply exact_form; [apply exact_nil|apply any_zero]]. eapply exact_form; [apply (skip_bits 8 _ [] ltac:(lia) exact_nil)|]. apply seq_one. }
      apply (parse_unit _ (fun _ => tt)), parse_last, IH.
    + intros bs. rewrite !seq_any, seq_one. unfold pair_size at 2. cbn [list_sum fold_right fst snd]. unfold list_sum. now rewrite <- Nat.add_assoc.
Qed.
Lemma exact_layers n :
  Exact (if Z.of_nat n =? 0 then g_ret tt else flags <== ptl_flags (Z.to_nat (Z.of_nat n)) ;;; ptl_reserved (Z.to_nat (8 - Z.of_nat n)) ;;; ptl_sub flags) (quiet (sub_layers_form n)).
Proof.
  destruct n as [|n]; [apply exact_nil|]. replace (Z.of_nat (S n) =? 0) with false by lia. rewrite Nat2Z.id. replace (Z.to_nat (8 - Z.of_nat (S n))) with (8 - S n)%nat by lia.
  eapply exact_form.
  - eapply parse_quiet. eapply (parse_step _ _ _ (fun fl bs => length fl = S n /\ bs = flat_map pair_bits fl) (fun _ _ => tt) (fun fl (_ : unit) => [any_form (2 * (8 - S n)); any_form (list_sum (map pair_size fl))]) (exact_flags (S n))).
    intros fl. apply parse_part; [apply exact_reserved|]. apply parse_last, exact_sub.
  - intros bs. cbn beta. unfold sub_layers_form. split.
    + intros ((fl & []) & x & y & -> & (L & ->) & F). exists fl. split; [exact L|]. exists (flat_map pair_bits fl), y. cbn [fst] in *. split; [reflexivity|]. split; [reflexivity|exact F].
    + intros (fl & L & x & y & -> & -> & F). exists (fl, tt), (flat_map pair_bits fl), y. auto.
Qed.
Lemma exact_ordering n : Exact (hevc_ordering n) (quiet (codes_form (3 * n))).
Proof.
  induction n as [|n IH]; cbn [hevc_ordering]; [apply exact_nil|]. replace (3 * S n)%nat with (S (S (S (3 * n)))) by lia.
  change (codes_form (S (S (S (3 * n))))) with (seq [a_code; seq [a_code; seq [a_code; codes_form (3 * n)]]]). eapply exact_form.
  - do 3 apply skip_ue. apply (parse_unit _ (fun _ => tt)), parse_last, IH.
  - intros bs. split.
    + intros (x & y & -> & X & y2 & y3 & -> & Y & F). exists x, (y2 ++ y3). split; [reflexivity|]. split; [exact X|]. apply seq_in. exists y2, y3. split; [reflexivity|]. split; [exact Y|now apply seq_in].
    + intros (x & y & -> & X & F). apply seq_out in F. destruct F as (y2 & y3 & -> & Y & F). apply seq_out in F. exists x, (y2 ++ y3). split; [reflexivity|]. split; [exact X|]. exists y2, y3. auto.
Qed.
Definition value265 (w : sps265_view) : hevc_sps :=
  {| hsp_layers := Z.of_nat (x_layers w) + 1; hsp_nested := Z.b2z (x_nesting w); hsp_chroma := x_chroma w; hsp_pic_width := x_width w; hsp_pic_height := x_height w;
     hsp_depth_chroma := x_depth_chroma w; hsp_space := x_space w; hsp_tier := Z.b2z (x_tier w); hsp_idc := x_idc w; hsp_compat := 0; hsp_constraint := 0;
     hsp_level := x_level w; hsp_width := x_width w; hsp_height := x_height w |}.
Lemma parse_ptl_end (s : Z) t i l : Parse (A := Z * Z * Z * Z) (let '(tier', level') := if Z.b2z t >? 0 then (Z.b2z t, l) else (0, if l >? 0 then l else 0) in g_ret (s, tier', (if i >? 0 then i else 0), level'))
  (fun _ : unit => (s, Z.b2z t, if i >? 0 then i else 0, if l >? 0 then l else if t then l else 0)) (fun _ => []).
Proof. destruct t; cbn [Z.b2z Z.gtb Z.compare]; destruct (l >? 0); apply parse_ret. Qed.
Lemma exact_ptl n : Exact (hevc_ptl (Z.of_nat n)) (fun a bs => exists w : Z * bool * Z * Z, a = (let '(s, t, i, l) := w in (s, Z.b2z t, i, l)) /\
  (let '(s, t, i, l) := w in seq [u_form 2 s; is [t]; u_form 5 i; any_form 80; u_form 8 l; sub_layers_form n]) bs).
Proof.
  unfold hevc_ptl. eapply parse_exact.
  - eapply (parse_bits 2); [lia|]. intros s. eapply parse_bit. intros t. eapply (parse_bits 5); [lia|]. intros i.
    eapply (parse_skip _ _ _ _ _ _ (exact_bits32 32 ltac:(lia)) (any_u _)), (parse_skip _ _ _ _ _ _ (exact_bits64 48 ltac:(lia)) (any_u _)), (parse_bits 8); [lia|]. intros l.
    eapply parse_part; [apply exact_layers|].
    eapply parse_ptl_end.
  - intros (s & t & i & l & []) bs F. exists (s, t, i, l). cbn [fst snd] in *. destruct F as (x1 & y1 & -> & F1 & x2 & y2 & -> & F2 & x3 & y3 & -> & F3 & F).
    change (Z.to_nat 32) with 32%nat in F. change (Z.to_nat 48) with 48%nat in F. apply (proj1 (seq_any 32 48 _ _)) in F. destruct F as (x4 & y4 & -> & F4 & x5 & y5 & -> & F5 & F6).
    unfold u_form, u_ok in F3, F5. split.
    + f_equal; [f_equal|]; [destruct (Z.gtb_spec i 0); lia|]. destruct (Z.gtb_spec l 0); [reflexivity|]. destruct t; lia.
    + exists x1, (x2 ++ x3 ++ x4 ++ x5 ++ y5). split; [reflexivity|]. split; [exact F1|]. exists x2, (x3 ++ x4 ++ x5 ++ y5). split; [reflexivity|]. split; [exact F2|]. exists x3, (x4 ++ x5 ++ y5). split; [reflexivity|]. split; [exact F3|].
      exists x4, (x5 ++ y5). split; [reflexivity|]. split; [exact F4|]. exists x5, y5. auto.
  - intros [[[s t] i] l] bs F. exists (s, (t, (i, (l, tt)))). cbn [fst snd] in *. destruct F as (x1 & y1 & -> & F1 & x2 & y2 & -> & F2 & x3 & y3 & -> & F3 & F).
    apply (proj2 (seq_any 32 48 _ _)) in F. destruct F as (x4 & y4 & -> & F4 & x5 & y5 & -> & F5 & x6 & y6 & -> & F6 & F7).
    pose proof F3 as B3. pose proof F6 as B6. unfold u_form, u_ok in B3, B6. split.
    + f_equal; [f_equal|]; [destruct (Z.gtb_spec i 0); lia|]. destruct (Z.gtb_spec l 0); [reflexivity|]. destruct t; lia.
    + exists x1, (x2 ++ x3 ++ x4 ++ x5 ++ x6 ++ y6). split; [reflexivity|]. split; [exact F1|]. exists x2, (x3 ++ x4 ++ x5 ++ x6 ++ y6). split; [reflexivity|]. split; [exact F2|]. exists x3, (x4 ++ x5 ++ x6 ++ y6). split; [reflexivity|]. split; [exact F3|].
      exists x4, (x5 ++ x6 ++ y6). split; [reflexivity|]. split; [exact F4|]. exists x5, (x6 ++ y6). split; [reflexivity|]. split; [exact F5|]. exists x6, y6. auto.
Qed.

Lemma codes_seq n : forall l bs, seq (codes_form n :: l) bs <-> seq (repeat a_code n ++ l) bs.
Proof.
  induction n as [|n IH]; intros l bs.
  - split; [intros (x & y & -> & -> & F); exact F|intros F; exists [], bs; now split].
  - cbn [repeat app]. split.
    + intros (x & y & -> & (x1 & x2 & -> & C & F) & L). apply seq_out in F. exists x1, (x2 ++ y). rewrite app_assoc. split; [reflexivity|]. split; [exact C|]. apply IH. exists x2, y. auto.
    + intros (x1 & y & -> & C & F). apply IH in F as (x2 & y2 & -> & F & L). exists (x1 ++ x2), y2. rewrite app_assoc. split; [reflexivity|]. split; [|exact L]. exists x1, x2. split; [reflexivity|]. split; [exact C|now apply seq_in].
Qed.
Lemma exact_max : Exact (g_read_bits 3) (fun a bs => exists n, a = Z.of_nat n /\ u_form 3 (Z.of_nat n) bs).
Proof.
  eapply exact_iff; [apply (exact_bits 3); lia|]. intros a bs. change (Z.to_nat 3) with 3%nat. split.
  - intros F. exists (Z.to_nat a). pose proof F as [H _]. unfold u_ok in H. rewrite Z2Nat.id by lia. auto.
  - now intros (n & -> & F).
Qed.
Lemma parse_codes6 {B W} (k : G B) (P : W -> B) l : Parse k P l ->
  Parse (g_read_ue ;;; g_read_ue ;;; g_read_ue ;;; g_read_ue ;;; g_read_ue ;;; g_read_ue ;;; k) P (fun w => codes_form 6 :: l w).
Proof.
  intros H. eapply exact_iff; [do 6 eapply parse_skip_ue; exact H|]. intros a bs. cbn beta. split; intros (w & E & F); exists w; (split; [exact E|]); apply (codes_seq 6); exact F.
Qed.
Lemma exact_codes4 : Exact (g_read_ue ;;; g_read_ue ;;; g_read_ue ;;; g_read_ue ;;; g_ret tt) (quiet (codes_form 4)).
Proof.
  eapply exact_form; [do 4 apply skip_ue; apply (exact_nil : Exact _ (quiet (seq [])))|]. intros bs. rewrite <- (seq_one (codes_form 4)), (codes_seq 4). reflexivity.
Qed.
Lemma parse_tail265 n nested space tier idc level cf width height depth :
  Parse (present <== g_read_bit ;;;
    let i := if negb (present =? 0) then 0 else Z.of_nat n in
    hevc_ordering (Z.to_nat (Z.of_nat n + 1 - i)) ;;;
    g_read_ue ;;; g_read_ue ;;; g_read_ue ;;; g_read_ue ;;; g_read_ue ;;; g_read_ue ;;;
    g_ret {| hsp_layers := Z.of_nat n + 1; hsp_nested := nested; hsp_chroma := cf; hsp_pic_width := width; hsp_pic_height := height;
           hsp_depth_chroma := depth; hsp_space := space; hsp_tier := tier; hsp_idc := idc; hsp_compat := 0; hsp_constraint := 0;
           hsp_level := level; hsp_width := i64 width; hsp_height := i64 height |})
    (fun _ => {| hsp_layers := Z.of_nat n + 1; hsp_nested := nested; hsp_chroma := cf; hsp_pic_width := width; hsp_pic_height := height;
           hsp_depth_chroma := depth; hsp_space := space; hsp_tier := tier; hsp_idc := idc; hsp_compat := 0; hsp_constraint := 0;
           hsp_level := level; hsp_width := i64 width; hsp_height := i64 height |})
    (fun w : bool * unit => [is [fst w]; codes_form (3 * if fst w then S n else 1); codes_form 6]).
Proof.
  eapply (parse_bit _ (fun _ _ => _) (fun b (_ : unit) => [codes_form (3 * if b then S n else 1); codes_form 6])). intros present. rewrite negb_b2z. cbv zeta.
  replace (Z.to_nat (Z.of_nat n + 1 - (if present then 0 else Z.of_nat n))) with (if present then S n else 1%nat) by (destruct present; lia).
  eapply parse_part; [apply exact_ordering|]. apply parse_codes6, parse_ret.
Qed.
Lemma parse_ptl_case {B W} (ptl : Z * bool * Z * Z) (K : Z -> Z -> Z -> Z -> G B) (P : Z -> bool -> Z -> Z -> W -> B) (L : Z -> bool -> Z -> Z -> W -> list form) :
  (forall s t i l, Parse (K s (Z.b2z t) i l) (P s t i l) (L s t i l)) ->
  Parse (let '(space, tier, idc, level) := (let '(s, t, i, l) := ptl in (s, Z.b2z t, i, l)) in K space tier idc level)
    (fun w => let '(s, t, i, l) := ptl in P s t i l w) (fun w => let '(s, t, i, l) := ptl in L s t i l w).
Proof. intros H. destruct ptl as [[[s t] i] l]. apply H. Qed.
Lemma exact_body265 : Exact hevc_sps_body (fun a bs => exists w, a = value265 w /\ sps265_form w bs).
Proof.
  unfold hevc_sps_body. eapply parse_exact.
  - eapply (parse_skip_bits 4); [lia|]. eapply (parse_step _ _ _ _ _ _ exact_max). intros n. eapply parse_bit. intros nested. eapply (parse_step _ _ _ _ _ _ (exact_ptl n)). intros ptl.
    eapply parse_ptl_case. intros space tier idc level. eapply parse_skip_ue, parse_ue. intros cf. eapply (parse_part _ _ (if cf =? 3 then any_form 1 else is [])); [apply exact_opt_bit|].
    eapply parse_ue. intros width. eapply parse_ue. intros height. eapply (parse_maybe _ _ _ _ _ exact_codes4), parse_skip_ue, parse_ue. intros depth. eapply parse_skip_ue, parse_tail265.
  - intros (n & nested & [[[space tier] idc] level] & cf & width & height & depth & present & []) bs F. cbn [fst snd] in *.
    exists {| x_layers := n; x_nesting := nested; x_space := space; x_tier := tier; x_idc := idc; x_level := level; x_chroma := cf; x_width := width; x_height := height; x_depth_chroma := depth |}.
    split.
    + do 9 peel F. apply ue_bound in H6, H7. change (2 ^ 33) with 8589934592 in *. rewrite !i64_small by (change (2 ^ 63) with 9223372036854775808; lia). reflexivity.
    + exists present. unfold sps265_form. cbn [x_layers x_nesting x_space x_tier x_idc x_level x_chroma x_width x_height x_depth_chroma].
      do 3 (destruct F as (?x & ?y & -> & ?H & F); do 2 eexists; split; [reflexivity|]; split; [eassumption|]). apply (proj1 (seq_nest _ _ _)) in F. exact F.
  - intros [n nested space tier idc level cf width height depth] bs (present & F). cbn [x_layers x_nesting x_space x_tier x_idc x_level x_chroma x_width x_height x_depth_chroma] in F.
    exists (n, (nested, ((space, tier, idc, level), (cf, (width, (height, (depth, (present, tt)))))))). cbn [fst snd]. split.
    + unfold value265. cbn [x_layers x_nesting x_space x_tier x_idc x_level x_chroma x_width x_height x_depth_chroma]. do 14 peel F. apply ue_bound in H11, H12. change (2 ^ 33) with 8589934592 in *. rewrite !i64_small by (change (2 ^ 63) with 9223372036854775808; lia). reflexivity.
    + do 3 (destruct F as (?x & ?y & -> & ?H & F); do 2 eexists; split; [reflexivity|]; split; [eassumption|]). apply (proj2 (seq_nest _ _ _)). exact F.
Qed.

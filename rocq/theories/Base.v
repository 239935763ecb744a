(** * Base: the vocabulary of Go operations used by the model.

    Nothing here models a particular function of the repository; these are the Go language
    primitives (slices, indexing, copy, integer wrap-around, panics) that the models are written in. *)
From Coq Require Export List ZArith Lia Bool Arith.
From Coq Require Export ZifyBool ZifyNat.
Export ListNotations.
Global Open Scope Z_scope.

(** Outcome of a Go call: normal return with nil error, return with a non-nil error,
    run-time panic (index out of range, failed utils.Assert, nil dereference), and - only in the model -
    exhaustion of the fuel of a loop.  Theorems always exclude [NoFuel] explicitly. *)
Inductive res (A : Type) : Type :=
| Ok (a : A)
| Err
| Panic
| NoFuel.
Arguments Ok {A} a.
Arguments Err {A}.
Arguments Panic {A}.
Arguments NoFuel {A}.

Definition bind {A B} (x : res A) (f : A -> res B) : res B :=
  match x with
  | Ok a => f a
  | Err => Err
  | Panic => Panic
  | NoFuel => NoFuel
  end.

Notation "x <- e ;; k" := (bind e (fun x => k)) (at level 61, e at next level, right associativity).
Notation "' p <- e ;; k" := (bind e (fun p => k)) (at level 61, p pattern, e at next level, right associativity).

(** An out-of-range access is a panic. *)
Definition of_opt {A} (o : option A) : res A :=
  match o with Some a => Ok a | None => Panic end.

(** utils/assert.go:8-18 Assert. *)
Definition assert (b : bool) : res unit := if b then Ok tt else Panic.

(** len(l) *)
Definition zlen {A} (l : list A) : Z := Z.of_nat (length l).

(** l[i] *)
Definition idx {A} (l : list A) (i : Z) : option A :=
  if i <? 0 then None else nth_error l (Z.to_nat i).

(** l[i] = v *)
Fixpoint set_nth {A} (n : nat) (v : A) (l : list A) : list A :=
  match l, n with
  | [], _ => []
  | _ :: t, O => v :: t
  | x :: t, S k => x :: set_nth k v t
  end.
Definition upd {A} (l : list A) (i : Z) (v : A) : option (list A) :=
  if (0 <=? i) && (i <? zlen l) then Some (set_nth (Z.to_nat i) v l) else None.

(** l[lo:hi], for slices whose capacity equals their length. *)
Definition slice {A} (l : list A) (lo hi : Z) : option (list A) :=
  if (0 <=? lo) && (lo <=? hi) && (hi <=? zlen l)
  then Some (firstn (Z.to_nat (hi - lo)) (skipn (Z.to_nat lo) l)) else None.

(** l[lo:] *)
Definition slice_from {A} (l : list A) (lo : Z) : option (list A) := slice l lo (zlen l).

(** copy(dst, src): min(len(dst), len(src)) elements are copied. *)
Definition copy {A} (dst src : list A) : list A :=
  firstn (length dst) src ++ skipn (length src) dst.

(** copy(dst[off:], src), the effect on dst. *)
Definition copy_at {A} (dst : list A) (off : Z) (src : list A) : option (list A) :=
  if (0 <=? off) && (off <=? zlen dst)
  then Some (firstn (Z.to_nat off) dst ++ copy (skipn (Z.to_nat off) dst) src) else None.

(** Integer conversions. *)
Definition u8 (x : Z) : Z := x mod 2 ^ 8.
Definition u16 (x : Z) : Z := x mod 2 ^ 16.
Definition u32 (x : Z) : Z := x mod 2 ^ 32.
Definition u64 (x : Z) : Z := x mod 2 ^ 64.
Definition i32 (x : Z) : Z := (x + 2 ^ 31) mod 2 ^ 32 - 2 ^ 31.
Definition i64 (x : Z) : Z := (x + 2 ^ 63) mod 2 ^ 64 - 2 ^ 63.
Definition is_i64 (x : Z) : Prop := - 2 ^ 63 <= x < 2 ^ 63.

(** A slice of bytes. *)
Definition byte_ok (b : Z) : Prop := 0 <= b < 256.
Definition bytes_ok (l : list Z) : Prop := Forall byte_ok l.

(** encoding/binary BigEndian.UintN of the first bytes (value of a whole list). *)
Definition be_value (l : list Z) : Z := fold_left (fun a b => a * 256 + b) l 0.
(** encoding/binary BigEndian.PutUintN: the n bytes written. *)
Fixpoint be_bytes (n : nat) (v : Z) : list Z :=
  match n with
  | O => []
  | S k => (v / 256 ^ Z.of_nat k) mod 256 :: be_bytes k v
  end.

(** make([]byte, n) *)
Definition zeros (n : nat) : list Z := repeat 0 n.

(* ------------------------------------------------------------------------------------------ *)
(** ** Lemmas *)

Lemma zlen_nonneg {A} (l : list A) : 0 <= zlen l.
Proof. unfold zlen; lia. Qed.

Lemma zlen_app {A} (l m : list A) : zlen (l ++ m) = zlen l + zlen m.
Proof. unfold zlen; rewrite app_length; lia. Qed.

Lemma zlen_cons {A} (x : A) l : zlen (x :: l) = 1 + zlen l.
Proof. unfold zlen; cbn [length]; lia. Qed.

Lemma zlen_nil {A} : zlen (@nil A) = 0.
Proof. reflexivity. Qed.

Lemma zlen_map {A B} (f : A -> B) l : zlen (map f l) = zlen l.
Proof. unfold zlen; now rewrite map_length. Qed.

Lemma zlen_zero_nil {A} (l : list A) : zlen l = 0 -> l = [].
Proof. destruct l; [reflexivity|rewrite zlen_cons; pose proof (zlen_nonneg l); lia]. Qed.

Lemma set_nth_length {A} n (v : A) l : length (set_nth n v l) = length l.
Proof. revert n; induction l as [|x l IH]; intros [|n]; cbn; auto. Qed.

Lemma set_nth_same {A} n (v : A) l : (n < length l)%nat -> nth_error (set_nth n v l) n = Some v.
Proof. revert n; induction l as [|x l IH]; intros [|n] H; cbn in *; try lia; auto. apply IH; lia. Qed.

Lemma set_nth_other {A} n m (v : A) l : n <> m -> nth_error (set_nth n v l) m = nth_error l m.
Proof. revert n m; induction l as [|x l IH]; intros [|n] [|m] H; cbn; auto; congruence || lia || (apply IH; lia). Qed.

Lemma set_nth_app_r {A} n (v : A) l m : (length l <= n)%nat ->
  set_nth n v (l ++ m) = l ++ set_nth (n - length l) v m.
Proof.
  revert n; induction l as [|x l IH]; intros n H; cbn in *.
  - f_equal; lia.
  - destruct n; [lia|]. cbn. f_equal. apply IH; lia.
Qed.

Lemma set_nth_app_l {A} n (v : A) l m : (n < length l)%nat ->
  set_nth n v (l ++ m) = set_nth n v l ++ m.
Proof. revert n; induction l as [|x l IH]; intros [|n] H; cbn in *; try lia; auto. f_equal; apply IH; lia. Qed.

Lemma set_nth_split {A} n (v : A) l : (n < length l)%nat ->
  set_nth n v l = firstn n l ++ v :: skipn (S n) l.
Proof. revert n; induction l as [|x l IH]; intros [|n] H; cbn in *; try lia; auto. f_equal; apply IH; lia. Qed.

Lemma upd_some {A} (l : list A) i v : 0 <= i < zlen l -> upd l i v = Some (set_nth (Z.to_nat i) v l).
Proof. intros H. unfold upd. replace ((0 <=? i) && (i <? zlen l)) with true by lia. reflexivity. Qed.

Lemma idx_some {A} (l : list A) i : 0 <= i < zlen l -> exists v, idx l i = Some v.
Proof.
  intros H. unfold idx. destruct (i <? 0) eqn:E; [lia|].
  destruct (nth_error l (Z.to_nat i)) eqn:N; [eauto|].
  apply nth_error_None in N. unfold zlen in H. lia.
Qed.

Lemma idx_none {A} (l : list A) i : ~ (0 <= i < zlen l) -> idx l i = None.
Proof.
  intros H. unfold idx. destruct (i <? 0) eqn:E; [reflexivity|].
  apply nth_error_None. unfold zlen in H. lia.
Qed.

Lemma idx_inv {A} (l : list A) i v : idx l i = Some v -> 0 <= i < zlen l.
Proof.
  unfold idx. destruct (i <? 0) eqn:E; [discriminate|]. intros H.
  assert (Z.to_nat i < length l)%nat by (apply nth_error_Some; congruence).
  unfold zlen. lia.
Qed.

Lemma idx_nat {A} (l : list A) n : idx l (Z.of_nat n) = nth_error l n.
Proof. unfold idx. destruct (Z.of_nat n <? 0) eqn:E; [lia|]. now rewrite Nat2Z.id. Qed.

Lemma idx_app_l {A} (l m : list A) i : i < zlen l -> idx (l ++ m) i = idx l i.
Proof.
  intros H. unfold idx. destruct (i <? 0) eqn:E; [reflexivity|].
  apply nth_error_app1. unfold zlen in H. lia.
Qed.

Lemma idx_app_r {A} (l m : list A) i : zlen l <= i -> idx (l ++ m) i = idx m (i - zlen l).
Proof.
  intros H. pose proof (zlen_nonneg l). unfold idx.
  destruct (i <? 0) eqn:E; [lia|]. destruct (i - zlen l <? 0) eqn:E2; [lia|].
  rewrite nth_error_app2 by (unfold zlen in *; lia). f_equal. unfold zlen. lia.
Qed.

Lemma slice_some {A} (l : list A) lo hi : 0 <= lo <= hi -> hi <= zlen l ->
  slice l lo hi = Some (firstn (Z.to_nat (hi - lo)) (skipn (Z.to_nat lo) l)).
Proof.
  intros H1 H2. unfold slice.
  replace ((0 <=? lo) && (lo <=? hi) && (hi <=? zlen l)) with true by lia. reflexivity.
Qed.

Lemma slice_none {A} (l : list A) lo hi : ~ (0 <= lo <= hi /\ hi <= zlen l) -> slice l lo hi = None.
Proof.
  intros H. unfold slice.
  destruct ((0 <=? lo) && (lo <=? hi) && (hi <=? zlen l)) eqn:E; [lia|reflexivity].
Qed.

Lemma slice_from_some {A} (l : list A) lo : 0 <= lo <= zlen l ->
  slice_from l lo = Some (skipn (Z.to_nat lo) l).
Proof.
  intros H. unfold slice_from. rewrite slice_some by lia. f_equal.
  apply firstn_all2. rewrite skipn_length. unfold zlen. lia.
Qed.

Lemma slice_from_none {A} (l : list A) lo : ~ (0 <= lo <= zlen l) -> slice_from l lo = None.
Proof. intros H. unfold slice_from. apply slice_none. lia. Qed.

Lemma slice_length {A} (l : list A) lo hi s : slice l lo hi = Some s -> zlen s = hi - lo /\ 0 <= lo <= hi /\ hi <= zlen l.
Proof.
  unfold slice. destruct ((0 <=? lo) && (lo <=? hi) && (hi <=? zlen l)) eqn:E; [|discriminate].
  intros H; injection H as <-. unfold zlen in *. rewrite firstn_length, skipn_length. lia.
Qed.

Lemma copy_length {A} (dst src : list A) : length (copy dst src) = length dst.
Proof. unfold copy. rewrite app_length, firstn_length, skipn_length. lia. Qed.

Lemma copy_fits {A} (dst src : list A) : (length src <= length dst)%nat -> copy dst src = src ++ skipn (length src) dst.
Proof. intros H. unfold copy. now rewrite firstn_all2 by lia. Qed.

Lemma skipn_skipn {A} (n m : nat) (l : list A) : skipn n (skipn m l) = skipn (m + n) l.
Proof. revert l; induction m as [|m IH]; intros l; cbn; auto. destruct l; [apply skipn_nil|apply IH]. Qed.

Lemma copy_at_some {A} (dst : list A) off src : 0 <= off <= zlen dst ->
  copy_at dst off src = Some (firstn (Z.to_nat off) dst ++ copy (skipn (Z.to_nat off) dst) src).
Proof.
  intros H. unfold copy_at. replace ((0 <=? off) && (off <=? zlen dst)) with true by lia. reflexivity.
Qed.

(** When the source fits, copy replaces a segment. *)
Lemma copy_at_fits {A} (dst : list A) off src : 0 <= off -> off + zlen src <= zlen dst ->
  copy_at dst off src = Some (firstn (Z.to_nat off) dst ++ src ++ skipn (Z.to_nat (off + zlen src)) dst).
Proof.
  intros H1 H2. rewrite copy_at_some by (pose proof (zlen_nonneg src); lia). f_equal. f_equal.
  rewrite copy_fits by (rewrite skipn_length; unfold zlen in *; lia). f_equal.
  rewrite skipn_skipn. f_equal. unfold zlen. pose proof (zlen_nonneg src). lia.
Qed.

(** ... in particular when the destination is known to be a concatenation. *)
Lemma copy_at_app {A} (a b c src : list A) : length src = length b ->
  copy_at (a ++ b ++ c) (zlen a) src = Some (a ++ src ++ c).
Proof.
  intros H. rewrite copy_at_fits; [| apply zlen_nonneg |].
  - f_equal. f_equal; [|f_equal].
    + unfold zlen. rewrite Nat2Z.id, firstn_app, firstn_all, Nat.sub_diag, firstn_O, app_nil_r. reflexivity.
    + unfold zlen. replace (Z.to_nat (Z.of_nat (length a) + Z.of_nat (length src))) with (length a + length b)%nat by lia.
      rewrite app_assoc, skipn_app, skipn_all2 by (rewrite app_length; lia).
      rewrite app_length. replace (length a + length b - (length a + length b))%nat with 0%nat by lia. reflexivity.
  - rewrite !zlen_app. unfold zlen in *. lia.
Qed.

Lemma be_bytes_length n v : length (be_bytes n v) = n.
Proof. induction n as [|n IH]; cbn; auto. Qed.

Lemma be_bytes_ok n v : bytes_ok (be_bytes n v).
Proof.
  induction n as [|n IH]; cbn; constructor; auto.
  unfold byte_ok. apply Z.mod_pos_bound. lia.
Qed.

Lemma be_value_fold l a : fold_left (fun a b => a * 256 + b) l a = a * 256 ^ zlen l + be_value l.
Proof.
  unfold be_value. revert a. induction l as [|x l IH]; intros a; cbn [fold_left].
  - rewrite zlen_nil. cbn. lia.
  - rewrite (IH (a * 256 + x)), (IH (0 * 256 + x)), zlen_cons.
    rewrite Z.pow_add_r by (pose proof (zlen_nonneg l); lia). ring.
Qed.

Lemma be_value_cons x l : be_value (x :: l) = x * 256 ^ zlen l + be_value l.
Proof. unfold be_value at 1. cbn [fold_left]. rewrite be_value_fold. ring. Qed.

Lemma be_value_app l m : be_value (l ++ m) = be_value l * 256 ^ zlen m + be_value m.
Proof. unfold be_value at 1. rewrite fold_left_app, be_value_fold. reflexivity. Qed.

Lemma be_value_bound l : bytes_ok l -> 0 <= be_value l < 256 ^ zlen l.
Proof.
  induction l as [|x l IH]; intros H.
  - cbn. lia.
  - inversion H as [|? ? Hx Hl]; subst. specialize (IH Hl). rewrite be_value_cons, zlen_cons.
    rewrite Z.pow_add_r by (pose proof (zlen_nonneg l); lia). unfold byte_ok in Hx. nia.
Qed.

Lemma be_bytes_value n v : be_value (be_bytes n v) = v mod 256 ^ Z.of_nat n.
Proof.
  induction n as [|n IH].
  - cbn. now rewrite Z.mod_1_r.
  - cbn [be_bytes]. rewrite be_value_cons, IH. unfold zlen. rewrite be_bytes_length.
    rewrite Nat2Z.inj_succ, Z.pow_succ_r by lia.
    assert (Hp : 0 < 256 ^ Z.of_nat n) by (apply Z.pow_pos_nonneg; lia).
    rewrite (Z.mul_comm 256). rewrite Z.rem_mul_r by lia. lia.
Qed.

Lemma be_value_bytes l : bytes_ok l -> be_bytes (length l) (be_value l) = l.
Proof.
  induction l as [|x l IH]; intros H; [reflexivity|].
  inversion H as [|? ? Hx Hl]; subst. cbn [length be_bytes].
  rewrite be_value_cons. pose proof (be_value_bound l Hl) as B. unfold zlen in *.
  assert (Hp : 0 < 256 ^ Z.of_nat (length l)) by (apply Z.pow_pos_nonneg; lia).
  unfold byte_ok in Hx. f_equal.
  - rewrite Z.div_add_l by lia. rewrite Z.div_small by lia. rewrite Z.mod_small; lia.
  - transitivity (be_bytes (length l) (be_value l)); [|now apply IH].
    assert (G : forall n k v, (n <= k)%nat -> be_bytes n (x * 256 ^ Z.of_nat k + v) = be_bytes n v).
    { clear. intros n k v. induction n as [|n IH]; intros Hn; [reflexivity|]. cbn [be_bytes]. f_equal; [|apply IH; lia].
      replace (x * 256 ^ Z.of_nat k) with (x * 256 ^ (Z.of_nat k - Z.of_nat n - 1) * 256 * 256 ^ Z.of_nat n).
      - rewrite Z.div_add_l by (apply Z.pow_nonzero; lia).
        rewrite Z.add_comm, Z.mod_add by lia. reflexivity.
      - rewrite <- (Z.mul_assoc (x * _)), <- Z.mul_assoc. f_equal.
        replace (256 * 256 ^ Z.of_nat n) with (256 ^ (1 + Z.of_nat n)) by (rewrite Z.pow_add_r; lia).
        rewrite <- Z.pow_add_r by lia. f_equal. lia. }
    apply G. lia.
Qed.

Lemma bytes_ok_app l m : bytes_ok (l ++ m) <-> bytes_ok l /\ bytes_ok m.
Proof. apply Forall_app. Qed.

Lemma bytes_ok_firstn n l : bytes_ok l -> bytes_ok (firstn n l).
Proof. intros H. rewrite <- (firstn_skipn n l) in H. now apply bytes_ok_app in H. Qed.

Lemma bytes_ok_skipn n l : bytes_ok l -> bytes_ok (skipn n l).
Proof. intros H. rewrite <- (firstn_skipn n l) in H. now apply bytes_ok_app in H. Qed.

Lemma bytes_ok_zeros n : bytes_ok (zeros n).
Proof. induction n; constructor; auto. unfold byte_ok; lia. Qed.

Lemma zeros_length n : length (zeros n) = n.
Proof. apply repeat_length. Qed.

Lemma u8_ok x : byte_ok (u8 x).
Proof. unfold byte_ok, u8. change (2 ^ 8) with 256. apply Z.mod_pos_bound; lia. Qed.

Lemma i64_id x : is_i64 x -> i64 x = x.
Proof. unfold is_i64, i64. intros H. rewrite Z.mod_small; lia. Qed.

Lemma i64_range x : is_i64 (i64 x).
Proof. unfold is_i64, i64. pose proof (Z.mod_pos_bound (x + 2 ^ 63) (2 ^ 64)). lia. Qed.

Lemma bind_ok {A B} (x : res A) (f : A -> res B) b : bind x f = Ok b -> exists a, x = Ok a /\ f a = Ok b.
Proof. destruct x; cbn; try discriminate. eauto. Qed.

(** finite case check over bytes *)
Lemma byte_ind_bool (P : Z -> bool) :
  forallb P (map Z.of_nat (seq 0 256)) = true -> forall b, byte_ok b -> P b = true.
Proof.
  intros H b Hb. rewrite forallb_forall in H. apply H. apply in_map_iff.
  exists (Z.to_nat b). unfold byte_ok in Hb. split; [lia|]. apply in_seq. lia.
Qed.

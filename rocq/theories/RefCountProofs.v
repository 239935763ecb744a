(** * RefCountProofs: ReferenceCounter under every interleaving.

    Refer and Release are single atomic instructions, so an execution of any number of goroutines is a
    sequence of these steps.  The environment respects ownership: a goroutine refers or releases only while
    it holds a reference; it may hand a reference to another goroutine. *)
From Verif Require Import Base CollectionsModel.

(** Shared counter and, as ghost state, how many references each goroutine holds. *)
Record rc_state := { rc_counter : Z; rc_held : list nat }.

Inductive rc_event := ERefer | ERelease (last : bool) | EHandover.

Definition total (h : list nat) : nat := fold_right Nat.add 0%nat h.

Definition inc (h : list nat) (t : nat) : list nat := set_nth t (S (nth t h 0%nat)) h.
Definition dec (h : list nat) (t : nat) : list nat := set_nth t (nth t h 0%nat - 1)%nat h.

Inductive rc_step : rc_state -> rc_event -> rc_state -> Prop :=
| step_refer s t : (t < length (rc_held s))%nat -> (0 < nth t (rc_held s) 0)%nat ->
    Z.of_nat (total (rc_held s)) + 1 < 2 ^ 31 ->
    rc_step s ERefer {| rc_counter := rc_refer (rc_counter s); rc_held := inc (rc_held s) t |}
| step_release s t : (t < length (rc_held s))%nat -> (0 < nth t (rc_held s) 0)%nat ->
    rc_step s (ERelease (snd (rc_release (rc_counter s))))
      {| rc_counter := fst (rc_release (rc_counter s)); rc_held := dec (rc_held s) t |}
| step_handover s t u : (t < length (rc_held s))%nat -> (u < length (rc_held s))%nat -> (0 < nth t (rc_held s) 0)%nat ->
    rc_step s EHandover {| rc_counter := rc_counter s; rc_held := inc (dec (rc_held s) t) u |}.

Inductive rc_exec : rc_state -> list rc_event -> rc_state -> Prop :=
| exec_nil s : rc_exec s [] s
| exec_snoc s es s1 e s2 : rc_exec s es s1 -> rc_step s1 e s2 -> rc_exec s (es ++ [e]) s2.

(** NewReferenceCounter: the creator [t0] among [n] goroutines holds the only reference. *)
Definition rc_init (n t0 : nat) : rc_state := {| rc_counter := rc_new; rc_held := set_nth t0 1%nat (repeat 0%nat n) |}.

Definition is_last (e : rc_event) : bool := match e with ERelease b => b | _ => false end.

Lemma total_set_nth h t v : (t < length h)%nat -> (total (set_nth t v h) + nth t h 0 = total h + v)%nat.
Proof.
  revert t; induction h as [|x h IH]; intros t H; [cbn in H; lia|].
  destruct t as [|t]; cbn [set_nth total fold_right nth]; [fold (total h); lia|].
  specialize (IH t ltac:(cbn in H; lia)). unfold total in *. lia.
Qed.

Lemma total_repeat n : total (repeat 0%nat n) = 0%nat.
Proof. induction n; cbn; auto. Qed.

Lemma nth_repeat0 n t : nth t (repeat 0%nat n) 0%nat = 0%nat.
Proof. revert t; induction n; intros [|t]; cbn; auto. Qed.

Lemma nth_le_total h t : (nth t h 0 <= total h)%nat.
Proof.
  revert t; induction h as [|x h IH]; intros [|t]; cbn; try lia. specialize (IH t). unfold total in *. lia.
Qed.

Definition rc_inv (s : rc_state) : Prop :=
  rc_counter s = Z.of_nat (total (rc_held s)) /\ Z.of_nat (total (rc_held s)) < 2 ^ 31.

Lemma rc_step_inv s e s' : rc_inv s -> rc_step s e s' ->
  rc_inv s' /\ length (rc_held s') = length (rc_held s) /\ (0 < total (rc_held s))%nat /\
  (is_last e = true <-> total (rc_held s') = 0%nat) .
Proof.
  intros [C B] H. inversion H as [s0 t Ht Hp Hb|s0 t Ht Hp|s0 t u Ht Hu Hp]; subst; cbn [rc_counter rc_held is_last];
  pose proof (nth_le_total (rc_held s) t) as Hnt.
  - unfold inc. pose proof (total_set_nth (rc_held s) t (S (nth t (rc_held s) 0%nat)) Ht) as E.
    split; [|split; [apply set_nth_length|split; [lia|split; [discriminate|lia]]]].
    unfold rc_inv, rc_refer, i32. cbn [rc_counter rc_held]. rewrite C. split; [|lia].
    rewrite Z.mod_small by lia. lia.
  - unfold dec, rc_release, i32. cbn [fst snd]. pose proof (total_set_nth (rc_held s) t (nth t (rc_held s) 0%nat - 1)%nat Ht) as E.
    rewrite C. rewrite Z.mod_small by lia.
    split; [|split; [apply set_nth_length|split; [lia|]]].
    + unfold rc_inv. cbn [rc_counter rc_held]. lia.
    + rewrite Z.eqb_eq. lia.
  - unfold inc, dec. pose proof (total_set_nth (rc_held s) t (nth t (rc_held s) 0%nat - 1)%nat Ht) as E.
    pose proof (total_set_nth (set_nth t (nth t (rc_held s) 0%nat - 1)%nat (rc_held s)) u
                 (S (nth u (set_nth t (nth t (rc_held s) 0%nat - 1)%nat (rc_held s)) 0%nat))) as E2.
    rewrite set_nth_length in E2. specialize (E2 Hu).
    split; [|split; [rewrite !set_nth_length; reflexivity|split; [lia|split; [discriminate|lia]]]].
    unfold rc_inv. cbn [rc_counter rc_held]. rewrite C. lia.
Qed.

Lemma rc_init_inv n t0 : (t0 < n)%nat -> rc_inv (rc_init n t0) /\ total (rc_held (rc_init n t0)) = 1%nat.
Proof.
  intros H. unfold rc_init, rc_inv. cbn [rc_counter rc_held].
  pose proof (total_set_nth (repeat 0%nat n) t0 1%nat) as E. rewrite repeat_length, total_repeat, nth_repeat0 in E. specialize (E H).
  unfold rc_new. lia.
Qed.

Lemma rc_exec_inv s es s' : rc_inv s -> (0 < total (rc_held s))%nat -> rc_exec s es s' ->
  rc_inv s' /\
  (total (rc_held s') = 0%nat -> exists es', es = es' ++ [ERelease true] /\ Forall (fun e => is_last e = false) es') /\
  (total (rc_held s') <> 0%nat -> Forall (fun e => is_last e = false) es).
Proof.
  intros I P H. induction H as [s|s es s1 e s2 H1 IH H2].
  - split; [exact I|]. split; [lia|]. constructor.
  - destruct (IH I P) as (I1 & IH1 & IH2). destruct (rc_step_inv s1 e s2 I1 H2) as (I2 & _ & P1 & L).
    specialize (IH2 ltac:(lia)). split; [exact I2|]. split.
    + intros Z0. exists es. apply L in Z0. destruct e as [|[]|]; try discriminate. auto.
    + intros Nz. apply Forall_app. split; [exact IH2|]. constructor; [|constructor].
      destruct (is_last e); [exfalso; apply Nz; apply L; reflexivity|reflexivity].
Qed.

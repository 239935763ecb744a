(** * CollRecoverProofs: what panicking calls on bit cursors and containers leave behind. *)
From Verif Require Import Base BufioModel BytesSpec BytesProofs CollectionsModel CollectionsSpec RingProofs LinkedListProofs ChainSpec ChainProofs CollRecoverModel.
Open Scope Z_scope.

(* ---------------------------------------------------------------------------------------- *)
(** ** Bit cursors. *)
Lemma set_nth_twice {B} (l : list B) : forall n v w, set_nth n w (set_nth n v l) = set_nth n w l.
Proof. induction l as [|x l IH]; intros [|n] v w; cbn [set_nth]; auto. now rewrite IH. Qed.

Lemma write_loop_x data n cur v : write_bits_loop_x data n cur v = match write_bits_loop data n cur v with Ok d => (d, Ok tt) | Err => (data, Err) | Panic => (data, Panic) | NoFuel => (data, NoFuel) end.
Proof.
  assert (Near : forall n data cur, -8 < cur -> exists d, write_bits_loop_x data n cur v = (d, Ok tt) /\ write_bits_loop data n cur v = Ok d).
  { clear. induction n as [|n IH]; intros data cur C; cbn [write_bits_loop_x write_bits_loop]; [eauto|]. assert (0 <= Z.quot cur 8). { destruct (Z_lt_le_dec cur 0) as [Neg|Pos]; [|apply Z.quot_pos; lia]. assert (Z.quot (- - cur) 8 = 0) as Q by (rewrite Z.quot_opp_l, Z.quot_small by lia; lia). rewrite Z.opp_involutive in Q. lia. }
    destruct (Z.quot cur 8 >=? zlen data) eqn:E; [eauto|]. destruct (idx_some data (Z.quot cur 8)) as [b Hb]; [lia|]. rewrite Hb. cbn [of_opt bind after]. rewrite !upd_some by (rewrite ?zlen_set_nth; lia). cbn [of_opt bind after].
    rewrite upd_some by (rewrite ?zlen_set_nth; lia). cbn [of_opt after]. rewrite set_nth_twice. apply IH. lia. }
  destruct (Z_lt_le_dec (-8) cur) as [C|C]; [destruct (Near n data cur C) as (d & -> & ->); reflexivity|]. destruct n as [|n]; [reflexivity|]. cbn [write_bits_loop_x write_bits_loop].
  assert (Z.quot cur 8 < 0) by (pose proof (Z.quot_rem cur 8 ltac:(lia)); pose proof (Z.rem_bound_abs cur 8 ltac:(lia)); lia). pose proof (zlen_nonneg data). replace (Z.quot cur 8 >=? zlen data) with false by lia. rewrite idx_none by lia. reflexivity.
Qed.

Lemma read_no_err data n : forall cur acc, read_bits_loop data n cur acc <> Err /\ read_bits_loop data n cur acc <> NoFuel.
Proof. induction n as [|n IH]; intros cur acc; cbn [read_bits_loop]; [split; discriminate|]. destruct (_ >=? _); [split; discriminate|]. destruct (idx _ _); cbn [of_opt bind]; [apply IH|split; discriminate]. Qed.
Lemma write_no_err v n : forall data cur, write_bits_loop data n cur v <> Err /\ write_bits_loop data n cur v <> NoFuel.
Proof. induction n as [|n IH]; intros data cur; cbn [write_bits_loop]; [split; discriminate|]. destruct (_ >=? _); [split; discriminate|]. destruct (idx _ _); cbn [of_opt bind]; [|split; discriminate]. destruct (upd _ _ _); cbn [of_opt bind]; [apply IH|split; discriminate]. Qed.

(** One call, in the words of the model of C01 to C03: a panicking ReadBytes has moved the offset, no other panicking call has changed anything. *)
Definition bits_plain (b : bits_cursor) (o : bits_op) : res (bits_val * bits_cursor) :=
  match o with
  | BtRead n => '(v, b1) <- br_read b n;; Ok (BvNum v, b1)
  | BtReadBytes n => '(l, b1) <- br_read_bytes b n;; Ok (BvList l, b1)
  | BtSafeRead n => '(v, b1) <- br_safe_read b n;; Ok (BvNum v, b1)
  | BtSeek n => Ok (BvUnit, bc_seek b n)
  | BtWrite n v => b1 <- bw_write b n v;; Ok (BvUnit, b1)
  | BtWriteBytes d => b1 <- bw_write_bytes b d;; Ok (BvUnit, b1)
  end.
Lemma bits_step_exact b o : bits_step_x b o =
  match bits_plain b o with
  | Ok (v, b1) => (b1, Ok v)
  | _ => (match o with BtReadBytes n => bc_seek b (8 * n) | _ => b end, Panic)
  end.
Proof.
  destruct b as [d off], o as [n|n|n|n|n v|l]; cbn [bits_step_x bits_plain]; try reflexivity.
  - unfold br_read_x, br_read, read_bits. cbn [bc_data bc_off]. destruct (read_no_err d (Z.to_nat n) off 0) as [E F]. destruct (read_bits_loop d (Z.to_nat n) off 0); try congruence; reflexivity.
  - unfold br_read_bytes_x, br_read_bytes. cbn [bc_data bc_off]. destruct (slice d (Z.quot off 8) (Z.quot (off + 8 * n) 8)); reflexivity.
  - unfold bw_write_x, bw_write, write_bits. cbn [bc_data bc_off]. rewrite write_loop_x. destruct (write_no_err v (Z.to_nat n) d off) as [E F]. destruct (write_bits_loop d (Z.to_nat n) off v); try congruence; reflexivity.
  - unfold bw_write_bytes_x, bw_write_bytes. cbn [bc_data bc_off]. destruct (copy_at d (Z.quot off 8) l); reflexivity.
Qed.

(* ---------------------------------------------------------------------------------------- *)
(** ** Ring buffer and queue. *)
Section Ring.
Context {A : Type} (zero : A).

Lemma pop_x_ok (r r1 : ring A) a : ring_pop zero r = Ok (a, r1) -> ring_pop_x zero r = (r1, Ok a).
Proof.
  unfold ring_pop, ring_pop_x, set_slot. destruct (ring_is_empty r); [intros E; congruence|]. destruct (idx _ _); cbn [of_opt bind after]; [|discriminate]. destruct (upd _ _ _); cbn [of_opt bind after]; [|discriminate]. intros E.
  unfold set_size, set_head. cbn [r_data r_head r_tail r_size r_capacity] in *. congruence.
Qed.
Lemma put_x_ok (r : ring A) a : ring_put_x r a = match upd (r_data r) (r_tail r) a with Some d => (mkRing d (r_head r) (Z.rem (r_tail r + 1) (zlen d)) (r_size r + 1) (r_capacity r), Ok tt) | None => (r, Panic) end.
Proof. unfold ring_put_x, set_slot. destruct (upd _ _ _); reflexivity. Qed.
Lemma push_x_ok (r r1 : ring A) a : ring_push zero r a = Ok r1 -> ring_push_x zero r a = (r1, Ok tt).
Proof.
  unfold ring_push, ring_push_x. destruct (ring_is_full r); cbn [bind].
  - destruct (ring_pop zero r) as [[x r']| | |] eqn:P; cbn [bind]; try discriminate. rewrite (pop_x_ok _ _ _ P). cbn [after]. rewrite put_x_ok. destruct (upd _ _ _); cbn [of_opt bind]; [|discriminate]. intros E. congruence.
  - rewrite put_x_ok. destruct (upd _ _ _); cbn [of_opt bind]; [|discriminate]. intros E. congruence.
Qed.
Lemma queue_push_x_ok (r r1 : ring A) a : queue_push zero r a = Ok r1 -> queue_push_x zero r a = (r1, Ok tt).
Proof.
  unfold queue_push, queue_push_x. destruct (ring_is_full r); cbn [bind].
  - destruct (ring_data r) as [[h t]| | |]; cbn [bind after]; try discriminate. destruct (match t with Some t0 => _ | None => _ end) as [a2| | |]; cbn [bind after]; try discriminate. rewrite put_x_ok. unfold set_tail, set_head. cbn [r_data r_head r_tail r_size r_capacity].
    destruct (upd _ _ _); cbn [of_opt bind]; [|discriminate]. intros E. congruence.
  - rewrite put_x_ok. destruct (upd _ _ _); cbn [of_opt bind]; [|discriminate]. intros E. congruence.
Qed.
Lemma pop_back_x (r : ring A) : cout_x OElem (queue_pop_back_x r) = keep r snd (fun x => OElem (fst x)) (queue_pop_back r).
Proof.
  unfold queue_pop_back_x, queue_pop_back. destruct (assert (r_size r >? 0)); cbn [bind after keep]; auto. destruct (ring_tail r); cbn [bind after keep]; auto.
Qed.
Lemma read_x {B} (r : ring A) (f : B -> cout A) x : cout_x f (r, x) = keep r (fun _ => r) f x.
Proof. destruct x; reflexivity. Qed.

Lemma ring_step_same c r l o : ring_rel c r l -> ring_step_x zero r o = ring_step zero r o.
Proof.
  intros [R C]. destruct o as [a| | | | | | | | |]; cbn [ring_step_x ring_step]; try reflexivity; try apply read_x.
  - destruct (ring_push_rep zero r l a R) as (r' & E & _). rewrite (push_x_ok _ _ _ E), E. reflexivity.
  - destruct (ring_pop_rep zero r l R) as (r' & E & _). rewrite (pop_x_ok _ _ _ E), E. reflexivity.
Qed.
Lemma queue_step_same r l o : ring_rep r l -> queue_step_x zero r o = queue_step zero r o.
Proof.
  intros R. destruct o as [a| | |i| | | | | |]; cbn [queue_step_x queue_step]; try reflexivity; try apply read_x; try apply pop_back_x.
  - destruct (queue_push_rep zero r l a R) as (r' & E & _). rewrite (queue_push_x_ok _ _ _ E), E. reflexivity.
  - destruct (ring_pop_rep zero r l R) as (r' & E & _). rewrite (pop_x_ok _ _ _ E), E. reflexivity.
Qed.

(* ---------------------------------------------------------------------------------------- *)
(** ** Linked list. *)
Lemma set_next_deref (h h' : list (node A)) p v q : set_next h p v = Ok h' -> (exists n, deref h q = Ok n) -> exists n, deref h' q = Ok n.
Proof.
  destruct p as [p|]; [|discriminate]. cbn [set_next]. destruct (nth_error h p) as [n|]; [|discriminate]. intros [= <-]. intros (m & E). destruct q as [q|]; [|discriminate]. cbn [deref] in *.
  destruct (nth_error h q) as [u|] eqn:Q; [|discriminate]. assert (q < length (set_nth p (mkNode (n_data n) v) h))%nat as L by (rewrite set_nth_length; apply nth_error_Some; congruence). apply nth_error_lt in L as [w ->]. cbn. eauto.
Qed.
Lemma walk_panics (h : list (node A)) i k : forall j p q, ll_walk h k j i p q <> Err /\ ll_walk h k j i p q <> NoFuel.
Proof. induction k as [|k IH]; intros j p q; cbn [ll_walk]; [split; discriminate|]. destruct (_ =? _); [split; discriminate|]. destruct q as [q|]; cbn [deref bind]; [|split; discriminate]. destruct (nth_error h q); cbn [of_opt bind]; [apply IH|split; discriminate]. Qed.
Lemma deref_cases (h : list (node A)) q : (exists n, deref h q = Ok n) \/ deref h q = Panic.
Proof. destruct q as [q|]; [|now right]. cbn [deref]. destruct (nth_error h q); cbn [of_opt]; eauto. Qed.
Lemma set_next_cases (h : list (node A)) p v : (exists h', set_next h p v = Ok h') \/ set_next h p v = Panic.
Proof. destruct p as [p|]; [|now right]. cbn [set_next]. destruct (nth_error h p); eauto. Qed.

(** What is needed of the state: the last node exists whenever there is a first one. *)
Lemma remove_same (s : linked_list A) i : (ll_last s = None -> ll_first s = None) -> (forall p, ll_last s = Some p -> exists n, deref (ll_heap s) (Some p) = Ok n) ->
  cout_x OElem (ll_remove_x s i) = keep s snd (fun x => OElem (fst x)) (ll_remove s i).
Proof.
  intros H1 H2. unfold ll_remove_x, ll_remove. destruct (assert (i <? ll_size s)); cbn [bind after keep]; auto. destruct (walk_panics (ll_heap s) i (Z.to_nat (ll_size s)) 0 (ll_first s) (ll_first s)) as [W1 W2].
  destruct (ll_walk _ _ _ _ _ _) as [[prev off]| | |]; cbn [bind after keep]; auto. unfold ll_unlink_x. destruct (ptr_eqb off (ll_first s)) eqn:Pf.
  - assert (off = ll_first s) as ->. { destruct off, (ll_first s); cbn in Pf; try discriminate; auto. apply Nat.eqb_eq in Pf. congruence. }
    destruct (deref_cases (ll_heap s) (ll_first s)) as [[n E]|E]; rewrite E; cbn [bind after keep ll_heap ll_first ll_last ll_size]; [|reflexivity]. destruct (ll_size s - 1 =? 0); cbn [ll_heap]; rewrite E; reflexivity.
  - destruct (ptr_eqb off (ll_last s)) eqn:Pl.
    + assert (off = ll_last s) as ->. { destruct off, (ll_last s); cbn in Pl; try discriminate; auto. apply Nat.eqb_eq in Pl. congruence. }
      destruct (ll_last s) as [p|]; [|rewrite H1 in Pf by reflexivity; discriminate]. destruct (H2 p eq_refl) as [n E]. cbn [bind after keep ll_heap ll_first ll_last ll_size]. destruct (ll_size s - 1 =? 0); cbn [ll_heap]; rewrite E; reflexivity.
    + destruct (deref_cases (ll_heap s) off) as [[n E]|E]; rewrite E; cbn [bind after keep]; [|reflexivity]. destruct (set_next_cases (ll_heap s) prev (n_next n)) as [[h' F]|F]; rewrite F; cbn [bind after keep ll_heap ll_first ll_last ll_size]; [|reflexivity].
      destruct (set_next_deref _ _ _ _ off F) as [m M]; [eauto|]. destruct (ll_size s - 1 =? 0); cbn [ll_heap]; rewrite M; reflexivity.
Qed.
Lemma ll_step_same (s : linked_list A) x o : chain_rel s x -> ll_step_x s o = ll_step s o.
Proof.
  intros R. pose proof R as (cs & [Rl Rn Rs Ra Re]). destruct o as [a|i|i|]; cbn [ll_step_x ll_step]; try reflexivity.
  - destruct (chain_add s x a R) as (s' & E & _). revert E. unfold ll_add, ll_add_x. cbn [ll_last ll_heap ll_first ll_size]. destruct (ll_last s) as [p|]; [|reflexivity]. destruct (set_next _ _ _); cbn [bind]; try discriminate. reflexivity.
  - pose proof (linked_len _ _ _ _ _ Rl) as Len. rewrite !app_length in Len. apply remove_same.
    + rewrite Ra. intros N. apply nth_error_None in N. destruct cs as [|c cs]; [|destruct (ch_list x) as [|y l]; [discriminate (Re eq_refl)|cbn [length] in *; lia]]. destruct (ch_list x ++ _); [exact Rl|destruct Rl].
    + intros p E. rewrite Ra in E. apply nth_error_In in E. pose proof (linked_in _ _ _ _ _ _ Rl E) as L. apply nth_error_lt in L as [n L]. exists n. cbn [deref]. now rewrite L.
  - destruct (ll_get s i); reflexivity.
Qed.
End Ring.

(** Equal steps on related states make equal runs. *)
Lemma run_same {S T O R} (f g : S -> O -> S * R) (spec : T -> O -> T * R) (rel : S -> T -> Prop) : (forall s t o, rel s t -> f s o = g s o) -> (forall s t o, rel s t -> rel (fst (g s o)) (fst (spec t o))) ->
  forall ops s t, rel s t -> run f s ops = run g s ops.
Proof.
  intros E H. induction ops as [|o ops IH]; intros s t Rl; cbn [run]; [reflexivity|]. rewrite (E s t o Rl). specialize (H s t o Rl). destruct (g s o) as [s1 r1]. cbn [fst] in H. now rewrite (IH s1 _ H).
Qed.

(* ---------------------------------------------------------------------------------------- *)
(** ** Byte cursors: ReadBytes with a negative size. *)
Definition bop_any (o : bop) : Prop := match o with OBytes n => is_i64 n | _ => bop_ok o end.
Lemma bytes_back b n : bb_inv b -> is_i64 n -> n < 0 -> rd_bytes b n = if 0 <=? bb_offset b + n then (bb_set_offset b (bb_offset b + n), Panic) else (b, Err).
Proof.
  intros I H N. pose proof I as (L & B & O & K). unfold rd_bytes. rewrite peekN_spec by auto. replace (bb_offset b + n <=? zlen (bb_data b)) with true by lia. rewrite andb_true_r.
  destruct (0 <=? bb_offset b + n) eqn:E; [|reflexivity]. cbn [bb_data bb_offset bb_set_offset]. rewrite slice_none by lia. reflexivity.
Qed.

(** The history without negative sizes that does the same, and what it answers instead. *)
Definition tame (o : bop) : bop := match o with OBytes n => if n <? 0 then OSeek n else o | _ => o end.
Definition tame_answer (o : bop) (r : res bval) : res bval := match o, r with OBytes n, Ok _ => if n <? 0 then Panic else r | _, _ => r end.
Lemma bytes_step b o : bb_inv b -> bop_any o -> exists b' r, bb_step b o = (b', tame_answer o r) /\ bb_inv b' /\ spec_step (bb_data b) (bb_offset b) (tame o) = ((bb_data b', bb_offset b'), r).
Proof.
  intros I H. assert (bop_ok o -> tame o = o /\ (forall r, tame_answer o r = r)) as K.
  { destruct o; cbn [tame tame_answer bop_ok]; auto. intros [_ N]. replace (n <? 0) with false by lia. split; [reflexivity|]. now intros []. }
  assert (bop_ok o \/ exists n, o = OBytes n /\ is_i64 n /\ n < 0) as [P|(n & -> & P & N)].
  { destruct o; cbn [bop_any] in H; auto. destruct (Z_lt_le_dec n 0); [right; eauto|left; split; auto]. }
  - destruct (K P) as [-> T]. destruct (bb_step_spec b o I P) as (b' & r & E & J & F). exists b', r. now rewrite T.
  - cbn [bb_step tame tame_answer]. replace (n <? 0) with true by lia. rewrite bytes_back by auto. cbn [spec_step bop_delta]. pose proof I as (L & B & O & C). replace (bb_offset b + n <=? zlen (bb_data b)) with true by lia. rewrite andb_true_r.
    destruct (0 <=? bb_offset b + n) eqn:E; [exists (bb_set_offset b (bb_offset b + n)), (Ok VUnit)|exists b, Err]; (split; [reflexivity|split; [|reflexivity]]); [|exact I].
    unfold bb_inv. cbn. repeat split; auto; lia.
Qed.
Fixpoint tame_answers (ops : list bop) (rs : list (res bval)) : list (res bval) :=
  match ops, rs with o :: ops', r :: rs' => tame_answer o r :: tame_answers ops' rs' | _, _ => [] end.
Lemma bytes_runs ops : forall b, bb_inv b -> Forall bop_any ops -> exists b' rs, bb_run b ops = (b', tame_answers ops rs) /\ bb_inv b' /\ spec_run (bb_data b) (bb_offset b) (map tame ops) = ((bb_data b', bb_offset b'), rs).
Proof.
  induction ops as [|o ops IH]; intros b I H; cbn [bb_run map spec_run tame_answers]; [exists b, []; auto|]. inversion H as [|? ? H1 H2]; subst. destruct (bytes_step b o I H1) as (b1 & r & E & J & F). rewrite E, F.
  destruct (IH b1 J H2) as (b2 & rs & G & K & L). rewrite G, L. exists b2, (r :: rs). auto.
Qed.

(* ---------------------------------------------------------------------------------------- *)
(** ** The bit cursor history without panics that does the same. *)
Fixpoint mended (ops : list bits_op) (rs : list (res bits_val)) : list bits_op :=
  match ops, rs with
  | o :: ops', r :: rs' => match r, o with Ok _, _ => [o] | _, BtReadBytes n => [BtSeek (8 * n)] | _, _ => [] end ++ mended ops' rs'
  | _, _ => []
  end.
Fixpoint mended_answers (ops : list bits_op) (rs : list (res bits_val)) : list bits_val :=
  match ops, rs with
  | o :: ops', r :: rs' => match r, o with Ok v, _ => [v] | _, BtReadBytes _ => [BvUnit] | _, _ => [] end ++ mended_answers ops' rs'
  | _, _ => []
  end.
Fixpoint bits_runs (b : bits_cursor) (ops : list bits_op) : res (list bits_val * bits_cursor) :=
  match ops with
  | [] => Ok ([], b)
  | o :: ops' => '(v, b1) <- bits_plain b o;; '(vs, b2) <- bits_runs b1 ops';; Ok (v :: vs, b2)
  end.
Lemma bits_mended ops : forall b b' rs, run bits_step_x b ops = (b', rs) -> bits_runs b (mended ops rs) = Ok (mended_answers ops rs, b').
Proof.
  induction ops as [|o ops IH]; intros b b' rs; cbn [run]; [intros [= <- <-]; reflexivity|]. rewrite bits_step_exact. destruct (bits_plain b o) as [[v b1]| | |] eqn:P.
  1: { destruct (run bits_step_x b1 ops) as [b2 rs2] eqn:E. intros [= <- <-]. cbn [mended mended_answers app bits_runs]. rewrite P. cbn [bind]. rewrite (IH _ _ _ E). reflexivity. }
  all: destruct (run bits_step_x _ ops) as [b2 rs2] eqn:E; intros [= <- <-]; cbn [mended mended_answers]; destruct o; cbn [app bits_runs bits_plain bind]; rewrite (IH _ _ _ E); reflexivity.
Qed.

(** How far a call moves the offset. *)
Definition bits_moved (o : bits_op) (r : res bits_val) : Z :=
  match o, r with
  | BtRead n, Ok _ | BtWrite n _, Ok _ => n
  | BtSeek n, _ => n
  | BtReadBytes n, _ => 8 * n
  | BtWriteBytes d, Ok _ => 8 * zlen d
  | _, _ => 0
  end.
Fixpoint bits_distance (ops : list bits_op) (rs : list (res bits_val)) : Z :=
  match ops, rs with o :: ops', r :: rs' => bits_moved o r + bits_distance ops' rs' | _, _ => 0 end.
Lemma bits_plain_off b o v b1 : bits_plain b o = Ok (v, b1) -> bc_off b1 = bc_off b + bits_moved o (Ok v).
Proof.
  destruct o; cbn [bits_plain bits_moved].
  - unfold br_read. destruct (read_bits _ _ _); cbn [bind]; try discriminate. intros [= <- <-]. reflexivity.
  - unfold br_read_bytes. destruct (slice _ _ _); cbn [of_opt bind]; try discriminate. intros [= <- <-]. reflexivity.
  - unfold br_safe_read. cbn [bind]. intros [= <- <-]. lia.
  - intros [= <- <-]. reflexivity.
  - unfold bw_write. destruct (write_bits _ _ _ _); cbn [bind]; try discriminate. intros [= <- <-]. reflexivity.
  - unfold bw_write_bytes. destruct (copy_at _ _ _); cbn [of_opt bind]; try discriminate. intros [= <- <-]. cbn [bc_off]. lia.
Qed.
Lemma bits_offset ops : forall b b' rs, run bits_step_x b ops = (b', rs) -> bc_off b' = bc_off b + bits_distance ops rs.
Proof.
  induction ops as [|o ops IH]; intros b b' rs; cbn [run]; [intros [= <- <-]; cbn; lia|]. rewrite bits_step_exact. destruct (bits_plain b o) as [[v b1]| | |] eqn:P.
  1: { destruct (run bits_step_x b1 ops) as [b2 rs2] eqn:E. intros [= <- <-]. cbn [bits_distance]. rewrite (IH _ _ _ E), (bits_plain_off _ _ _ _ P). lia. }
  all: destruct (run bits_step_x _ ops) as [b2 rs2] eqn:E; intros [= <- <-]; cbn [bits_distance]; rewrite (IH _ _ _ E); destruct o; cbn [bits_moved bc_off bc_seek]; try (discriminate P); lia.
Qed.

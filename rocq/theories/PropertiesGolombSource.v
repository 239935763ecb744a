(** * PropertiesGolombSource: the bit reader over any io.Reader (C156). *)
From Coq Require Import List.
From Verif Require Import Base BufioModel GolombProofs GolombSourceModel GolombSourceSpec.
Import ListNotations.
Local Open Scope list_scope.

(** The two readers side by side: the same bits of the same byte left, and the answers to come are the bytes to come. *)
Definition like (s : gsource) (g : golomb) : Prop := gs_left s = g_left g /\ (gs_left s <> 0 -> gs_buf s = g_buf g) /\ g_rest g = taken (gs_buf s) (gs_src s).
Definition alike {A} (m : GS A) (n : G A) : Prop := forall s g, like s g ->
  snd (m s) = snd (n g) /\ (forall a, snd (m s) = Ok a -> like (fst (m s)) (fst (n g))) /\ (snd (m s) = Err -> gs_left (fst (m s)) = 0 /\ g_left (fst (n g)) = 0 /\ g_rest (fst (n g)) = []).
Lemma alike_ret {A} (a : A) : alike (s_ret a) (g_ret a).
Proof. intros s g L. cbn. split; [reflexivity|]. split; [intros _ _; exact L|discriminate]. Qed.
Lemma alike_bind {A B} (m : GS A) n (f : A -> GS B) h : alike m n -> (forall a, alike (f a) (h a)) -> alike (s_bind m f) (g_bind n h).
Proof.
  intros M F s g L. destruct (M s g L) as (E & K & X). unfold s_bind, g_bind. destruct (m s) as [s' [a| | |]], (n g) as [g' [a'| | |]]; cbn [fst snd] in *; try discriminate E.
  - injection E as <-. exact (F a _ _ (K a eq_refl)).
  - split; [reflexivity|]. split; [discriminate|exact (fun _ => X eq_refl)].
  - split; [reflexivity|]. split; discriminate.
  - split; [reflexivity|]. split; discriminate.
Qed.
Lemma alike_bit : alike s_read_bit g_read_bit.
Proof.
  intros s g (L1 & L2 & L3). unfold s_read_bit, g_read_bit. rewrite L3, <- L1. destruct (gs_left s =? 0) eqn:Z0.
  - destruct (gs_src s) as [|a t]; cbn [taken fst snd].
    + split; [reflexivity|]. split; [discriminate|]. intros _. split; [lia|]. split; [lia|exact L3].
    + destruct (an_failed a) eqn:Fa; cbn [fst snd gs_left].
      * split; [reflexivity|]. split; [discriminate|]. intros _. split; [reflexivity|]. split; [lia|]. rewrite L3. cbn [taken]. now rewrite Fa.
      * split; [reflexivity|]. split; [|discriminate]. intros _ _. unfold like. cbn. auto.
  - cbn [fst snd]. rewrite L2 by lia. split; [reflexivity|]. split; [|discriminate]. intros _ _. unfold like. cbn. split; [reflexivity|]. split; [reflexivity|]. rewrite <- (L2 ltac:(lia)). reflexivity.
Qed.
Lemma alike_fuel {A} : alike (fun g => (g, NoFuel)) (fun g => (g, @NoFuel A)).
Proof. intros s g L. cbn. split; [reflexivity|]. split; discriminate. Qed.
Lemma alike_op o : alike (s_op o) (g_op o).
Proof.
  assert (B : forall k acc, alike (s_read_bits_loop k acc) (g_read_bits_loop k acc)) by (induction k as [|k IH]; intros acc; cbn; [apply alike_ret|apply alike_bind; [apply alike_bit|intros; apply IH]]).
  assert (B32 : forall k acc, alike (s_read_bits32_loop k acc) (g_read_bits32_loop k acc)) by (induction k as [|k IH]; intros acc; cbn; [apply alike_ret|apply alike_bind; [apply alike_bit|intros; apply IH]]).
  assert (B64 : forall k acc, alike (s_read_bits64_loop k acc) (g_read_bits64_loop k acc)) by (induction k as [|k IH]; intros acc; cbn; [apply alike_ret|apply alike_bind; [apply alike_bit|intros; apply IH]]).
  assert (Ze : forall k i, alike (s_zeros_loop k i) (g_zeros_loop k i)).
  { induction k as [|k IH]; intros i; cbn [s_zeros_loop g_zeros_loop]; [apply alike_fuel|]. apply alike_bind; [apply alike_bit|]. intros a. destruct (negb _); [apply alike_ret|apply IH]. }
  assert (U : alike s_read_ue g_read_ue) by (apply alike_bind; [apply Ze|]; intros i; apply alike_bind; [apply B|]; intros r; apply alike_ret).
  destruct o; cbn [s_op g_op]; [apply alike_bit|apply B|apply B32|apply B64|exact U|]. apply alike_bind; [exact U|]. intros r. destruct (negb _); apply alike_ret.
Qed.
Lemma alike_parse choose : forall fuel got, alike (s_parse choose fuel got) (g_parse choose fuel got).
Proof.
  induction fuel as [|f IH]; intros got; cbn [s_parse g_parse]; [apply alike_fuel|]. destruct (choose got); [apply alike_bind; [apply alike_op|intros; apply IH]|apply alike_ret].
Qed.

(** The answers that a call uses. *)
Definition uses {A} (m : GS A) : Prop := forall s, exists used, gs_src s = used ++ gs_src (fst (m s)) /\ gs_buf (fst (m s)) = last_written (gs_buf s) used /\
  match snd (m s) with Err => used_by_error used (gs_src (fst (m s))) | _ => Forall (fun a => an_failed a = false) used end.
Lemma uses_ret {A} (a : A) : uses (s_ret a).
Proof. intros s. exists []. cbn. auto. Qed.
Lemma uses_fuel {A} : uses (fun g => (g, @NoFuel A)).
Proof. intros s. exists []. cbn. auto. Qed.
Lemma uses_bind {A B} (m : GS A) (f : A -> GS B) : uses m -> (forall a, uses (f a)) -> uses (s_bind m f).
Proof.
  intros M F s. destruct (M s) as (u & U1 & U2 & U3). unfold s_bind. destruct (m s) as [s1 [a| | |]]; cbn [fst snd] in *; [|now exists u|now exists u|now exists u].
  destruct (F a s1) as (v & V1 & V2 & V3). exists (u ++ v). split; [now rewrite U1, V1, app_assoc|]. split; [rewrite V2, U2; unfold last_written; now rewrite fold_left_app|].
  destruct (snd (f a s1)); try (apply Forall_app; now split). destruct V3 as (ok & O1 & O2). exists (u ++ ok). split; [apply Forall_app; now split|].
  destruct O2 as [(-> & O2)|(x & -> & O2)]; [left; now split|right; exists x; split; [now rewrite app_assoc|exact O2]].
Qed.
Lemma uses_bit : uses s_read_bit.
Proof.
  intros s. unfold s_read_bit. destruct (gs_left s =? 0); [|exists []; cbn; auto]. destruct (gs_src s) as [|a t] eqn:E.
  - exists []. cbn [fst snd]. rewrite E. repeat split. exists []. split; [constructor|]. left. now split.
  - exists [a]. destruct (an_failed a) eqn:Fa; cbn [fst snd gs_src gs_buf]; (split; [reflexivity|]); (split; [reflexivity|]).
    + exists []. split; [constructor|]. right. exists a. now split.
    + constructor; [exact Fa|constructor].
Qed.
Lemma uses_op o : uses (s_op o).
Proof.
  assert (B : forall k acc, uses (s_read_bits_loop k acc)) by (induction k as [|k IH]; intros acc; cbn; [apply uses_ret|apply uses_bind; [apply uses_bit|intros; apply IH]]).
  assert (B32 : forall k acc, uses (s_read_bits32_loop k acc)) by (induction k as [|k IH]; intros acc; cbn; [apply uses_ret|apply uses_bind; [apply uses_bit|intros; apply IH]]).
  assert (B64 : forall k acc, uses (s_read_bits64_loop k acc)) by (induction k as [|k IH]; intros acc; cbn; [apply uses_ret|apply uses_bind; [apply uses_bit|intros; apply IH]]).
  assert (Ze : forall k i, uses (s_zeros_loop k i)).
  { induction k as [|k IH]; intros i; cbn [s_zeros_loop]; [apply uses_fuel|]. apply uses_bind; [apply uses_bit|]. intros a. destruct (negb _); [apply uses_ret|apply IH]. }
  assert (U : uses s_read_ue) by (apply uses_bind; [apply Ze|]; intros i; apply uses_bind; [apply B|]; intros r; apply uses_ret).
  destruct o; cbn [s_op]; [apply uses_bit|apply B|apply B32|apply B64|exact U|]. apply uses_bind; [exact U|]. intros r. destruct (negb _); apply uses_ret.
Qed.

(* ---------------------------------------------------------------------------------------- *)
(** ** C156 The bit reader over any io.Reader *)
(** Any sequence of calls, each depending on the values read so far, returns the same over the io.Reader as over the bytes in the buffer after each Read, up to the first error. *)
Theorem C156_reads : forall choose fuel src, snd (s_parse choose fuel [] (gs_new src)) = snd (g_parse choose fuel [] (golomb_new (taken 0 src))).
Proof. intros choose fuel src. apply (alike_parse choose fuel []). unfold like. cbn. split; [reflexivity|]. split; [lia|reflexivity]. Qed.
Print Assumptions C156_reads.
(** After a failed call, whose last Read was the one with the error, the next call starts with a new byte: with those of the answers still to come. *)
Theorem C156_after_error : forall o choose fuel s s', s_op o s = (s', Err) -> 0 <= gs_left s ->
  exists used, gs_src s = used ++ gs_src s' /\ used_by_error used (gs_src s') /\
    snd (s_parse choose fuel [] s') = snd (g_parse choose fuel [] (golomb_new (taken (last_written (gs_buf s) used) (gs_src s')))).
Proof.
  intros o choose fuel s s' E L. destruct (uses_op o s) as (used & U1 & U2 & U3). rewrite E in U1, U2, U3. cbn [fst snd] in U1, U2, U3. exists used. split; [exact U1|]. split; [exact U3|]. rewrite <- U2.
  apply (alike_parse choose fuel []). destruct (alike_op o s (Build_golomb (taken (gs_buf s) (gs_src s)) (gs_buf s) (gs_left s))) as (_ & _ & X); [unfold like; cbn; auto|]. rewrite E in X. cbn [fst snd] in X. destruct (X eq_refl) as (X0 & _).
  unfold like. cbn. split; [exact X0|]. split; [intros N; now elim N|reflexivity].
Qed.
Print Assumptions C156_after_error.
(** A reader whose successful reads return one byte each and whose failing one returns none is read as its data. *)
Theorem C156_faithful : forall data last more, an_one last = false -> an_failed last = true ->
  let src := map (fun b => mkAns (Some b) true false) data ++ last :: more in delivered_bytes src = data /\ taken 0 src = data.
Proof.
  intros data last more N F src. subst src. split.
  - induction data as [|b t IH]; cbn; [now rewrite N, F|]. now rewrite IH.
  - generalize 0. induction data as [|b t IH]; intros z; cbn; [now rewrite F|]. now rewrite IH.
Qed.
Print Assumptions C156_faithful.
(** In general the bytes read are the data of the reader with two changes: a byte that comes with the error is missing, and where Read returned nothing without an error the byte left in the buffer counts once more. *)
Theorem C156_taken : forall src buf, Forall lawful src ->
  exists ok rest, src = ok ++ rest /\ Forall (fun a => an_failed a = false) ok /\ match rest with [] => True | a :: _ => an_failed a = true end /\ length (taken buf src) = length ok /\
    delivered_bytes src = map snd (filter (fun x => an_one (fst x)) (combine ok (taken buf src))) ++ match rest with a :: _ => if an_one a then match an_wrote a with Some b => [b] | None => [] end else [] | [] => [] end.
Proof.
  induction src as [|a t IH]; intros buf F; [exists [], []; cbn; auto|]. apply Forall_cons_iff in F as [La F]. destruct (an_failed a) eqn:Fa.
  - exists [], (a :: t). cbn [taken delivered_bytes]. rewrite Fa. repeat (split; [cbn; auto|]). rewrite app_nil_r. cbn [combine filter map app]. reflexivity.
  - cbn [taken delivered_bytes]. rewrite Fa. set (b := match an_wrote a with Some b => b | None => buf end). destruct (IH b F) as (ok & rest & E & Fo & Hr & Le & D). exists (a :: ok), rest. rewrite E in *. split; [reflexivity|]. split; [now constructor|]. split; [exact Hr|].
    cbv zeta. split; [cbn; now rewrite Le|]. cbn [combine filter map fst]. rewrite D. unfold lawful in La. subst b. destruct (an_one a); cbn [map snd app]; [|reflexivity]. destruct (an_wrote a); [reflexivity|now elim (La eq_refl)].
Qed.
Print Assumptions C156_taken.
(** The last byte with io.EOF: a 16 bit field cannot be read; an empty Read: the first byte is read twice. *)
Example C156_example :
  snd (s_read_bits 16 (gs_new [mkAns (Some 18) true false; mkAns (Some 52) true true])) = Err /\
  snd (s_read_bits 16 (gs_new [mkAns (Some 18) true false; mkAns (Some 52) true false])) = Ok 4660 /\
  snd (s_read_bits 24 (gs_new [mkAns (Some 18) true false; mkAns None false false; mkAns (Some 52) true false])) = Ok 1184308 /\
  delivered_bytes [mkAns (Some 18) true false; mkAns None false false; mkAns (Some 52) true true] = [18; 52].
Proof. repeat split; vm_compute; reflexivity. Qed.

(** * RecordChoiceProofs: what is written for a packet does not depend on its pool type. *)
From Coq Require Import String List Permutation Lia.
From Verif Require Import Base NaluModel AacModel UtilModel PacketModel DemuxModel HandlerModel HandlerSpec DemuxProofs HandlerProofs DetermSpec DetermProofs.
Import ListNotations.
Local Open Scope list_scope.

Lemma untyped_video p : pk_media p <> AVMediaTypeAudio -> untyped p = p.
Proof. intros H. destruct p. unfold untyped. cbn in *. destruct (Z.eqb_spec pk_media AVMediaTypeAudio) as [E|E]; [contradiction|reflexivity]. Qed.
Lemma untyped_fields p q : untyped p = untyped q -> pk_data p = pk_data q /\ pk_media p = pk_media q /\ pk_index p = pk_index q.
Proof. intros E. split; [exact (f_equal pk_data E)|]. split; [exact (f_equal pk_media E)|exact (f_equal pk_index E)]. Qed.
Lemma writes_untyped ts p q w : untyped p = untyped q -> writes_of ts p w -> writes_of ts q w.
Proof.
  intros E H. destruct (untyped_fields _ _ E) as (Ed & Em & Ei). destruct (Z.eq_dec (pk_media p) AVMediaTypeAudio) as [A|A].
  - destruct H as (d & U & ->). unfold writes_of, access_unit in *. assert (V : AVMediaTypeVideo =? pk_media p = false) by (rewrite A; reflexivity).
    rewrite <- Em. rewrite V in *. cbn [andb]. exists d. rewrite <- Ed. split; [exact U|reflexivity].
  - replace q with p; [exact H|]. rewrite <- (untyped_video p A), E. apply untyped_video. congruence.
Qed.
Lemma writes_fun ts p v w : writes_of ts p v -> writes_of ts p w -> v = w.
Proof.
  intros (d & A & ->) (d' & A' & ->). unfold access_unit in *. assert (d = d') as ->; [|reflexivity]. destruct (AVMediaTypeVideo =? pk_media p); [|congruence].
  destruct A as (s & p1 & I & C), A' as (s' & p1' & I' & C'). rewrite I in I'. injection I' as <-. rewrite C in C'. injection C' as _ <-. reflexivity.
Qed.
Lemma writes_same ts : forall l l' v w, map untyped l = map untyped l' -> Forall2 (writes_of ts) l v -> Forall2 (writes_of ts) l' w -> v = w.
Proof.
  induction l as [|p l IH]; intros [|q l'] v w E F G; try discriminate E; inversion F; subst; inversion G; subst; [reflexivity|].
  cbn [map] in E. apply cons_eq in E as [E1 E2]. f_equal; [|now apply (IH l')]. apply (writes_fun ts q); [now apply (writes_untyped ts p)|assumption].
Qed.
Lemma written_index ts j : forall ps ws, Forall2 (writes_of ts) ps ws -> exists vs, Forall2 (writes_of ts) (of_index (Z.of_nat j) ps) vs /\ written ps ws j = List.concat (List.concat vs).
Proof.
  intros ps ws F. induction F as [|p w ps ws H F (vs & G & E)]; [exists []; split; [constructor|reflexivity]|]. unfold written, of_index in *. cbn [combine filter fst].
  rewrite (Z.eqb_sym (Z.of_nat j)). destruct (pk_index p =? Z.of_nat j).
  - exists (w :: vs). split; [now constructor|]. cbn [map snd List.concat]. rewrite !concat_app. now rewrite E.
  - exists vs. split; assumption.
Qed.
Lemma perm_forall (P : packet -> Prop) l l' : (forall p q, untyped p = untyped q -> P p -> P q) -> Permutation (map untyped l) (map untyped l') -> Forall P l -> Forall P l'.
Proof.
  intros H Pm F. apply Forall_forall. intros q I. assert (J : In (untyped q) (map untyped l)) by (eapply Permutation_in; [symmetry; exact Pm|now apply in_map]).
  apply in_map_iff in J as (p & E & J). apply (H p q E). rewrite Forall_forall in F. now apply F.
Qed.
Lemma named path ts n : (exists j s, nth_error ts j = Some s /\ file_name path s = Ok n) \/ (forall s, In s ts -> file_name path s <> Ok n).
Proof.
  induction ts as [|s ts [(j & t & J & E)|N]]; [right; intros s []|left; exists (S j), t; split; assumption|].
  destruct (file_name path s) as [m| | |] eqn:E.
  - destruct (string_dec m n) as [->|D]; [left; exists 0%nat, s; split; [reflexivity|exact E]|]. right. intros t [<-|I]; [congruence|now apply N].
  - right. intros t [<-|I]; [congruence|now apply N].
  - right. intros t [<-|I]; [congruence|now apply N].
  - right. intros t [<-|I]; [congruence|now apply N].
Qed.

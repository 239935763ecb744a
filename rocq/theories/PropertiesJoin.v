(** * PropertiesJoin: converting two access units at once (C152). *)
From Verif Require Import Base BufioModel RingProofs NaluModel NaluSpec NaluProofs SplitProofs AvccProofs AnnexbProofs StretchSpec StretchProofs JoinProofs PropertiesNalu.
From Coq Require Import List.
Import ListNotations.
Local Open Scope list_scope.

(* ---------------------------------------------------------------------------------------- *)
(** ** C152 *)
(** What the conversion of [a] and the conversion of [b] write is what the conversion of [a ++ b] writes, when [b] begins with a start code
    and [a] ends neither in a zero byte nor in a bare start code. *)
Theorem C152_annexb2avcc : forall a four c m da ra ka db rb kb dst, let b := sc four ++ c :: m in bytes_ok a -> bytes_ok b -> closed_end a ->
  annexb2avcc da a = Ok (ra, ka) -> ka <= zlen da -> annexb2avcc db b = Ok (rb, kb) -> kb <= zlen db -> ka + kb <= zlen dst ->
  annexb2avcc dst (a ++ b) = Ok (firstn (Z.to_nat ka) ra ++ firstn (Z.to_nat kb) rb ++ skipn (Z.to_nat (ka + kb)) dst, ka + kb).
Proof.
  intros a four c m da ra ka db rb kb dst b Ba Bb Ca Ea La Eb Lb L. assert (Bab : bytes_ok (a ++ b)) by (unfold bytes_ok in *; now apply Forall_app).
  assert (One : forall d p r k us, found_units p us -> bytes_ok p -> annexb2avcc d p = Ok (r, k) -> k <= zlen d -> k = zlen (avcc us) /\ firstn (Z.to_nat k) r = avcc us).
  { clear. intros d p r k us F B E L. destruct (annexb2avcc_all p d B) as (us' & F' & E'). rewrite (found_unique _ _ _ F' F) in E'. rewrite E in E'.
    destruct (stored (zlen d) us) as [x|] eqn:S; [|discriminate E']. assert (k = zlen (avcc us)) by congruence. subst k. rewrite (stored_fits us _ L) in S. split; [reflexivity|].
    assert (r = x ++ skipn (length x) d) by congruence. assert (x = avcc us) by congruence. subst r x. unfold zlen. rewrite Nat2Z.id, firstn_app, firstn_all, Nat.sub_diag. cbn [firstn]. apply app_nil_r. }
  destruct (annexb2avcc_all a da Ba) as (us1 & F1 & _). destruct (annexb2avcc_all b db Bb) as (us2 & F2 & _). destruct (annexb2avcc_all (a ++ b) dst Bab) as (us & F & E).
  rewrite (found_unique _ _ _ F (found_join a us1 four c m us2 Ca F1 F2)) in E. destruct (One _ _ _ _ _ F1 Ba Ea La) as [Ka Ra]. destruct (One _ _ _ _ _ F2 Bb Eb Lb) as [Kb Rb]. rewrite Ra, Rb.
  assert (Ln : zlen (avcc (us1 ++ us2)) = ka + kb) by (rewrite avcc_app, zlen_app; lia). rewrite stored_fits in E by lia. rewrite E, Ln, <- Ln, avcc_app. unfold zlen. now rewrite Nat2Z.id, app_assoc.
Qed.
Print Assumptions C152_annexb2avcc.
(** The pieces of the two byte streams are the pieces of the joined one. *)
Theorem C152_split : forall a four c m, let b := sc four ++ c :: m in bytes_ok a -> bytes_ok b -> closed_end a -> 3 <= zlen a ->
  exists pa pb, split_nalu a = Ok pa /\ split_nalu b = Ok pb /\ split_nalu (a ++ b) = Ok (pa ++ pb).
Proof.
  intros a four c m b Ba Bb Ca La. assert (Lb : 3 <= zlen b) by (unfold b; rewrite zlen_app, zlen_sc, zlen_cons; pose proof (zlen_nonneg m); destruct four; cbn [sc_len]; lia).
  destruct (split_total (S (length a)) [] a Ba La ltac:(lia)) as (x & xs & Ea & _). destruct (split_total (S (length b)) [] b Bb Lb ltac:(lia)) as (y & ys & Eb & _).
  exists (x :: xs), (y :: ys). change (split_nalu a = Ok (x :: xs)) in Ea. change (split_nalu b = Ok (y :: ys)) in Eb. split; [exact Ea|]. split; [exact Eb|]. unfold b in *. rewrite split_join by assumption. now rewrite Ea, Eb.
Qed.
Print Assumptions C152_split.
(** In the other direction the second part loses one byte: only the first start code that is written has four bytes. *)
Theorem C152_avcc2annexb : forall us p dst, Forall avcc_unit_ok us -> bytes_ok p -> zlen (avcc us) + zlen p <= zlen dst ->
  exists r1 r2, avcc2annexb dst (avcc us) [] = Ok (r1 ++ skipn (length r1) dst, zlen r1) /\ avcc2annexb dst p [] = Ok (r2 ++ skipn (length r2) dst, zlen r2) /\
  let r := match r1 with [] => r2 | _ => r1 ++ tl r2 end in avcc2annexb dst (avcc us ++ p) [] = Ok (r ++ skipn (length r) dst, zlen r).
Proof.
  intros us p dst F B L. destruct (avcc_dec p B) as (us2 & t & -> & F2 & S). apply bytes_ok_app in B as [_ Bt]. rewrite zlen_app in L. pose proof (zlen_nonneg t) as Nt. pose proof (zlen_nonneg (avcc us)). pose proof (zlen_nonneg (avcc us2)).
  assert (Bd : forall l, zlen (annexb_norm (filter not_sei l)) <= zlen (avcc l)).
  { intros l. pose proof (render_bound (filter not_sei l) true false) as H1. rewrite render_norm in H1. pose proof (avcc_filter not_sei l). lia. }
  pose proof (Bd us). pose proof (Bd us2). pose proof (Bd (us ++ us2)) as B3. rewrite avcc_app, zlen_app in B3.
  exists (annexb_norm (filter not_sei us)), (annexb_norm (filter not_sei us2)).
  split; [apply (C29_avcc2annexb us dst F); lia|]. split; [apply avcc2annexb_spec; auto; [now rewrite render_norm|lia]|]. cbv zeta.
  rewrite app_assoc, <- avcc_app. assert (Ej : match annexb_norm (filter not_sei us) with [] => annexb_norm (filter not_sei us2) | _ => annexb_norm (filter not_sei us) ++ tl (annexb_norm (filter not_sei us2)) end = annexb_norm (filter not_sei (us ++ us2))).
  { clear. rewrite filter_app. destruct (filter not_sei us) as [|u l]; [reflexivity|]. cbn [annexb_norm app sc]. rewrite map_app, concat_app, <- !app_assoc. do 5 f_equal. f_equal. destruct (filter not_sei us2); reflexivity. }
  rewrite Ej. apply avcc2annexb_spec; auto; [now apply Forall_app|now rewrite render_norm|lia].
Qed.
Print Assumptions C152_avcc2annexb.
Example C152_example : let a := [0;0;0;1;103;1;0;0;1;104;5] in let b := [0;0;1;101;7;0;0;1;65;9] in closed_end a /\
  annexb2avcc (zeros 24) (a ++ b) = Ok ([0;0;0;2;103;1;0;0;0;2;104;5] ++ [0;0;0;2;101;7;0;0;0;2;65;9], 24) /\
  split_nalu (a ++ b) = Ok ([[0;0;0;1;103;1];[0;0;1;104;5]] ++ [[0;0;1;101;7];[0;0;1;65;9]]) /\
  avcc2annexb (zeros 11) ([0;0;0;2;103;1] ++ [0;0;0;2;104;5]) [] = Ok ([0;0;0;1;103;1] ++ [0;0;1;104;5], 11).
Proof.
  cbv zeta. split; [split; [cbn; lia|]; intros (P & _); vm_compute in P; discriminate P|]. repeat split; vm_compute; reflexivity.
Qed.
(** The condition on the end of the first part is needed: a zero byte at its end is taken for a part of the next start code, and a bare start
    code at its end becomes the beginning of a unit. *)
Example C152_zero_end : annexb2avcc (zeros 6) [0;0;1;7;0] = Ok ([0;0;0;2;7;0], 6) /\ annexb2avcc (zeros 5) [0;0;1;8] = Ok ([0;0;0;1;8], 5) /\
  annexb2avcc (zeros 10) ([0;0;1;7;0] ++ [0;0;1;8]) = Ok ([0;0;0;1;7;0;0;0;1;8], 10).
Proof. repeat split; vm_compute; reflexivity. Qed.
Example C152_bare_end : annexb2avcc (zeros 8) [0;0;1;7;0;0;1] = Ok ([0;0;0;4;7;0;0;1], 8) /\
  annexb2avcc (zeros 11) ([0;0;1;7;0;0;1] ++ [0;0;1;8]) = Ok ([0;0;0;1;7;0;0;0;2;1;8], 11).
Proof. repeat split; vm_compute; reflexivity. Qed.

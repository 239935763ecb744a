(** * PipelineProofs: DirectDataPipeline accumulates bytes until Fetch (C24). *)
From Verif Require Import Base CollectionsSpec BlockModel.

Inductive dp_op := DPWrite (d : list Z) | DPFetch | DPSeek (offset : Z) | DPPending.
Inductive dp_out := DPUnit | DPNum (z : Z) | DPBytes (l : list Z).

Definition dp_step (s : ddp) (o : dp_op) : ddp * res dp_out :=
  match o with
  | DPWrite d => match ddp_write s d with Ok (s', n) => (s', Ok (DPNum n)) | _ => (s, Panic) end
  | DPFetch => match ddp_fetch s with Ok (s', l) => (s', Ok (DPBytes l)) | _ => (s, Panic) end
  | DPSeek off => (ddp_seek s off, Ok DPUnit)
  | DPPending => (s, Ok (DPNum (ddp_pending s)))
  end.

(** The specification: a list of bytes; Seek by a negative offset drops that many from the end. *)
Definition dp_spec (q : list Z) (o : dp_op) : list Z * res dp_out :=
  match o with
  | DPWrite d => (q ++ d, Ok (DPNum (zlen (q ++ d))))
  | DPFetch => ([], Ok (DPBytes q))
  | DPSeek off => (firstn (Z.to_nat (zlen q + off)) q, Ok DPUnit)
  | DPPending => (q, Ok (DPNum (zlen q)))
  end.

Definition dp_op_ok (o : dp_op) : Prop := match o with DPSeek off => off <= 0 | _ => True end.

Definition dp_rel (s : ddp) (q : list Z) : Prop := exists rest, dp_data s = q ++ rest /\ dp_size s = zlen q.

Lemma slice_app_l (q r : list Z) : slice (q ++ r) 0 (zlen q) = Some q.
Proof.
  pose proof (zlen_nonneg q). pose proof (zlen_nonneg r). rewrite slice_some by (rewrite ?zlen_app; lia).
  cbn [Z.to_nat skipn]. rewrite Z.sub_0_r. f_equal. unfold zlen. rewrite Nat2Z.id. rewrite firstn_app, firstn_all, Nat.sub_diag. cbn. apply app_nil_r.
Qed.

Lemma dp_write_rel s q d : dp_rel s q -> exists s', ddp_write s d = Ok (s', zlen (q ++ d)) /\ dp_rel s' (q ++ d).
Proof.
  intros (rest & E & L). unfold ddp_write. rewrite E, L, zlen_app. pose proof (zlen_nonneg q). pose proof (zlen_nonneg d). pose proof (zlen_nonneg rest).
  replace (zlen q + zlen rest - zlen q) with (zlen rest) by lia.
  assert (X : exists rest', (if zlen rest <? zlen d then old <- of_opt (slice (q ++ rest) 0 (zlen q));; Ok (copy (zeros (Z.to_nat ((zlen q + zlen d) * 2))) old) else Ok (q ++ rest)) = Ok (q ++ rest') /\ zlen d <= zlen rest').
  { destruct (zlen rest <? zlen d) eqn:C.
    - rewrite slice_app_l. cbn [of_opt bind]. unfold copy. exists (skipn (length q) (zeros (Z.to_nat ((zlen q + zlen d) * 2)))).
      assert (length (zeros (Z.to_nat ((zlen q + zlen d) * 2))) = Z.to_nat ((zlen q + zlen d) * 2)) as Lz by apply repeat_length.
      split.
      + rewrite Lz. unfold zlen in *. rewrite firstn_all2 by lia. reflexivity.
      + unfold zlen in *. rewrite skipn_length, Lz. lia.
    - exists rest. split; [reflexivity|lia]. }
  destruct X as (rest' & -> & Hl). cbn [bind].
  assert (Y : copy_at (q ++ rest') (zlen q) d = Some (q ++ d ++ skipn (length d) rest')).
  { rewrite copy_at_some by (rewrite zlen_app; pose proof (zlen_nonneg rest'); lia).
    f_equal. unfold zlen in *. rewrite Nat2Z.id, firstn_app, firstn_all, Nat.sub_diag. cbn [firstn]. rewrite app_nil_r. f_equal.
    rewrite skipn_app, skipn_all, Nat.sub_diag. cbn [skipn app]. unfold copy. rewrite firstn_all2 by lia. reflexivity. }
  rewrite Y. cbn [of_opt bind]. eexists. rewrite (zlen_app q d). split; [reflexivity|]. exists (skipn (length d) rest'). cbn [dp_data dp_size].
  rewrite app_assoc, zlen_app. auto.
Qed.

Lemma dp_step_sim s q o : dp_op_ok o -> dp_rel s q ->
  dp_rel (fst (dp_step s o)) (fst (dp_spec q o)) /\ snd (dp_step s o) = snd (dp_spec q o).
Proof.
  intros K R. destruct o; cbn [dp_step dp_spec].
  - destruct (dp_write_rel s q d R) as (s' & E & R'). rewrite E. auto.
  - destruct R as (rest & E & L). unfold ddp_fetch. rewrite E, L, slice_app_l. cbn [of_opt bind fst snd]. split; [|reflexivity].
    exists (q ++ rest). auto.
  - cbn [dp_op_ok] in K. destruct R as (rest & E & L). cbn [fst snd]. split; [|reflexivity]. unfold ddp_seek, dp_rel. cbn [dp_data dp_size].
    exists (skipn (Z.to_nat (zlen q + offset)) q ++ rest). rewrite app_assoc, firstn_skipn. split; [auto|]. rewrite L.
    unfold zlen. rewrite firstn_length. lia.
  - destruct R as (rest & E & L). unfold ddp_pending. cbn [fst snd]. rewrite L. split; [exists rest; auto|reflexivity].
Qed.

(** * PropertiesPipe: C103, the memory of DirectDataPipeline. *)
From Verif Require Import Base CollectionsSpec BlockModel HeapProofs PipelineProofs PipeModel PipeSpec PipeProofs.

(** ** C103 *)
(** A slice returned by Fetch does not keep its bytes. *)
Theorem C103_fetch_kept_refuted : ~ (forall h ops1 ops2 h0 p0 h1 p1 xs1 p2 s h' p' xs2 l, hp_new h = Ok (h0, p0) -> pp_calls h0 p0 ops1 = Ok (h1, p1, xs1) ->
  hp_fetch p1 = Ok (p2, s) -> read h1 s = Ok l -> pp_calls h1 p2 ops2 = Ok (h', p', xs2) -> read h' s = Ok l).
Proof.
  intros H. specialize (H [] [PWrite [1; 2; 3]] [PWrite [9]]).
  specialize (H _ _ _ _ _ _ _ _ _ _ [1; 2; 3] eq_refl eq_refl eq_refl eq_refl eq_refl). vm_compute in H. discriminate H.
Qed.
Print Assumptions C103_fetch_kept_refuted.

(** What it shows after any further calls. *)
Theorem C103_fetch_exact : forall h ops1 ops2 h0 p0 h1 p1 xs1 p2 s h' p' xs2, hp_new h = Ok (h0, p0) -> pp_calls h0 p0 ops1 = Ok (h1, p1, xs1) ->
  hp_fetch p1 = Ok (p2, s) -> pp_calls h1 p2 ops2 = Ok (h', p', xs2) ->
  exists l, read h1 s = Ok l /\ read h' s = Ok (seen_through (fst (fold_left geom ops1 (0, 0)), 0) l ops2).
Proof. exact fetched_exact. Qed.
Print Assumptions C103_fetch_exact.

(** It keeps its bytes until the next Write of at least one byte. *)
Theorem C103_until_write_partial : forall h ops1 ops2 h0 p0 h1 p1 xs1 p2 s h' p' xs2 l, hp_new h = Ok (h0, p0) -> pp_calls h0 p0 ops1 = Ok (h1, p1, xs1) ->
  hp_fetch p1 = Ok (p2, s) -> read h1 s = Ok l -> Forall (fun o => match o with PWrite d => d = [] | _ => True end) ops2 ->
  pp_calls h1 p2 ops2 = Ok (h', p', xs2) -> read h' s = Ok l.
Proof.
  intros h ops1 ops2 h0 p0 h1 p1 xs1 p2 s h' p' xs2 l N R1 F R W R2. destruct (fetched_exact _ _ _ _ _ _ _ _ _ _ _ _ _ N R1 F R2) as (l' & R' & Q).
  assert (l' = l) by congruence. subst l'. now rewrite no_write_keeps in Q.
Qed.
Print Assumptions C103_until_write_partial.

(** Read when it is returned, every result is that of the value model of C24. *)
Theorem C103_value_model : forall h ops h0 p0, hp_new h = Ok (h0, p0) -> pp_watch h0 p0 ops = value_calls ddp_new ops.
Proof.
  intros h ops h0 p0 N. apply value_watch; [exact (live_new _ _ _ N)|]. unfold hp_new in N. rewrite make_ok in N by lia. cbn [bind] in N. now injection N as <- <-.
Qed.
Print Assumptions C103_value_model.

(** Write and Fetch panic exactly when Seek moved the fill level past the array. *)
Theorem C103_panics : forall h ops h0 p0 h1 p1 xs, hp_new h = Ok (h0, p0) -> pp_calls h0 p0 ops = Ok (h1, p1, xs) -> forall o,
  let g := fold_left geom ops (0, 0) in
  (pp_panics g o = true -> pp_call h1 p1 o = Panic) /\ (pp_panics g o = false -> exists x, pp_call h1 p1 o = Ok x).
Proof.
  intros h ops h0 p0 h1 p1 xs N R o g. destruct (pp_calls_live _ _ _ _ _ _ _ (live_new _ _ _ N) R) as (a & L & G & _).
  assert (S0 : hp_size p0 = 0) by (unfold hp_new in N; rewrite make_ok in N by lia; cbn [bind] in N; now injection N as <- <-).
  rewrite S0 in G. change (zlen (@nil Z)) with 0 in G. fold g in G. rewrite <- G. now apply pp_call_total.
Qed.
Print Assumptions C103_panics.

(** The second Write goes over the start of the slice, the third, which moves to a new array, does not touch it. *)
Example C103_example : exists h0 p0 h1 p1 p2 s, hp_new [] = Ok (h0, p0) /\ pp_calls h0 p0 [PWrite [1; 2; 3]] = Ok (h1, p1, [PNum 3]) /\
  hp_fetch p1 = Ok (p2, s) /\ read h1 s = Ok [1; 2; 3] /\
  (exists h2 p3 xs, pp_calls h1 p2 [PWrite [9]; PSeek 1; PWrite [8; 7; 6; 5; 4]; PWrite [0]] = Ok (h2, p3, xs) /\ read h2 s = Ok [9; 2; 3]) /\
  (exists h2 p3 xs, pp_calls h1 p2 [PWrite [9]; PSeek 1; PWrite [8; 7]; PSeek (-4); PWrite [6]] = Ok (h2, p3, xs) /\ read h2 s = Ok [6; 2; 8]) /\
  pp_calls h1 p2 [PSeek 7; PFetch] = Panic.
Proof.
  do 6 eexists. split; [reflexivity|]. split; [reflexivity|]. split; [reflexivity|]. split; [reflexivity|]. split; [do 3 eexists; split; [vm_compute; reflexivity|reflexivity]|].
  split; [do 3 eexists; split; [vm_compute; reflexivity|reflexivity]|]. vm_compute. reflexivity.
Qed.

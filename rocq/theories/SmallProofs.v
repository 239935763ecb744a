(** * SmallProofs: a boolean test for sessions whose buffers take all blocks. *)
(** The runs of the system hold the rings of the stream buffers, so they are slow to evaluate. [small] tests a session on the demuxer
    that holds its data by value; it gives [sys_fits], and the recording is the one [fh_session] makes ([small_rec]). *)
From Coq Require Import String List Permutation.
From Verif Require Import Base CollectionsSpec BlockModel BlockSpec PacketModel DemuxModel DemuxProofs DeliverySpec DeliveryProofs HandlerModel HandlerSpec HandlerProofs
  SystemSpec SystemProofs SystemGrowSpec SystemGrowProofs RecordingModel RecordingProofs.
Import ListNotations.
Local Open Scope list_scope.

Fixpoint zlist_eqb (a b : list Z) : bool := match a, b with [], [] => true | x :: s, y :: t => (x =? y) && zlist_eqb s t | _, _ => false end.
Lemma zlist_eqb_eq a : forall b, zlist_eqb a b = true -> a = b.
Proof. induction a as [|x s IH]; intros [|y t] H; try discriminate; [reflexivity|]. cbn in H. apply andb_prop in H as [H1 H2]. apply Z.eqb_eq in H1 as ->. f_equal. now apply IH. Qed.

Definition supply_okb (d : demuxer) (caps : list bool) (a : op) (chunks : list (list Z)) : bool :=
  match call_block a with
  | None => true
  | Some (buf, data) =>
    zlist_eqb (concat chunks) data && match chunks with [] => false | _ => true end && (0 <=? buf) && (buf <=? zlen caps) &&
    (bytes_of (waiting buf d) + zlen data <=? stream_half (nth (Z.to_nat buf) (open_stream caps a) false))
  end.
Fixpoint suppliedb (d : demuxer) (caps : list bool) (l : list call) : bool :=
  match l with
  | [] => true
  | ((o, a), chunks) :: t => supply_okb d caps a chunks && match step o d a with Ok (d1, _) => suppliedb d1 (open_stream caps a) t | _ => true end
  end.
Lemma suppliedb_ok l : forall d caps, suppliedb d caps l = true -> supplied d caps l.
Proof.
  induction l as [|[[o a] chunks] t IH]; intros d caps H; [exact I|]. cbn [suppliedb supplied] in *. apply andb_prop in H as [H1 H2]. split.
  - unfold supply_okb, supply_ok in *. destruct (call_block a) as [[buf data]|]; [|exact I]. repeat (apply andb_prop in H1 as [H1 ?]). apply zlist_eqb_eq in H1.
    destruct chunks; [discriminate|]. repeat split; try lia; [exact H1|discriminate].
  - destruct (step o d a) as [[d1 e]| | |]; auto.
Qed.

Definition alignedb (evs : list event) : bool := forallb (fun e => match e with EvAdd p n => (0 <=? pk_index p) && (pk_index p <=? n) | _ => true end) evs.
Fixpoint nodupb (l : list Z) : bool := match l with [] => true | x :: t => forallb (fun y => negb (x =? y)) t && nodupb t end.
Lemma alignedb_ok evs : alignedb evs = true -> aligned evs.
Proof. unfold alignedb, aligned. rewrite forallb_forall. intros H. apply Forall_forall. intros e I. specialize (H e I). destruct e; auto. lia. Qed.
Lemma nodupb_ok l : nodupb l = true -> NoDup l.
Proof.
  induction l as [|x t IH]; intros H; [constructor|]. cbn in H. apply andb_prop in H as [H1 H2]. constructor; [|auto]. intros I. rewrite forallb_forall in H1. specialize (H1 x I). rewrite Z.eqb_refl in H1. discriminate.
Qed.

Definition simple_op (a : op) : bool := match a with OpSetPre (Some _) | OpDiscardBack _ | OpDiscardHead _ => false | OpSetAutoFree b => b | _ => true end.
Definition small (name : string) (calls : list call) : bool :=
  match calls with
  | ((_, OpSetAutoFree true), _) :: l =>
    forallb (fun c => simple_op (snd (fst c))) l &&
    match run (dm_new name) (map fst calls) with Ok (d, evs) => alignedb evs && nodupb (map snd (dm_map d)) | _ => false end &&
    suppliedb (dm_new name) [] calls
  | _ => false
  end.
Lemma small_rec path f0 name calls : small name calls = true -> Forall sorting (map fst calls) ->
  sys_fits (sys_new name) calls /\
  exists y, rec_run path (sys_new name) f0 calls = ('(_, evs) <- run (dm_new name) (map fst calls);; f <- fh_session path f0 evs;; Ok (y, f)).
Proof.
  intros H So. destruct calls as [|[[o a] c] l]; [discriminate|]. destruct a as [| | | | | | | | |b| | | |]; try discriminate. destruct b; [|discriminate].
  unfold small in H. apply andb_prop in H as [H Su]. apply andb_prop in H as [Si H]. apply suppliedb_ok in Su. cbn [map fst] in *.
  destruct (run (dm_new name) ((o, OpSetAutoFree true) :: map fst l)) as [[d evs]| | |] eqn:R; try discriminate. apply andb_prop in H as [Al N]. apply alignedb_ok in Al. apply nodupb_ok in N.
  assert (D : Forall delivery_op (map fst l)).
  { apply Forall_map, Forall_forall. intros [[o' a] ch] I. rewrite forallb_forall in Si. specialize (Si _ I). unfold delivery_op. cbn [fst snd] in *. destruct a; try discriminate; auto. destruct f; [discriminate|exact Logic.I]. }
  assert (W : Forall well_behaved ((o, OpSetAutoFree true) :: map fst l)).
  { apply Forall_cons_iff in So as [So1 So]. constructor; [split; [exact So1|exact Logic.I]|]. rewrite Forall_map in So |- *. rewrite Forall_forall in So |- *. intros [[o' a] ch] I. specialize (So _ I). split; [exact So|].
    rewrite forallb_forall in Si. specialize (Si _ I). unfold op_hook_ok. cbn [fst snd] in *. destruct a; try discriminate; auto. destruct f; [discriminate|exact Logic.I]. }
  pose proof (supplied_fits name o c l d evs W D R Al N Su) as Fi. split; [exact Fi|].
  destruct (reach_rec path f0 name o c l d evs W D R Al N Fi) as (y & out & _ & _ & _ & E). exists y. exact E.
Qed.
(** [small_run E F path f0 name calls ok]: the session fits ([F]), and its recording is the memory-free one ([E]); all calls use the oracle of [ok]. *)
Ltac small_sort ok := repeat (apply Forall_cons; [exact ok|]); apply Forall_nil.
Ltac small_run E F path f0 name calls ok :=
  let y := fresh "y" in
  assert (exists y, rec_run path (sys_new name) f0 calls = ('(_, evs) <- run (dm_new name) (map fst calls);; f <- fh_session path f0 evs;; Ok (y, f))) as [y E];
  [apply small_rec; [vm_compute; reflexivity|small_sort ok]|];
  assert (sys_fits (sys_new name) calls) as F by (apply (small_rec path f0); [vm_compute; reflexivity|small_sort ok]).

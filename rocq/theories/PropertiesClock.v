(** * PropertiesClock: C132, durations add up to times. *)
From Coq Require Import String List Sorted Lia.
From Verif Require Import Base CollectionsSpec NaluModel AacModel PacketModel DemuxModel DemuxProofs PropertiesDemux UtilModel ArrivalSpec PropertiesArrival.
Import ListNotations.
Local Open Scope list_scope.

(* ---------------------------------------------------------------------------------------- *)
(** ** C132 The durations of a stream add up to its times *)
Definition sum (l : list Z) : Z := fold_right Z.add 0 l.
(** The times of two packets are less than 2^63 apart. *)
Definition near (l : list packet) : Prop := forall p q, In p l -> In q l -> pk_dts q - pk_dts p < 2 ^ 63.
Lemma clock l : ascending l -> near l -> Forall (fun p => 0 < pk_duration p) (removelast (durs l)) /\
  forall k p q, nth_error l 0 = Some p -> nth_error l k = Some q -> pk_dts q = pk_dts p + sum (map pk_duration (firstn k (removelast (durs l)))).
Proof.
  induction l as [|x [|y t] IH]; intros A N.
  - split; [constructor|]. intros k p q E. discriminate.
  - split; [constructor|]. intros [|[|k]] p q E E'; try discriminate. rewrite E in E'. injection E' as ->. cbn. lia.
  - inversion A as [|? ? A1 Fa]; subst. assert (N1 : near (y :: t)) by (intros p q Ip Iq; apply N; now right). destruct (IH A1 N1) as [P S]. clear IH.
    assert (L : dts_lt x y) by (inversion Fa; assumption). unfold dts_lt in L. specialize (N x y (or_introl eq_refl) (or_intror (or_introl eq_refl))).
    assert (I : i64 (pk_dts y - pk_dts x) = pk_dts y - pk_dts x) by (apply i64_id; unfold is_i64; lia).
    change (durs (x :: y :: t)) with (set_duration x (i64 (pk_dts y - pk_dts x)) :: durs (y :: t)). rewrite I.
    assert (R : forall z, removelast (z :: durs (y :: t)) = z :: removelast (durs (y :: t))) by (intros z; destruct t; reflexivity). rewrite R. split.
    + constructor; [cbn; lia|exact P].
    + intros [|k] p q E E'; cbn [nth_error] in E; injection E as <-; [cbn in E'; injection E' as <-; cbn; lia|]. cbn [firstn map sum fold_right]. cbn [nth_error] in E'. specialize (S k y q eq_refl E'). unfold sum in S. cbn [pk_duration set_duration]. lia.
Qed.
(** For a session whose streams are heard of in turn: the durations of the packets delivered for a stream are positive and, added to the time of the first packet, give the time of every packet, of the one
    that is still kept as well. *)
Theorem C132_clock : forall name h d evs, Forall sorting h -> run (dm_new name) h = Ok (d, evs) -> in_turn (map pk_index (accepted evs)) -> dm_completed d = true ->
  forall i, let own := of_index (Z.of_nat i) (accepted evs) in let out := of_index (Z.of_nat i) (delivered evs) in ascending own -> near own ->
  length out = pred (length own) /\ Forall (fun p => 0 < pk_duration p) out /\
  forall k p q, nth_error own 0 = Some p -> nth_error own k = Some q -> pk_dts q = pk_dts p + sum (map pk_duration (firstn k out)).
Proof.
  intros name h d evs S R T C i own out A N. apply (C130_iff _ _ _ _ R) in T. pose proof (C67_order_partial _ _ _ _ S R T i A) as O. rewrite C in O. subst out. rewrite O. fold own.
  split; [|now apply clock]. assert (L : forall l : list packet, length (removelast l) = pred (length l)) by (induction l as [|x [|y t] IH]; [reflexivity|reflexivity|]; cbn [removelast length] in *; now rewrite IH).
  now rewrite L, durs_length.
Qed.
(** Times further apart: a duration that is not positive. *)
Definition C132_far : list (oracle * op) := map (pair o0) [OpSetHandler; OpAudio 0 G711A [1] (- 2 ^ 63); OpAudio 0 G711A [2] (2 ^ 63 - 1); OpProbeComplete].
Theorem C132_wrap : exists d evs, run (dm_new "ts") C132_far = Ok (d, evs) /\ dm_completed d = true /\ aligned evs /\ ascending (of_index 0 (accepted evs)) /\ map pk_duration (of_index 0 (delivered evs)) = [-1].
Proof. do 2 eexists. split; [vm_compute; reflexivity|]. split; [reflexivity|]. split; [repeat constructor; cbn; lia|]. split; [repeat constructor; unfold dts_lt; cbn; lia|]. reflexivity. Qed.
Example C132_example : exists d evs, run (dm_new "ts") (map (pair o0) [OpSetHandler; OpAudio 0 G711A [1] 100; OpAudio 0 G711A [2] 130; OpProbeComplete; OpAudio 0 G711A [3] 175; OpAudio 0 G711A [4] 180]) = Ok (d, evs) /\
  in_turn (map pk_index (accepted evs)) /\ dm_completed d = true /\ ascending (of_index 0 (accepted evs)) /\ near (of_index 0 (accepted evs)) /\ map pk_dts (of_index 0 (accepted evs)) = [100; 130; 175; 180] /\
  map pk_duration (of_index 0 (delivered evs)) = [30; 45; 5].
Proof.
  eexists ?[d], ?[evs]. assert (R : run (dm_new "ts") (map (pair o0) [OpSetHandler; OpAudio 0 G711A [1] 100; OpAudio 0 G711A [2] 130; OpProbeComplete; OpAudio 0 G711A [3] 175; OpAudio 0 G711A [4] 180]) = Ok (?d, ?evs)) by (vm_compute; reflexivity).
  split; [exact R|]. split; [apply (C130_iff _ _ _ _ R); repeat constructor; cbn; lia|]. split; [reflexivity|]. split; [repeat constructor; unfold dts_lt; cbn; lia|].
  split; [|split; reflexivity]. intros p q Ip Iq. cbn in Ip, Iq. repeat (destruct Ip as [<-|Ip]; [repeat (destruct Iq as [<-|Iq]; [cbn; lia|]); destruct Iq|]). destruct Ip.
Qed.
Print Assumptions C132_clock.
Print Assumptions C132_wrap.

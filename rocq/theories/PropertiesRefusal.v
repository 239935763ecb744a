(** * PropertiesRefusal: packets that the demuxer refuses leave no trace (C148). *)
From Verif Require Import Base NaluModel RecordModel AacModel PacketModel DemuxModel PropertiesDemux.
From Coq Require Import String.
Local Open Scope list_scope.

(** The input block of a packet call. *)
Definition input_of (a : op) : option Z := match a with OpAudio b _ _ _ => Some b | OpVideo b _ _ _ _ _ => Some b | _ => None end.
Definition is_add (e : event) : bool := match e with EvAdd _ _ => true | _ => false end.
(** A packet call that put no packet into a list. *)
Definition refuses (a : op) (e : list event) : bool := match input_of a with Some _ => negb (existsb is_add e) | None => false end.

Lemma add_track_none d s b : snd (add_track d s b) = None -> fst (add_track d s b) = d.
Proof. unfold add_track. destruct (dm_completed d); [reflexivity|discriminate]. Qed.
Lemma create_audio_none d b i t e c d1 : create_audio_track d b i t e c = Ok (d1, None) -> d1 = d.
Proof.
  unfold create_audio_track. cbv zeta.
  assert (A : forall s, Ok (add_track d s b) = Ok (d1, None) -> d1 = d).
  { intros s E. assert (X : add_track d s b = (d1, None)) by congruence. pose proof (add_track_none d s b) as N. rewrite X in N. now apply N. }
  destruct (_ && _); [|apply A]. destruct e as [l|]; [|discriminate]. destruct (parse_asc l); [apply A|congruence|discriminate|discriminate].
Qed.
Lemma create_video_none o d b i t e d1 : create_video_track o d b i t e = Ok (d1, None) -> d1 = d.
Proof.
  unfold create_video_track. destruct (generate_video_codec_data _ _ _ _) as [c| | |]; [|congruence|discriminate|discriminate].
  intros E. match type of E with Ok ?x = _ => assert (X : x = (d1, None)) by congruence end. match type of X with add_track _ ?s _ = _ => pose proof (add_track_none d s b) as N end.
  rewrite X in N. now apply N.
Qed.
Lemma process_adds o d p d1 e : process_buffered_packet o d p = Ok (d1, e) -> existsb is_add e = true.
Proof.
  unfold process_buffered_packet. cbv zeta. intros H.
  destruct (idx _ _) as [l|]; cbn [of_opt bind] in H; [|discriminate]. destruct (_ <? 0).
  { destruct (upd _ _ _); cbn [of_opt bind] in H; [|discriminate]. apply (f_equal (fun r => match r with Ok x => snd x | _ => [] end)) in H. cbn in H. now subst e. }
  destruct (idx _ _) as [q|]; cbn [of_opt bind] in H; [|discriminate]. destruct (upd _ _ _) as [l2|]; cbn [of_opt bind] in H; [|discriminate].
  destruct (dm_completed d).
  - destruct (upd _ _ _); cbn [of_opt bind] in H; [|discriminate]. destruct (forward_packet _ _); cbn [bind] in H; try discriminate.
    apply (f_equal (fun r => match r with Ok x => snd x | _ => [] end)) in H. cbn [snd] in H. now subst e.
  - destruct (upd _ _ _); cbn [of_opt bind] in H; [|discriminate]. destruct (_ <=? _).
    + destruct (on_probe_complete _ _) as [[d2 e2]| | |]; cbn [bind] in H; try discriminate. apply (f_equal (fun r => match r with Ok x => snd x | _ => [] end)) in H. cbn [snd] in H. now subst e.
    + apply (f_equal (fun r => match r with Ok x => snd x | _ => [] end)) in H. cbn [snd] in H. now subst e.
Qed.

(** ** C148 A refused packet leaves the demuxer as it was, and its block is discarded. *)
Theorem C148_state : forall o d a d1 e, step o d a = Ok (d1, e) -> refuses a e = true ->
  exists buf, input_of a = Some buf /\ d1 = d /\ e = [EvDiscardBack buf].
Proof.
  intros o d a d1 e H R. unfold refuses in R. destruct (input_of a) as [b|] eqn:I; [|discriminate]. apply negb_true_iff in R. exists b. split; [reflexivity|].
  destruct a; try discriminate; cbn [input_of] in I; injection I as ->; cbn [step] in H.
  - unfold on_audio_packet in H. destruct (find_track o d b) as [[s|]| | |]; cbn [bind] in H; try discriminate; [apply process_adds in H; congruence|].
    match type of H with bind ?m _ = _ => destruct m as [[d2 [s|]]| | |] eqn:M end; cbn [bind] in H; try discriminate; [apply process_adds in H; congruence|].
    assert (d2 = d).
    { destruct (dm_completed d); [congruence|]. destruct (extract_audio_extra_data id data) as [[[ex sk] c]| | |]; try congruence.
      destruct (get_timebase (dm_name d)); cbn [bind] in M; try discriminate. now apply create_audio_none in M. }
    subst d2. split; congruence.
  - unfold on_video_packet in H. destruct (find_track o d b) as [[s|]| | |]; cbn [bind] in H; try discriminate; [apply process_adds in H; congruence|].
    match type of H with bind ?m _ = _ => destruct m as [[d2 [s|]]| | |] eqn:M end; cbn [bind] in H; try discriminate; [apply process_adds in H; congruence|].
    assert (d2 = d).
    { destruct (negb _ && _); [|congruence]. match type of M with bind ?m _ = _ => destruct m as [x| | |] end; cbn [bind] in M; try discriminate.
      match type of M with bind ?m _ = _ => destruct m as [[y|]| | |] end; cbn [bind] in M; try discriminate; [|congruence].
      destruct (get_timebase (dm_name d)); cbn [bind] in M; try discriminate. now apply create_video_none in M. }
    subst d2. split; congruence.
Qed.
Print Assumptions C148_state.

(** The calls after it go as if it had not been there. *)
Theorem C148_next : forall o d a d1 e l, step o d a = Ok (d1, e) -> refuses a e = true ->
  run d ((o, a) :: l) = ('(d2, e2) <- run d l;; Ok (d2, e ++ e2)).
Proof. intros o d a d1 e l H R. cbn [run]. rewrite H. cbn [bind]. destruct (C148_state o d a d1 e H R) as (b & _ & -> & _). reflexivity. Qed.
Print Assumptions C148_next.

(** The session without its refused calls, and the events of these calls. *)
Fixpoint without (d : demuxer) (l : list (oracle * op)) : list (oracle * op) :=
  match l with
  | [] => []
  | (o, a) :: t => match step o d a with Ok (d1, e) => if refuses a e then without d1 t else (o, a) :: without d1 t | _ => l end
  end.
(** The events of a session call by call. *)
Fixpoint replies (d : demuxer) (l : list (oracle * op)) : list (op * list event) :=
  match l with [] => [] | (o, a) :: t => match step o d a with Ok (d1, e) => (a, e) :: replies d1 t | _ => [] end end.

Lemma run_replies : forall l d d1 e, run d l = Ok (d1, e) -> e = List.concat (map snd (replies d l)).
Proof.
  induction l as [|[o a] l IH]; intros d d1 e; cbn [run replies]; [intros [= <- <-]; reflexivity|].
  destruct (step o d a) as [[d2 e2]| | |]; cbn [bind]; try discriminate. destruct (run d2 l) as [[d3 e3]| | |] eqn:R; cbn [bind]; try discriminate.
  intros E. assert (X : d3 = d1 /\ e2 ++ e3 = e) by (split; congruence). destruct X as [_ <-]. cbn [map snd List.concat]. now rewrite <- (IH _ _ _ R).
Qed.

Theorem C148_session : forall l d d1 e, run d l = Ok (d1, e) ->
  exists e', run d (without d l) = Ok (d1, e') /\ replies d (without d l) = filter (fun r => negb (refuses (fst r) (snd r))) (replies d l).
Proof.
  induction l as [|[o a] l IH]; intros d d1 e H; [exists []; split; [cbn [run without] in *; congruence|reflexivity]|].
  cbn [run without replies] in *. destruct (step o d a) as [[d2 e2]| | |] eqn:S; cbn [bind] in H; try discriminate.
  destruct (run d2 l) as [[d3 e3]| | |] eqn:R; cbn [bind] in H; try discriminate. assert (d3 = d1) by congruence. subst d3.
  destruct (IH d2 d1 e3 R) as (e' & E & F). cbn [filter fst snd]. destruct (refuses a e2) eqn:Q; cbn [negb].
  - destruct (C148_state o d a d2 e2 S Q) as (b & _ & -> & _). exists e'. split; [exact E|exact F].
  - exists (e2 ++ e'). cbn [run replies]. rewrite S. cbn [bind]. rewrite E. cbn [bind]. split; [reflexivity|]. now rewrite F.
Qed.
Print Assumptions C148_session.

(** A video packet without parameter sets and an AAC packet without header, between packets of a PCM stream. *)
Definition session148 : list (oracle * op) :=
  [(o0, OpSetHandler); (o0, OpVideo 1 AVCodecIdH264 [0; 0; 1; 65; 9] false 0 0); (o0, OpAudio 0 AVCodecIdPCMALAW [1; 2] 0); (o0, OpAudio 2 AVCodecIdAAC [1; 2; 3] 0);
   (o0, OpAudio 0 AVCodecIdPCMALAW [3; 4] 40); (o0, OpVideo 1 AVCodecIdH264 [0; 0; 1; 103; 66] true 40 40); (o0, OpProbeComplete)].
Example C148_example :
  (exists d e, run (dm_new "ps") session148 = Ok (d, e) /\ List.length e = 8%nat) /\
  map snd (without (dm_new "ps") session148) = [OpSetHandler; OpAudio 0 AVCodecIdPCMALAW [1; 2] 0; OpAudio 0 AVCodecIdPCMALAW [3; 4] 40; OpProbeComplete].
Proof. split; [do 2 eexists; split; vm_compute; reflexivity|vm_compute; reflexivity]. Qed.

(** A track that is not accepted leaves the demuxer as it was, too. *)
Theorem C148_track : forall o d a d1 e, step o d a = Ok (d1, e) -> match a with OpNewAudio _ _ _ _ _ | OpNewVideo _ _ _ _ => True | _ => False end ->
  d1 = d \/ exists s, dm_tracks d1 = dm_tracks d ++ [s].
Proof.
  assert (A : forall d s b x, add_track d s b = x -> fst x = d \/ exists s, dm_tracks (fst x) = dm_tracks d ++ [s]).
  { intros d s b x <-. unfold add_track. destruct (dm_completed d); [left; reflexivity|right; exists s; reflexivity]. }
  assert (AU : forall d b i t ex c d1 x, create_audio_track d b i t ex c = Ok (d1, x) -> d1 = d \/ exists s, dm_tracks d1 = dm_tracks d ++ [s]).
  { intros d b i t ex c d1 x. unfold create_audio_track. cbv zeta. intros H. destruct (_ && _).
    - destruct ex as [l|]; [|discriminate]. destruct (parse_asc l); try discriminate; [|left; congruence].
      match type of H with Ok ?y = _ => assert (X : y = (d1, x)) by congruence end. apply A in X. exact X.
    - match type of H with Ok ?y = _ => assert (X : y = (d1, x)) by congruence end. apply A in X. exact X. }
  assert (VI : forall o d b i t ex d1 x, create_video_track o d b i t ex = Ok (d1, x) -> d1 = d \/ exists s, dm_tracks d1 = dm_tracks d ++ [s]).
  { intros o d b i t ex d1 x. unfold create_video_track. destruct (generate_video_codec_data _ _ _ _) as [c| | |]; try discriminate; [|intros; left; congruence].
    intros H. match type of H with Ok ?y = _ => assert (X : y = (d1, x)) by congruence end. apply A in X. exact X. }
  intros o d a d1 e H K. destruct a; try contradiction; cbn [step] in H.
  - unfold on_new_audio_track in H. match type of H with bind ?m _ = _ => destruct m as [[d2 x]| | |] eqn:M end; cbn [bind] in H; try discriminate.
    assert (d2 = d1) by congruence. subst d2. destruct (tm_find_type _ _); [destruct (_ =? _)%string|]; [eapply AU; exact M|left; congruence|eapply AU; exact M].
  - unfold on_new_video_track in H. match type of H with bind ?m _ = _ => destruct m as [[d2 x]| | |] eqn:M end; cbn [bind] in H; try discriminate.
    assert (d2 = d1) by congruence. subst d2. destruct (tm_find_type _ _); [destruct (_ =? _)%string|]; [eapply VI; exact M|left; congruence|eapply VI; exact M].
Qed.
Print Assumptions C148_track.

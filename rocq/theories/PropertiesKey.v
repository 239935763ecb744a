(** * PropertiesKey: key frames and parameter sets in arbitrary bytes and in joined access units (C34, C35, C155). *)
From Verif Require Import Base BufioModel RingProofs NaluModel NaluSpec NaluProofs SplitProofs AvccProofs AnnexbProofs JoinProofs KeyProofs PropertiesNalu PropertiesJoin.
From Coq Require Import List.
Import ListNotations.
Local Open Scope list_scope.

(* ---------------------------------------------------------------------------------------- *)
(** ** C34, C35: for all bytes *)
(** True exactly when some start code is followed by the header of an IDR slice and every start code before it by that of an SEI, AUD, SPS or PPS. *)
Theorem C34_avc_key_frame_exact : forall p, bytes_ok p -> exists b, avc_is_key_frame p = Ok b /\
  (b = true <-> exists k c, header_at p k c /\ c mod 32 = 5 /\ forall j d, j < k -> header_at p j d -> In (d mod 32) [6; 7; 8; 9]).
Proof.
  intros p B. destruct (avc_key_exact p B (S (length p)) 0) as (b & E & H); [pose proof (zlen_nonneg p); lia|unfold zlen; lia|]. exists b. split; [exact E|]. rewrite H.
  assert (R : forall k c, header_at p k c -> 0 <= k) by (intros k c [[(P & _) _] _]; apply idx_inv in P; lia). split.
  - intros (k & c & _ & Hd & Hc & A). exists k, c. split; [exact Hd|]. split; [unfold avc_hit in Hc; lia|]. intros j d Hj Hdj. specialize (A j d ltac:(pose proof (R _ _ Hdj); lia) Hdj). unfold avc_skip in A. cbv zeta in A. cbn [In]. lia.
  - intros (k & c & Hd & Hc & A). exists k, c. split; [exact (R _ _ Hd)|]. split; [exact Hd|]. split; [unfold avc_hit; lia|]. intros j d [_ Hj] Hdj. specialize (A j d Hj Hdj). unfold avc_skip. cbv zeta. cbn [In] in A. lia.
Qed.
Print Assumptions C34_avc_key_frame_exact.
Theorem C35_hevc_key_frame_exact : forall p, bytes_ok p -> exists b, hevc_is_key_frame p = Ok b /\
  (b = true <-> exists k c, header_at p k c /\ 16 <= (c / 2) mod 64 <= 23 /\ forall j d, j < k -> header_at p j d -> In ((d / 2) mod 64) [32; 33; 34; 35; 39; 40]).
Proof.
  intros p B. destruct (hevc_key_exact p B (S (length p)) 0) as (b & E & H); [pose proof (zlen_nonneg p); lia|unfold zlen; lia|]. exists b. split; [exact E|]. rewrite H.
  assert (R : forall k c, header_at p k c -> 0 <= k) by (intros k c [[(P & _) _] _]; apply idx_inv in P; lia). split.
  - intros (k & c & _ & Hd & Hc & A). exists k, c. split; [exact Hd|]. split; [unfold hevc_hit in Hc; cbv zeta in Hc; lia|]. intros j d Hj Hdj. specialize (A j d ltac:(pose proof (R _ _ Hdj); lia) Hdj). unfold hevc_skip in A. cbv zeta in A. cbn [In]. lia.
  - intros (k & c & Hd & Hc & A). exists k, c. split; [exact (R _ _ Hd)|]. split; [exact Hd|]. split; [unfold hevc_hit; cbv zeta; lia|]. intros j d [_ Hj] Hdj. specialize (A j d Hj Hdj). unfold hevc_skip. cbv zeta. cbn [In] in A. lia.
Qed.
Print Assumptions C35_hevc_key_frame_exact.
Example C34_exact_example : avc_is_key_frame [7; 7; 0; 0; 1; 6; 0; 0; 0; 0; 1; 103; 0; 0; 1; 101] = Ok true /\ avc_is_key_frame [0; 0; 1; 0; 0; 1; 101] = Ok false.
Proof. split; vm_compute; reflexivity. Qed.

(* ---------------------------------------------------------------------------------------- *)
(** ** C155 Joined access units *)
Definition avc_prefix_only (a : list Z) : Prop := forall k c, header_at a k c -> In (c mod 32) [6; 7; 8; 9].
Definition hevc_prefix_only (a : list Z) : Prop := forall k c, header_at a k c -> In ((c / 2) mod 64) [32; 33; 34; 35; 39; 40].
(** The joined access units are a key frame when the first is one, or when the first holds nothing but units to skip and the second is one. *)
Theorem C155_key_frame : forall a four c m, let b := sc four ++ c :: m in bytes_ok a -> bytes_ok b -> closed_end a ->
  (avc_is_key_frame (a ++ b) = Ok true <-> avc_is_key_frame a = Ok true \/ (avc_prefix_only a /\ avc_is_key_frame b = Ok true)) /\
  (hevc_is_key_frame (a ++ b) = Ok true <-> hevc_is_key_frame a = Ok true \/ (hevc_prefix_only a /\ hevc_is_key_frame b = Ok true)).
Proof.
  intros a four c m b Ba Bb Ca. assert (Bab : bytes_ok (a ++ b)) by (unfold bytes_ok in *; now apply Forall_app).
  assert (A : forall p, bytes_ok p -> (avc_is_key_frame p = Ok true <-> key_at avc_hit avc_skip p 0)).
  { intros p B. destruct (avc_key_exact p B (S (length p)) 0) as (x & E & H); [pose proof (zlen_nonneg p); lia|unfold zlen; lia|]. unfold avc_is_key_frame. rewrite E, <- H. split; congruence. }
  assert (Hv : forall p, bytes_ok p -> (hevc_is_key_frame p = Ok true <-> key_at hevc_hit hevc_skip p 0)).
  { intros p B. destruct (hevc_key_exact p B (S (length p)) 0) as (x & E & H); [pose proof (zlen_nonneg p); lia|unfold zlen; lia|]. unfold hevc_is_key_frame. rewrite E, <- H. split; congruence. }
  split; [rewrite !A by assumption|rewrite !Hv by assumption]; unfold b; rewrite key_join by exact Ca.
  - assert (X : avc_prefix_only a <-> forall k d, header_at a k d -> avc_skip d = true); [|now rewrite X]. unfold avc_prefix_only, avc_skip. split; intros H k d Hd; specialize (H k d Hd); cbv zeta in *; cbn [In] in *; lia.
  - assert (X : hevc_prefix_only a <-> forall k d, header_at a k d -> hevc_skip d = true); [|now rewrite X]. unfold hevc_prefix_only, hevc_skip. split; intros H k d Hd; specialize (H k d Hd); cbv zeta in *; cbn [In] in *; lia.
Qed.
Print Assumptions C155_key_frame.

(** The parameter sets found in a byte stream, of each kind the last one. *)
Definition avc_sets (data : list Z) := pieces <- split_nalu data;; avc_extra_loop pieces None None.
Definition hevc_sets_of (data : list Z) := pieces <- split_nalu data;; hevc_extra_loop pieces None None None.
Definition later {A} (new old : option A) : option A := match new with Some _ => new | None => old end.
Definition both {A} (s p : option A) : res (A * A) := match s, p with Some s, Some p => Ok (s, p) | _, _ => Err end.
Definition all3 {A} (v s p : option A) : res (A * A * A) := match v, s, p with Some v, Some s, Some p => Ok (v, s, p) | _, _, _ => Err end.
Lemma avc_extra_from y : forall s p, avc_extra_loop y s p = ('(s', p') <- avc_extra_loop y None None;; Ok (later s' s, later p' p)).
Proof.
  induction y as [|n y IH]; intros s p; cbn [avc_extra_loop]; [reflexivity|]. destruct (remove_start_code n) as [r| | |]; cbn [bind]; try reflexivity. destruct (of_opt (idx r 0)) as [h| | |]; cbn [bind]; try reflexivity.
  destruct (_ =? H264NalSPS); [|destruct (_ =? H264NalPPS); [|now rewrite IH]]; (destruct (with_start_code r) as [w| | |]; cbn [bind]; try reflexivity); match goal with |- ?L = _ => rewrite (IH _ _) end; match goal with |- context [avc_extra_loop y (Some w) None] => rewrite (IH (Some w) None) | |- context [avc_extra_loop y None (Some w)] => rewrite (IH None (Some w)) end;
  destruct (avc_extra_loop y None None) as [[s' p']| | |]; cbn [bind]; try reflexivity; destruct s', p'; reflexivity.
Qed.
Lemma avc_extra_app x : forall y s p, avc_extra_loop (x ++ y) s p = ('(s', p') <- avc_extra_loop x s p;; avc_extra_loop y s' p').
Proof.
  induction x as [|n x IH]; intros y s p; cbn [app avc_extra_loop bind]; [reflexivity|]. destruct (remove_start_code n) as [r| | |]; cbn [bind]; try reflexivity. destruct (of_opt (idx r 0)) as [h| | |]; cbn [bind]; try reflexivity.
  destruct (_ =? H264NalSPS); [|destruct (_ =? H264NalPPS)]; [destruct (with_start_code r) as [w| | |]; cbn [bind]; [apply IH|reflexivity..]..|apply IH].
Qed.
Lemma hevc_extra_from y : forall v s p, hevc_extra_loop y v s p = ('(v', s', p') <- hevc_extra_loop y None None None;; Ok (later v' v, later s' s, later p' p)).
Proof.
  induction y as [|n y IH]; intros v s p; cbn [hevc_extra_loop]; [reflexivity|]. destruct (remove_start_code n) as [r| | |]; cbn [bind]; try reflexivity. destruct (of_opt (idx r 0)) as [h| | |]; cbn [bind]; try reflexivity.
  destruct (_ =? HevcNalVPS); [|destruct (_ =? HevcNalSPS); [|destruct (_ =? HevcNalPPS); [|now rewrite IH]]]; (destruct (with_start_code r) as [w| | |]; cbn [bind]; try reflexivity); match goal with |- ?L = _ => rewrite (IH _ _ _) end; match goal with |- context [hevc_extra_loop y (Some w) None None] => rewrite (IH (Some w) None None) | |- context [hevc_extra_loop y None (Some w) None] => rewrite (IH None (Some w) None) | |- context [hevc_extra_loop y None None (Some w)] => rewrite (IH None None (Some w)) end;
  destruct (hevc_extra_loop y None None None) as [[[v' s'] p']| | |]; cbn [bind]; try reflexivity; destruct v', s', p'; reflexivity.
Qed.
Lemma hevc_extra_app x : forall y v s p, hevc_extra_loop (x ++ y) v s p = ('(v', s', p') <- hevc_extra_loop x v s p;; hevc_extra_loop y v' s' p').
Proof.
  induction x as [|n x IH]; intros y v s p; cbn [app hevc_extra_loop bind]; [reflexivity|]. destruct (remove_start_code n) as [r| | |]; cbn [bind]; try reflexivity. destruct (of_opt (idx r 0)) as [h| | |]; cbn [bind]; try reflexivity.
  destruct (_ =? HevcNalVPS); [|destruct (_ =? HevcNalSPS); [|destruct (_ =? HevcNalPPS)]]; [destruct (with_start_code r) as [w| | |]; cbn [bind]; [apply IH|reflexivity..]..|apply IH].
Qed.
Theorem C155_parameter_sets : forall a four c m, let b := sc four ++ c :: m in bytes_ok a -> bytes_ok b -> closed_end a -> 3 <= zlen a ->
  avc_parse_extra_data (a ++ b) = ('(s1, p1) <- avc_sets a;; '(s2, p2) <- avc_sets b;; both (later s2 s1) (later p2 p1)) /\
  hevc_parse_extra_data (a ++ b) = ('(v1, s1, p1) <- hevc_sets_of a;; '(v2, s2, p2) <- hevc_sets_of b;; all3 (later v2 v1) (later s2 s1) (later p2 p1)).
Proof.
  intros a four c m b Ba Bb Ca La. destruct (C152_split a four c m Ba Bb Ca La) as (pa & pb & Ea & Eb & Eab). fold b in Eb, Eab. unfold avc_parse_extra_data, hevc_parse_extra_data, avc_sets, hevc_sets_of. rewrite Eab, Ea, Eb. cbn [bind]. rewrite avc_extra_app, hevc_extra_app. split.
  - destruct (avc_extra_loop pa None None) as [[s1 p1]| | |]; cbn [bind]; try reflexivity. rewrite avc_extra_from. destruct (avc_extra_loop pb None None) as [[s2 p2]| | |]; reflexivity.
  - destruct (hevc_extra_loop pa None None None) as [[[v1 s1] p1]| | |]; cbn [bind]; try reflexivity. rewrite hevc_extra_from. destruct (hevc_extra_loop pb None None None) as [[[v2 s2] p2]| | |]; reflexivity.
Qed.
Print Assumptions C155_parameter_sets.
Theorem C155_sets : forall a, avc_parse_extra_data a = ('(s, p) <- avc_sets a;; both s p) /\ hevc_parse_extra_data a = ('(v, s, p) <- hevc_sets_of a;; all3 v s p).
Proof.
  intros a. unfold avc_parse_extra_data, hevc_parse_extra_data, avc_sets, hevc_sets_of. destruct (split_nalu a) as [x| | |]; cbn [bind]; auto.
Qed.
Print Assumptions C155_sets.
(** The SPS in one access unit, the PPS in the next. *)
Example C155_example : let a := [0;0;0;1;9;16;0;0;1;103;1] in let b := [0;0;1;104;2;0;0;1;101;5] in
  avc_parse_extra_data a = Err /\ avc_parse_extra_data b = Err /\ avc_parse_extra_data (a ++ b) = Ok ([0;0;0;1;103;1], [0;0;0;1;104;2]) /\
  avc_is_key_frame a = Ok false /\ avc_is_key_frame b = Ok true /\ avc_is_key_frame (a ++ b) = Ok true.
Proof. cbv zeta. repeat split; vm_compute; reflexivity. Qed.

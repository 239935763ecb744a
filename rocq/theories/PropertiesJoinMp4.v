(** * PropertiesJoinMp4: samples of length-prefixed units that are joined before they are converted (C163). *)
From Verif Require Import Base BufioModel RingProofs NaluModel NaluSpec NaluProofs AvccProofs AnnexbProofs HevcMp4Proofs RecordProofs RoundProofs PropertiesNalu PropertiesJoin.
Open Scope Z_scope.

(* ---------------------------------------------------------------------------------------- *)
(** ** C163 Joined samples *)

Lemma annexb4_app a b : annexb4 (a ++ b) = annexb4 a ++ annexb4 b.
Proof. unfold annexb4. now rewrite map_app, concat_app. Qed.
Lemma with_extra_app extra a b : with_extra extra (a ++ b) = with_extra extra a ++ with_extra (if existsb irap a then [] else extra) b.
Proof.
  assert (N : forall b, with_extra [] b = annexb4 b).
  { clear. intros b. unfold with_extra. assert (H : let '(x, y) := before_irap b in b = x ++ y).
    { induction b as [|n b IH]; cbn [before_irap]; [reflexivity|]. destruct (irap n); [reflexivity|]. destruct (before_irap b) as [x y]. cbn [app]. now rewrite <- IH. }
    destruct (before_irap b) as [x [|y ys]]; rewrite H, ?annexb4_app; cbn [app]; [now rewrite app_nil_r|reflexivity]. }
  induction a as [|n a IH]; [reflexivity|]. cbn [existsb app]. unfold with_extra at 1 2. cbn [before_irap]. destruct (irap n) eqn:I; cbn [orb].
  - rewrite N. change (n :: a ++ b) with ((n :: a) ++ b). cbn [app]. change (n :: a ++ b) with ((n :: a) ++ b). rewrite annexb4_app, <- !app_assoc. reflexivity.
  - unfold with_extra at 1 2 in IH. destruct (before_irap (a ++ b)) as [x [|y ys]], (before_irap a) as [x' [|y' ys']]; change (annexb4 (n :: x)) with ((sc true ++ n) ++ annexb4 x); change (annexb4 (n :: x')) with ((sc true ++ n) ++ annexb4 x'); rewrite <- ?app_assoc in *; do 2 f_equal; exact IH.
Qed.
Lemma lp_prefix k : (1 <= k <= 4)%nat -> forall a b l, Forall (lp_unit_ok k) a -> Forall (lp_unit_ok k) l -> lp k a ++ b = lp k l -> exists m, l = a ++ m /\ b = lp k m /\ Forall (lp_unit_ok k) m.
Proof.
  intros Hk. induction a as [|n a IH]; intros b l Fa Fl E; [exists l; auto|]. apply Forall_cons_iff in Fa as [Fn Fa]. cbn [lp] in E. rewrite <- !app_assoc in E.
  destruct (lp_cons_inv k n _ l Hk Fn Fl E) as (l' & -> & E' & Fl'). destruct (IH b l' Fa Fl' E') as (m & -> & Eb & Fm). now exists m.
Qed.

Lemma annexb4_bound k l : (1 <= k <= 4)%nat -> Forall (lp_unit_ok k) l -> zlen (annexb4 l) <= 2 * zlen (lp k l).
Proof.
  intros Hk. induction 1 as [|n l [_ Ln] F IH]; [cbn; lia|]. change (annexb4 (n :: l)) with ((sc true ++ n) ++ annexb4 l). cbn [lp]. rewrite !zlen_app, zlen_sc. cbn [sc_len]. assert (zlen (be_bytes k (zlen n)) = Z.of_nat k) by (unfold zlen at 1; now rewrite be_bytes_length). lia.
Qed.
Lemma with_extra_bound k extra l : (1 <= k <= 4)%nat -> Forall (lp_unit_ok k) l -> zlen (with_extra extra l) <= zlen extra + 2 * zlen (lp k l).
Proof.
  intros Hk F. pose proof (annexb4_bound k l Hk F) as Bl. enough (zlen (with_extra extra l) <= zlen extra + zlen (annexb4 l)) by lia. clear. pose proof (zlen_nonneg extra). unfold with_extra. assert (H1 : let '(x, y) := before_irap l in l = x ++ y).
  { induction l as [|n l IH]; cbn [before_irap]; [reflexivity|]. destruct (irap n); [reflexivity|]. destruct (before_irap l) as [x y]. cbn [app]. now rewrite <- IH. }
  destruct (before_irap l) as [x [|y ys]]; rewrite H1, ?annexb4_app, ?zlen_app; cbn [annexb4 map concat]; try change (zlen (@nil Z)) with 0; fold (annexb4 x); lia.
Qed.

(** H.265: units [us] joined with any data [b]. The extra data is put into the first part that has an IRAP unit; the second part is converted as it is alone, with the extra data only if the first part has no IRAP unit; it decides about the error. *)
Theorem C163_hevc : forall k us b extra dst, (1 <= k <= 4)%nat -> Forall (lp_unit_ok k) us -> bytes_ok b -> zlen extra + 2 * zlen (lp k us ++ b) <= zlen dst ->
  let e := if existsb irap us then [] else extra in
  exists r1, hevc_mp4_to_annexb dst (lp k us) extra (Z.of_nat k) = Ok (r1 ++ skipn (length r1) dst, zlen r1) /\
  (hevc_mp4_to_annexb dst b e (Z.of_nat k) = Err /\ hevc_mp4_to_annexb dst (lp k us ++ b) extra (Z.of_nat k) = Err \/
   exists r2, hevc_mp4_to_annexb dst b e (Z.of_nat k) = Ok (r2 ++ skipn (length r2) dst, zlen r2) /\
     hevc_mp4_to_annexb dst (lp k us ++ b) extra (Z.of_nat k) = Ok ((r1 ++ r2) ++ skipn (length (r1 ++ r2)) dst, zlen (r1 ++ r2))).
Proof.
  intros k us b extra dst Hk F B L e. assert (Bu : bytes_ok (lp k us)) by (apply lp_ok; eapply Forall_impl; [|exact F]; intros n [Hn _]; exact Hn). assert (Bub : bytes_ok (lp k us ++ b)) by (apply bytes_ok_app; auto).
  pose proof (zlen_nonneg (lp k us)). pose proof (zlen_nonneg b). pose proof (zlen_nonneg extra). assert (Le : zlen e <= zlen extra) by (unfold e; destruct (existsb irap us); cbn; lia). pose proof L as L'. rewrite zlen_app in L.
  exists (with_extra extra us). split; [apply C44_hevc_mp4_units; auto; pose proof (with_extra_bound k extra us Hk F); lia|].
  destruct (C44_hevc_mp4_total k b e dst Hk B ltac:(lia)) as [X|(m & Fm & Em & X)]; [left; split; [exact X|]|right].
  - destruct (C44_hevc_mp4_total k _ extra dst Hk Bub L') as [Y|(l & Fl & El & _)]; [exact Y|]. exfalso. destruct (lp_prefix k Hk us b l F Fl El) as (m & _ & Eb & Fm). rewrite Eb in X. rewrite C44_hevc_mp4_units in X; auto; [discriminate X|]. pose proof (with_extra_bound k e m Hk Fm). rewrite Eb in L. lia.
  - exists (with_extra e m). split; [exact X|]. unfold e. rewrite <- with_extra_app. rewrite Em, <- lp_app. apply C44_hevc_mp4_units; [exact Hk|now apply Forall_app|]. pose proof (with_extra_bound k extra (us ++ m) Hk ltac:(now apply Forall_app)) as W. rewrite lp_app, <- Em in W. lia.
Qed.
Print Assumptions C163_hevc.

(** H.264 without extra data: as in C152, the start codes of the second part have three bytes unless the first part is empty; nothing is left out. *)
Theorem C163_avc : forall us p out0 rest, Forall avcc_unit_ok us -> bytes_ok p -> zlen (out0 ++ rest) < 2 ^ 63 -> zlen (avcc us) + zlen p <= zlen rest ->
  exists r1 r2, avc_mp4_to_annexb (mkw out0 rest) (avcc us) [] = Ok (mkw (out0 ++ r1) (skipn (length r1) rest)) /\
    avc_mp4_to_annexb (mkw out0 rest) p [] = Ok (mkw (out0 ++ r2) (skipn (length r2) rest)) /\
    let r := match r1 with [] => r2 | _ => r1 ++ tl r2 end in avc_mp4_to_annexb (mkw out0 rest) (avcc us ++ p) [] = Ok (mkw (out0 ++ r) (skipn (length r) rest)).
Proof.
  intros us p out0 rest F B Lw L. destruct (avcc_dec p B) as (us2 & t & -> & F2 & St). apply bytes_ok_app in B as [_ Bt]. rewrite zlen_app in L. pose proof (zlen_nonneg t). pose proof (zlen_nonneg (avcc us)). pose proof (zlen_nonneg (avcc us2)).
  assert (G : forall l, Forall avcc_unit_ok l -> zlen (avcc l) <= zlen rest -> avc_mp4_to_annexb (mkw out0 rest) (avcc l ++ t) [] = Ok (mkw (out0 ++ annexb_norm l) (skipn (length (annexb_norm l)) rest))).
  { intros l Fl Ll. unfold avc_mp4_to_annexb. apply (mp4_loop_spec [] t St Bt l (S (length (avcc l ++ t))) [] out0 rest false false 0 Fl); [rewrite app_length; pose proof (avcc_length l); lia|exact Lw|lia|cbn [orb]; now rewrite render_norm|].
    pose proof (render_bound l true false) as R. rewrite render_norm in R. lia. }
  assert (Ej : match annexb_norm us with [] => annexb_norm us2 | _ => annexb_norm us ++ tl (annexb_norm us2) end = annexb_norm (us ++ us2)).
  { clear. destruct us as [|u l]; [reflexivity|]. cbn [annexb_norm app sc]. rewrite map_app, concat_app, <- !app_assoc. do 5 f_equal. f_equal. destruct us2; reflexivity. }
  exists (annexb_norm us), (annexb_norm us2). split; [apply C33_mp4_every_unit; auto; pose proof (render_bound us true false) as R; rewrite render_norm in R; lia|]. split; [apply G; auto; lia|]. cbv zeta. rewrite Ej, app_assoc, <- avcc_app. apply G; [now apply Forall_app|rewrite avcc_app, zlen_app; lia].
Qed.
Print Assumptions C163_avc.

(** H.264 with extra data: the second part is converted with the extra data if there is no SPS or PPS in the first, and then keeps its first byte only if it begins with the extra data. *)
Definition parameter_set (n : list Z) : bool := (avc_nal_type n =? 7) || (avc_nal_type n =? 8).
Definition extra_first (e : list Z) (us : list (list Z)) : bool := negb (zlen e =? 0) && match us with n :: _ => avc_nal_type n =? 5 | [] => false end.
Lemma plan_app a : forall s b, plan s (a ++ b) = plan s a ++ plan (s || existsb parameter_set a) b.
Proof.
  induction a as [|n a IH]; intros s b; cbn [plan app existsb]; [now rewrite orb_false_r|]. cbv zeta. rewrite IH, <- app_assoc. cbn [app]. unfold parameter_set at 2. now rewrite !orb_assoc.
Qed.
Lemma render_units e a : a <> [] -> forall f s y, render e f (plan s a ++ y) = render e f (plan s a) ++ render e false y.
Proof.
  induction a as [|n a IH]; [congruence|]. intros _ f s y. cbn [plan]. cbv zeta. set (s' := (s || _ || _)%bool). assert (G : forall g, render e g (CUnit n :: plan s' a ++ y) = render e g (CUnit n :: plan s' a) ++ render e false y).
  { intros g. cbn [render]. rewrite <- !app_assoc. do 2 f_equal. destruct a as [|m a]; [reflexivity|]. now apply IH. }
  destruct (_ && _); cbn [app]; [|apply G]. change (render e f (CExtra :: CUnit n :: plan s' a ++ y)) with (e ++ render e (f && (zlen e =? 0)) (CUnit n :: plan s' a ++ y)). rewrite G. change (render e f (CExtra :: CUnit n :: plan s' a)) with (e ++ render e (f && (zlen e =? 0)) (CUnit n :: plan s' a)). now rewrite <- app_assoc.
Qed.
Lemma render_second extra s us : let e := if s : bool then [] else extra in render extra false (plan s us) = if extra_first e us then render e true (plan false us) else tl (render e true (plan false us)).
Proof.
  destruct us as [|n us]; cbv zeta; [unfold extra_first; now rewrite andb_false_r|]. destruct s.
  - unfold extra_first. cbn [negb zlen length Z.of_nat Z.eqb andb]. assert (P : forall l, render extra false (plan true l) = render [] false (plan true l)).
    { induction l as [|m l IH]; [reflexivity|]. cbn [plan orb]. cbv zeta. rewrite andb_false_r. cbn [app render]. now rewrite IH. }
    rewrite P, !render_plan_nil. reflexivity.
  - unfold extra_first. cbn [plan orb]. cbv zeta. destruct (Z.eqb_spec (avc_nal_type n) 5) as [T|T]; [rewrite T; cbn [Z.eqb Pos.eqb orb andb negb app]|rewrite andb_false_r; reflexivity].
    rewrite andb_true_r. cbn [render andb]. destruct (zlen extra =? 0) eqn:Z0; cbn [negb]; [|reflexivity]. apply Z.eqb_eq in Z0. rewrite (zlen_zero extra Z0). reflexivity.
Qed.
Theorem C163_avc_extra : forall us us2 tail extra out0 rest, Forall avcc_unit_ok us -> Forall avcc_unit_ok us2 -> avcc_stop tail -> bytes_ok tail -> zlen (out0 ++ rest) < 2 ^ 63 ->
  let e := if existsb parameter_set us then [] else extra in
  let r1 := render extra true (plan false us) in let r2 := render e true (plan false us2) in let r := match us with [] => r2 | _ => r1 ++ if extra_first e us2 then r2 else tl r2 end in
  zlen r1 + zlen r2 <= zlen rest ->
  avc_mp4_to_annexb (mkw out0 rest) (avcc us) extra = Ok (mkw (out0 ++ r1) (skipn (length r1) rest)) /\
  avc_mp4_to_annexb (mkw out0 rest) (avcc us2 ++ tail) e = Ok (mkw (out0 ++ r2) (skipn (length r2) rest)) /\
  avc_mp4_to_annexb (mkw out0 rest) (avcc us ++ avcc us2 ++ tail) extra = Ok (mkw (out0 ++ r) (skipn (length r) rest)).
Proof.
  intros us us2 tail extra out0 rest F F2 St Bt Lw e r1 r2 r L. pose proof (zlen_nonneg r1). pose proof (zlen_nonneg r2).
  assert (G : forall x l, Forall avcc_unit_ok l -> let R := render x true (plan false l) in zlen R <= zlen rest -> avc_mp4_to_annexb (mkw out0 rest) (avcc l ++ tail) x = Ok (mkw (out0 ++ R) (skipn (length R) rest))).
  { intros x l Fl R Ll. unfold avc_mp4_to_annexb. apply (mp4_loop_spec x tail St Bt l (S (length (avcc l ++ tail))) [] out0 rest false false 0 Fl); [rewrite app_length; pose proof (avcc_length l); lia|exact Lw|lia|reflexivity|exact Ll]. }
  split; [apply C33_mp4_to_annexb; auto; fold r1; lia|]. split; [apply G; auto; fold r2; lia|]. rewrite app_assoc, <- avcc_app.
  assert (Er : r = render extra true (plan false (us ++ us2))).
  { unfold r. clear G. unfold r1, r2, e. clear. destruct us as [|u us']; [reflexivity|]. rewrite plan_app, render_units by discriminate. cbn [orb]. now rewrite render_second. }
  rewrite Er. apply G; [now apply Forall_app|]. rewrite <- Er. assert (Tl : forall x : list Z, zlen (tl x) <= zlen x) by (intros [|y x]; cbn [tl]; rewrite ?zlen_cons; lia). specialize (Tl r2). unfold r. clearbody r1 r2. destruct us; [lia|]. rewrite zlen_app. destruct (extra_first e us2); lia.
Qed.
Print Assumptions C163_avc_extra.

(** An IDR unit in the first part takes the extra data; without one the second part does; a second part cut short makes the whole an error. *)
Example C163_example : let idr := [40; 1; 7] in let p := [2; 1; 9] in
  hevc_mp4_to_annexb (zeros 40) (lp 2 [idr] ++ lp 2 [idr; p]) [5; 5] 2 = Ok ([5; 5; 0; 0; 0; 1; 40; 1; 7] ++ [0; 0; 0; 1; 40; 1; 7; 0; 0; 0; 1; 2; 1; 9] ++ zeros 17, 23) /\
  hevc_mp4_to_annexb (zeros 40) (lp 2 [p] ++ lp 2 [idr]) [5; 5] 2 = Ok ([0; 0; 0; 1; 2; 1; 9] ++ [5; 5; 0; 0; 0; 1; 40; 1; 7] ++ zeros 24, 16) /\
  hevc_mp4_to_annexb (zeros 40) (lp 2 [p] ++ [0; 3; 40]) [5; 5] 2 = Err /\
  avc_mp4_to_annexb (bb_new (zeros 24)) ([0; 0; 0; 2; 6; 1] ++ [0; 0; 0; 2; 65; 5; 0]) [] = Ok (mkw ([0; 0; 0; 1; 6; 1] ++ [0; 0; 1; 65; 5]) (zeros 13)) /\
  avc_mp4_to_annexb (bb_new (zeros 24)) ([0; 0; 0; 2; 6; 1] ++ [0; 0; 0; 2; 101; 5]) [8; 8] = Ok (mkw ([0; 0; 0; 1; 6; 1] ++ [8; 8; 0; 0; 1; 101; 5]) (zeros 11)).
Proof. cbv zeta. repeat (split; [vm_compute; reflexivity|]). vm_compute; reflexivity. Qed.

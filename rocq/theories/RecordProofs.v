(** * RecordProofs: the AVC decoder configuration record. *)
From Verif Require Import Base BufioModel BytesSpec BytesProofs RingProofs NaluModel NaluSpec NaluProofs SplitProofs AvccProofs RecordModel RecordSpec CursorProofs.

Definition with4s (l : list (list Z)) : list (list Z) := map (fun n => sc true ++ n) l.

Lemma be2_len v : zlen (be_bytes 2 v) = 2.
Proof. unfold zlen. now rewrite be_bytes_length. Qed.
Lemma be2_val (n : list Z) : zlen n < 2 ^ 16 -> be_value (be_bytes 2 (zlen n)) = zlen n.
Proof. intros H. pose proof (zlen_nonneg n). rewrite be_bytes_value. apply Z.mod_small. change (256 ^ Z.of_nat 2) with (2 ^ 16). lia. Qed.
Lemma lp_app k a b : lp k (a ++ b) = lp k a ++ lp k b.
Proof. induction a as [|n a IH]; cbn [lp app]; [reflexivity|]. now rewrite IH, <- !app_assoc. Qed.
Lemma lp_ok k l : Forall bytes_ok l -> bytes_ok (lp k l).
Proof. induction 1 as [|n l H F IH]; cbn [lp]; [constructor|]. apply bytes_ok_app. split; [apply be_bytes_ok|]. apply bytes_ok_app. auto. Qed.

(* ---------------------------------------------------------------------------------------- *)
(** ** Reading *)
Lemma rd_set out n r : small out (be_bytes 2 (zlen n) ++ n ++ r) -> zlen n < 2 ^ 16 ->
  try_ (rd_uint 2 (mkw out (be_bytes 2 (zlen n) ++ n ++ r))) = Ok (mkw (out ++ be_bytes 2 (zlen n)) (n ++ r), zlen n) /\
  try_ (rd_bytes (mkw (out ++ be_bytes 2 (zlen n)) (n ++ r)) (zlen n)) = Ok (mkw (out ++ be_bytes 2 (zlen n) ++ n) r, n).
Proof.
  intros B L. split.
  - rewrite rd_uint_app by (auto using be_bytes_length; lia). unfold try_. cbn [fst snd]. now rewrite be2_val.
  - rewrite rd_bytes_app by (now apply small_app). unfold try_. cbn [fst snd]. now rewrite <- app_assoc.
Qed.

(** A whole set at the front, or an error. *)
Lemma rd_set_dec out rest : small out rest -> bytes_ok rest ->
  (exists n r, rest = be_bytes 2 (zlen n) ++ n ++ r /\ set_ok n) \/
  (forall A (k : bytes_buffer * list Z -> res A), ('(r1, length) <- try_ (rd_uint 2 (mkw out rest));; '(r2, bytes) <- try_ (rd_bytes r1 length);; k (r2, bytes)) = Err).
Proof.
  intros B Ok. destruct (Z_lt_dec (zlen rest) 2) as [S|L].
  { right. intros A k. rewrite rd_uint_short by (auto; lia). reflexivity. }
  destruct (app_split rest 2) as (h & t & -> & Lh); [lia|]. apply bytes_ok_app in Ok as [Bh Bt]. assert (Lh' : length h = 2%nat) by (unfold zlen in Lh; lia).
  pose proof (be_value_bound h Bh) as V. rewrite Lh in V. change (256 ^ 2) with (2 ^ 16) in V. set (v := be_value h) in *.
  destruct (Z_lt_dec (zlen t) v) as [S|L2].
  - right. intros A k. rewrite rd_uint_app by (auto; lia). unfold try_ at 1. cbn [fst snd bind]. fold v. rewrite rd_bytes_short; [reflexivity|now apply small_app|lia].
  - left. destruct (app_split t v) as (n & r & -> & Ln); [lia|]. exists n, r. split.
    + f_equal. rewrite Ln. unfold v. rewrite <- Lh'. symmetry. now apply be_value_bytes.
    + apply bytes_ok_app in Bt as [Bn _]. split; [exact Bn|lia].
Qed.

Lemma read_sets_app S : forall out r acc, small out (lp 2 S ++ r) -> Forall set_ok S ->
  read_sets (length S) (mkw out (lp 2 S ++ r)) acc = Ok (mkw (out ++ lp 2 S) r, acc ++ with4s S).
Proof.
  induction S as [|n S IH]; intros out r acc B F; cbn [lp length read_sets with4s map]; [now rewrite !app_nil_r|].
  apply Forall_cons_iff in F as [[Bn Ln] F]. rewrite <- !app_assoc. cbn [lp] in B. rewrite <- !app_assoc in B.
  destruct (rd_set out n (lp 2 S ++ r) B Ln) as [E1 E2]. rewrite E1. cbn [bind]. rewrite E2. cbn [bind]. rewrite with_start_code_ok. cbn [bind].
  rewrite IH; [|rewrite (app_assoc _ n) in B; now apply small_app in B|exact F]. rewrite <- !app_assoc. reflexivity.
Qed.

Lemma read_sets_dec : forall n out rest acc, small out rest -> bytes_ok rest ->
  (exists S r, rest = lp 2 S ++ r /\ length S = n /\ Forall set_ok S) \/ read_sets n (mkw out rest) acc = Err.
Proof.
  induction n as [|n IH]; intros out rest acc B Ok; [left; exists [], rest; repeat split; constructor|].
  destruct (rd_set_dec out rest B Ok) as [(x & r & -> & Hx)|E].
  - destruct (IH (out ++ be_bytes 2 (zlen x) ++ x) r (acc ++ [sc true ++ x])) as [(S & t & -> & L & F)|E].
    + rewrite app_assoc in B. now apply small_app in B.
    + rewrite app_assoc in Ok. now apply bytes_ok_app in Ok.
    + left. exists (x :: S), t. cbn [lp length]. rewrite <- !app_assoc. split; [reflexivity|]. split; [now rewrite L|]. now constructor.
    + right. cbn [read_sets]. destruct Hx as [Bx Lx]. destruct (rd_set out x r B Lx) as [E1 E2]. rewrite E1. cbn [bind]. rewrite E2. cbn [bind].
      rewrite with_start_code_ok. cbn [bind]. exact E.
  - right. cbn [read_sets]. exact (E _ (fun p => let '(r2, bytes) := p in s <- with_start_code bytes;; read_sets n r2 (acc ++ [s]))).
Qed.

Definition avc_record_of (a : avc_record) (hdr : list Z) (S P : list (list Z)) : avc_record :=
  {| ar_version := nth 0 hdr 0; ar_profile := nth 1 hdr 0; ar_compat := nth 2 hdr 0; ar_level := nth 3 hdr 0; ar_length_size := nth 4 hdr 0 mod 4;
     ar_sps := ar_sps a ++ with4s S; ar_pps := ar_pps a ++ with4s P |}.

Lemma small_nil (d : list Z) : zlen d < 2 ^ 63 -> small [] d.
Proof. intros H. exact H. Qed.

Lemma five (d : list Z) : zlen d = 5 -> exists a b c e f, d = [a; b; c; e; f].
Proof. unfold zlen. destruct d as [|a [|b [|c [|e [|f [|g d]]]]]]; cbn [length]; try lia. intros _. do 5 eexists. reflexivity. Qed.

Lemma idx_head5 (a b c d e : Z) t : idx (a :: b :: c :: d :: e :: t) 0 = Some a /\ idx (a :: b :: c :: d :: e :: t) 1 = Some b /\
  idx (a :: b :: c :: d :: e :: t) 2 = Some c /\ idx (a :: b :: c :: d :: e :: t) 3 = Some d /\ idx (a :: b :: c :: d :: e :: t) 4 = Some e.
Proof. repeat split. Qed.

Lemma land31' b : Z.land b 31 = b mod 32.
Proof. change 31 with (Z.ones 5). now rewrite Z.land_ones by lia. Qed.

Lemma seek_ok out h r n : small out (h ++ r) -> zlen h = n -> try_w (bb_seek (mkw out (h ++ r)) n) = Ok (mkw (out ++ h) r).
Proof. intros B <-. rewrite seek_app by auto. reflexivity. Qed.
Lemma rd_u8_ok out x r : small out (x :: r) -> try_ (rd_u8 (mkw out (x :: r))) = Ok (mkw (out ++ [x]) r, x).
Proof. intros B. now rewrite rd_u8_cons. Qed.

Lemma avc_unmarshal_layout a data hdr c S p P tail : bytes_ok data -> zlen data < 2 ^ 63 -> avc_layout data hdr c S p P tail ->
  avc_unmarshal a data = Ok (avc_record_of a hdr S P).
Proof.
  intros Bd L (Ed & Lh & FS & FP & NS & NP & S1 & P1). unfold avc_unmarshal. rewrite bb_new_mkw.
  assert (Sm : small [] data) by (now apply small_nil). rewrite Ed in Sm |- *. rewrite seek_ok by auto. cbn [bind app] in *. apply small_app in Sm. cbn [app] in Sm.
  rewrite rd_u8_ok by auto. cbn [bind]. rewrite land31'. replace (c mod 32 <? 1) with false by lia.
  assert (ZS : Z.to_nat (c mod 32) = length S) by (rewrite <- NS; unfold zlen; lia). rewrite ZS.
  apply (small_app hdr [c]) in Sm. rewrite read_sets_app by auto. cbn [bind]. apply small_app in Sm. rewrite rd_u8_ok by auto. cbn [bind].
  replace (p <? 1) with false by lia. assert (ZP : Z.to_nat p = length P) by (rewrite <- NP; unfold zlen; lia). rewrite ZP.
  apply (small_app _ [p]) in Sm. rewrite read_sets_app by auto. cbn [bind].
  destruct (five hdr Lh) as (h0 & h1 & h2 & h3 & h4 & ->). cbn [app]. 
  destruct (idx_head5 h0 h1 h2 h3 h4 (c :: lp 2 S ++ p :: lp 2 P ++ tail)) as (-> & -> & -> & -> & ->). cbn [of_opt bind].
  unfold avc_record_of. cbn [nth]. do 2 f_equal. change 3 with (Z.ones 2). now rewrite Z.land_ones by lia.
Qed.

Lemma avc_unmarshal_dec a data : bytes_ok data -> zlen data < 2 ^ 63 ->
  (exists hdr c S p P tail, avc_layout data hdr c S p P tail) \/ avc_unmarshal a data = Err.
Proof.
  intros Bd L. assert (Sm : small [] data) by (now apply small_nil). unfold avc_unmarshal. rewrite bb_new_mkw.
  destruct (Z_lt_dec (zlen data) 5) as [Sh|L5]; [right; rewrite seek_short by (auto; lia); reflexivity|].
  destruct (app_split data 5) as (hdr & d1 & -> & Lh); [lia|]. rewrite seek_ok by auto. cbn [bind app]. apply small_app in Sm. cbn [app] in Sm.
  apply bytes_ok_app in Bd as [_ Bd].
  destruct d1 as [|c d1]; [right; rewrite rd_u8_nil by auto; reflexivity|]. rewrite rd_u8_ok by auto. cbn [bind]. rewrite land31'.
  destruct (c mod 32 <? 1) eqn:Ec; [right; reflexivity|]. apply (small_app hdr [c]) in Sm. inversion Bd as [|? ? Bc Bd1]; subst.
  destruct (read_sets_dec (Z.to_nat (c mod 32)) (hdr ++ [c]) d1 (ar_sps a) Sm Bd1) as [(S & r & -> & LS & FS)|E]; [|right; rewrite E; reflexivity].
  rewrite <- LS. rewrite read_sets_app by auto. cbn [bind]. apply small_app in Sm. apply bytes_ok_app in Bd1 as [_ Bd2].
  destruct r as [|p r]; [right; rewrite rd_u8_nil by auto; reflexivity|]. rewrite rd_u8_ok by auto. cbn [bind].
  destruct (p <? 1) eqn:Ep; [right; reflexivity|]. apply (small_app _ [p]) in Sm. inversion Bd2 as [|? ? Bp Bd3]; subst.
  destruct (read_sets_dec (Z.to_nat p) _ r (ar_pps a) Sm Bd3) as [(P & t & -> & LP & FP)|E]; [|right; rewrite E; reflexivity].
  left. exists hdr, c, S, p, P, t. unfold avc_layout, zlen. rewrite LS, LP. repeat split; auto; lia.
Qed.

(* ---------------------------------------------------------------------------------------- *)
(** ** Writing *)
Definition go_bytes (x : list Z) : Prop := bytes_ok x /\ zlen x < 2 ^ 63.

Lemma remove_sc_len x n : remove_start_code x = Ok n -> zlen n <= zlen x /\ (bytes_ok x -> bytes_ok n).
Proof.
  intros E. assert (Hs : forall k y, of_opt (slice_from x k) = Ok y -> zlen y <= zlen x /\ (bytes_ok x -> bytes_ok y)).
  { intros k y E2. destruct (slice_from x k) as [y'|] eqn:E3; [|discriminate]. injection E2 as <-. unfold slice_from in E3. pose proof (slice_length _ _ _ _ E3) as (L1 & L2 & _).
    split; [lia|]. intros B. exact (slice_from_ok x k y' B E3). }
  unfold remove_start_code in E.
  destruct (idx x 0); [cbn [of_opt bind] in E|discriminate]. destruct (negb _); [injection E as <-; split; [lia|auto]|].
  destruct (idx x 1); [cbn [of_opt bind] in E|discriminate]. destruct (negb _); [injection E as <-; split; [lia|auto]|].
  destruct (idx x 2); [cbn [of_opt bind] in E|discriminate]. destruct (_ =? 1); [eauto|].
  destruct (_ =? 0); [|injection E as <-; split; [lia|auto]].
  destruct (idx x 3); [cbn [of_opt bind] in E|discriminate]. destruct (_ =? 1); [eauto|]. injection E as <-; split; [lia|auto].
Qed.

Definition strip (x n : list Z) : Prop := remove_start_code x = Ok n.

Lemma write_sets_inv l : forall out rest lst w' lst', small out rest -> zlen rest < 2 ^ 16 -> Forall go_bytes l ->
  write_sets (mkw out rest) l lst = Ok (w', lst') ->
  exists ns, Forall2 strip l ns /\ Forall set_ok ns /\ zlen (lp 2 ns) <= zlen rest /\
    w' = mkw (out ++ lp 2 ns) (skipn (length (lp 2 ns)) rest) /\ lst' = match rev ns with [] => lst | x :: _ => Some x end.
Proof.
  induction l as [|x l IH]; intros out rest lst w' lst' B R F E; cbn [write_sets] in E.
  - injection E as <- <-. exists []. cbn [lp length skipn rev]. rewrite app_nil_r. repeat split; auto. apply zlen_nonneg.
  - apply Forall_cons_iff in F as [[Bx Lx] F]. destruct (remove_start_code x) as [n| | |] eqn:En; try discriminate E. cbn [bind] in E.
    destruct (remove_sc_len x n En) as [Ln Bn]. specialize (Bn Bx). pose proof (zlen_nonneg n) as Nn. pose proof (zlen_nonneg rest) as Nr.
    destruct (Z_lt_dec (zlen rest) 2) as [Sh|L2]. { rewrite wr_uint_short in E by (auto; lia). discriminate E. }
    rewrite wr_uint_fits in E by (auto; lia). unfold try_w at 1 in E. cbn [fst snd bind] in E.
    assert (Lr : zlen (skipn 2 rest) = zlen rest - 2) by (rewrite zlen_skipn_nat; unfold zlen in *; lia).
    assert (B1 : small (out ++ be_bytes 2 (u16 (zlen n))) (skipn 2 rest)) by (eapply small_shift; [|exact B]; rewrite be2_len; lia).
    destruct (Z_lt_dec (zlen rest - 2) (zlen n)) as [Sh|L3]. { rewrite wr_bytes_short in E by (auto; lia). discriminate E. }
    assert (u16 (zlen n) = zlen n) as U by (unfold u16; apply Z.mod_small; lia). rewrite U in *.
    rewrite wr_end in E by (auto; lia). unfold try_w at 1 in E. cbn [fst snd bind] in E. rewrite skipn_skipn in E.
    set (rest2 := skipn (2 + length n) rest) in *.
    assert (Lr2 : zlen rest2 = zlen rest - 2 - zlen n) by (unfold rest2; rewrite zlen_skipn_nat; unfold zlen in *; lia).
    apply IH in E as (ns & F2 & Fs & Lns & -> & ->); [|eapply small_shift; [|exact B1]; lia|lia|exact F].
    exists (n :: ns). cbn [lp]. rewrite !zlen_app, be2_len, !app_length, be_bytes_length. split; [constructor; auto|]. split; [constructor; [split; [auto|lia]|auto]|]. split; [lia|]. split.
    + unfold rest2. rewrite skipn_skipn, <- !app_assoc. f_equal; f_equal; try lia.
    + cbn [rev]. destruct (rev ns) eqn:Er; cbn [app]; reflexivity.
Qed.

Lemma last_rev (ns : list (list Z)) : match rev ns with [] => None | x :: _ => Some x end = match ns with [] => None | _ => Some (last ns []) end.
Proof.
  destruct ns as [|y ns]; [reflexivity|]. destruct (exists_last (l := y :: ns)) as (m & x & E); [congruence|]. rewrite E, rev_app_distr, last_last. reflexivity.
Qed.

Lemma avc_marshal_inv spsList ppsList d : Forall go_bytes spsList -> Forall go_bytes ppsList -> avc_marshal spsList ppsList = Ok d ->
  zlen spsList < 2 ^ 63 -> zlen ppsList < 2 ^ 63 ->
  exists S P b0 b1 b2 b3 lst, Forall2 strip spsList S /\ Forall2 strip ppsList P /\ Forall set_ok S /\ Forall set_ok P /\ spsList <> [] /\ ppsList <> [] /\
    last S [] = b0 :: b1 :: b2 :: b3 :: lst /\
    d = [1; b1; b2; b3; 255; Z.lor 224 (u8 (zlen spsList))] ++ lp 2 S ++ [u8 (zlen ppsList)] ++ lp 2 P /\ zlen d <= 1024.
Proof.
  intros F1 F2 E L1 L2. unfold avc_marshal in E. destruct (zlen spsList =? 0) eqn:Z1; [discriminate|]. destruct (zlen ppsList =? 0) eqn:Z2; [discriminate|].
  assert (Zs : zeros 1024 = zeros 5 ++ zeros 1019) by (unfold zeros; now rewrite <- repeat_app).
  assert (Sm : small [] (zeros 1024)) by (vm_compute; congruence).
  rewrite bb_new_mkw in E. rewrite Zs in E, Sm. rewrite seek_ok in E by (auto; reflexivity). cbn [bind] in E. apply small_app in Sm. cbn [app] in E, Sm.
  change (zeros 1019) with (0 :: zeros 1018) in *. change (zeros 5) with [0;0;0;0;0] in *. rewrite wr_u8_cons in E by auto. unfold try_w at 1 in E. cbn [fst snd bind app] in E.
  set (c0 := u8 (Z.land (zlen spsList) 31)) in *. apply (small_shift _ [c0] _ (zeros 1018)) in Sm; [|reflexivity]. cbn [app] in Sm.
  destruct (write_sets _ spsList None) as [[w2 lst2]| | |] eqn:W1; try discriminate E. cbn [bind] in E.
  apply write_sets_inv in W1 as (S & FS & OS & LS & -> & ->); [|exact Sm|reflexivity|exact F1].
  remember (skipn (length (lp 2 S)) (zeros 1018)) as rest0 eqn:Er0 in *.
  assert (Lz : zlen (zeros 1018) = 1018) by reflexivity.
  assert (Lr1 : zlen rest0 = 1018 - zlen (lp 2 S)) by (rewrite Er0;rewrite zlen_skipn_nat; unfold zlen in *; lia).
  apply (small_shift _ (lp 2 S) _ rest0) in Sm; [|lia].
  clear Er0. destruct rest0 as [|y rest1]. { rewrite wr_u8_nil in E by auto. discriminate E. }
  rewrite wr_u8_cons in E by auto. unfold try_w at 1 in E. cbn [fst snd bind] in E. rewrite zlen_cons in Lr1. pose proof (zlen_nonneg rest1) as Nr1.
  apply (small_shift _ [u8 (zlen ppsList)] _ rest1) in Sm; [|rewrite zlen_cons; change (zlen [u8 (zlen ppsList)]) with 1; lia].
  pose proof (zlen_nonneg (lp 2 S)) as NlS.
  destruct (write_sets _ ppsList None) as [[w4 lst4]| | |] eqn:W2; try discriminate E. cbn [bind] in E.
  apply write_sets_inv in W2 as (P & FP & OP & LP & Ew4 & _); [|exact Sm|lia|exact F2].
  rewrite last_rev in E. destruct S as [|s0 S'] eqn:ES; [discriminate E|]. rewrite <- ES in *. cbn [of_opt bind] in E.
  set (body := lp 2 S ++ u8 (zlen ppsList) :: lp 2 P) in *. set (rr := skipn (length (lp 2 P)) rest1) in *.
  assert (Hdata : bb_data w4 = 0 :: 0 :: 0 :: 0 :: 0 :: c0 :: body ++ rr).
  { rewrite Ew4. cbn [mkw bb_data]. unfold body. rewrite <- !app_assoc. reflexivity. }
  assert (Hoff : bb_offset w4 = 6 + zlen body).
  { rewrite Ew4. cbn [mkw bb_offset]. unfold body. rewrite !zlen_app, !zlen_cons. change (zlen (@nil Z)) with 0. lia. }
  rewrite Hdata in E.
  rewrite Hoff in E. pose proof (zlen_nonneg (body ++ rr)) as Nb. 
  assert (Hupd : forall (x0 x1 x2 x3 x4 x5 v : Z) t, 0 <= zlen t ->
     upd (x0 :: x1 :: x2 :: x3 :: x4 :: x5 :: t) 0 v = Some (v :: x1 :: x2 :: x3 :: x4 :: x5 :: t) /\
     upd (x0 :: x1 :: x2 :: x3 :: x4 :: x5 :: t) 1 v = Some (x0 :: v :: x2 :: x3 :: x4 :: x5 :: t) /\
     upd (x0 :: x1 :: x2 :: x3 :: x4 :: x5 :: t) 2 v = Some (x0 :: x1 :: v :: x3 :: x4 :: x5 :: t) /\
     upd (x0 :: x1 :: x2 :: x3 :: x4 :: x5 :: t) 3 v = Some (x0 :: x1 :: x2 :: v :: x4 :: x5 :: t) /\
     upd (x0 :: x1 :: x2 :: x3 :: x4 :: x5 :: t) 4 v = Some (x0 :: x1 :: x2 :: x3 :: v :: x5 :: t) /\
     upd (x0 :: x1 :: x2 :: x3 :: x4 :: x5 :: t) 5 v = Some (x0 :: x1 :: x2 :: x3 :: x4 :: v :: t)).
  { clear. intros. repeat split; rewrite upd_some by (rewrite !zlen_cons; lia); reflexivity. }
  rewrite (proj1 (Hupd _ _ _ _ _ _ _ _ Nb)) in E. cbn [of_opt bind] in E.
  destruct (last S []) as [|b0 [|b1 [|b2 [|b3 lst]]]] eqn:EL; try discriminate E.
  { cbn [idx of_opt bind] in E. change (idx [b0; b1] 1) with (Some b1) in E. cbn [of_opt bind] in E. rewrite (proj1 (proj2 (Hupd _ _ _ _ _ _ _ _ Nb))) in E. discriminate E. }
  { change (idx [b0; b1; b2] 1) with (Some b1) in E. change (idx [b0; b1; b2] 2) with (Some b2) in E. change (idx [b0; b1; b2] 3) with (@None Z) in E. cbn [of_opt bind] in E.
    rewrite (proj1 (proj2 (Hupd _ _ _ _ _ _ _ _ Nb))) in E. cbn [of_opt bind] in E. rewrite (proj1 (proj2 (proj2 (Hupd _ _ _ _ _ _ _ _ Nb)))) in E. discriminate E. }
  change (idx (b0 :: b1 :: b2 :: b3 :: lst) 1) with (Some b1) in E. change (idx (b0 :: b1 :: b2 :: b3 :: lst) 2) with (Some b2) in E. change (idx (b0 :: b1 :: b2 :: b3 :: lst) 3) with (Some b3) in E.
  cbn [of_opt bind] in E. rewrite (proj1 (proj2 (Hupd _ _ _ _ _ _ _ _ Nb))) in E. cbn [of_opt bind] in E. rewrite (proj1 (proj2 (proj2 (Hupd _ _ _ _ _ _ _ _ Nb)))) in E. cbn [of_opt bind] in E.
  rewrite (proj1 (proj2 (proj2 (proj2 (Hupd _ _ _ _ _ _ _ _ Nb))))) in E. cbn [of_opt bind] in E.
  rewrite (proj1 (proj2 (proj2 (proj2 (proj2 (Hupd _ _ _ _ _ _ _ _ Nb)))))) in E. cbn [of_opt bind] in E.
  rewrite (proj2 (proj2 (proj2 (proj2 (proj2 (Hupd _ _ _ _ _ _ _ _ Nb)))))) in E. cbn [of_opt bind] in E.
  pose proof (slice_app_mid [] (1 :: b1 :: b2 :: b3 :: 255 :: Z.lor 224 (u8 (zlen spsList)) :: body) rr) as Sl. cbn [app] in Sl. change (zlen (@nil Z)) with 0 in Sl. rewrite Z.add_0_l in Sl.
  rewrite !zlen_cons in Sl. replace (1 + (1 + (1 + (1 + (1 + (1 + zlen body)))))) with (6 + zlen body) in Sl by lia. rewrite Sl in E. injection E as <-.
  exists S, P, b0, b1, b2, b3, lst. repeat (split; [first [assumption | (intros ->; discriminate) | reflexivity]|]).
  rewrite !zlen_cons. unfold body. rewrite zlen_app, zlen_cons. lia.
Qed.

(* ---------------------------------------------------------------------------------------- *)
(** ** Rebuilding Annex-B *)
Definition put_all (o rest : list Z) (l : list (list Z)) : res bytes_buffer :=
  if zlen (concat l) <=? zlen rest then Ok (mkw (o ++ concat l) (skipn (length (concat l)) rest)) else Err.

Lemma zlen_skip_fit (a rest : list Z) : zlen a <= zlen rest -> zlen (skipn (length a) rest) = zlen rest - zlen a.
Proof. intros H. rewrite zlen_skipn_nat; unfold zlen in *; lia. Qed.

Lemma write_all_spec l : forall o rest, small o rest -> Forall (fun x => zlen x < 2 ^ 63) l -> write_all (mkw o rest) l = put_all o rest l.
Proof.
  induction l as [|x l IH]; intros o rest B F; cbn [write_all concat].
  - unfold put_all. cbn [concat length skipn]. change (zlen (@nil Z)) with 0. pose proof (zlen_nonneg rest). replace (0 <=? zlen rest) with true by lia. now rewrite app_nil_r.
  - apply Forall_cons_iff in F as [Hx F]. unfold put_all. cbn [concat]. rewrite zlen_app. pose proof (zlen_nonneg (concat l)) as Nc. pose proof (zlen_nonneg x) as Nx.
    destruct (Z_lt_dec (zlen rest) (zlen x)) as [Sh|L].
    + rewrite wr_bytes_short by (auto; lia). unfold try_w. cbn [snd bind]. now replace (_ <=? _) with false by lia.
    + rewrite wr_end by (auto; lia). unfold try_w. cbn [fst snd bind]. pose proof (zlen_skip_fit x rest ltac:(lia)) as Ls.
      rewrite IH; [|eapply small_shift; [|exact B]; lia|exact F]. unfold put_all. rewrite Ls, app_length, <- app_assoc.
      destruct (Z_le_dec (zlen x + zlen (concat l)) (zlen rest)).
      * replace (_ <=? _) with true by lia. replace (_ <=? _) with true by lia. do 2 f_equal. rewrite skipn_skipn. reflexivity.
      * replace (_ <=? _) with false by lia. now replace (_ <=? _) with false by lia.
Qed.

Lemma put_all_app o rest l m w : put_all o rest l = Ok w -> put_all o rest (l ++ m) = put_all (o ++ concat l) (skipn (length (concat l)) rest) m.
Proof.
  unfold put_all. rewrite concat_app, zlen_app, app_length. destruct (zlen (concat l) <=? zlen rest) eqn:E; [|discriminate]. intros _. rewrite zlen_skip_fit by lia.
  replace (zlen (concat m) <=? zlen rest - zlen (concat l)) with (zlen (concat l) + zlen (concat m) <=? zlen rest) by lia. rewrite skipn_skipn, <- app_assoc. reflexivity.
Qed.
Lemma put_all_err o rest l m : put_all o rest l = Err -> put_all o rest (l ++ m) = Err.
Proof.
  unfold put_all. rewrite concat_app, zlen_app. pose proof (zlen_nonneg (concat m)). destruct (zlen (concat l) <=? zlen rest) eqn:E; [discriminate|].
  intros _. now replace (_ <=? _) with false by lia.
Qed.
Lemma put_all_cases o rest l : (exists w, put_all o rest l = Ok w) \/ put_all o rest l = Err.
Proof. unfold put_all. destruct (_ <=? _); eauto. Qed.
Lemma put_all_ok o rest l w : put_all o rest l = Ok w -> w = mkw (o ++ concat l) (skipn (length (concat l)) rest) /\ zlen (concat l) <= zlen rest.
Proof. unfold put_all. destruct (zlen (concat l) <=? zlen rest) eqn:E; [|discriminate]. intros H; injection H as <-. split; [reflexivity|lia]. Qed.

Lemma write_all2 o rest l m : small o rest -> Forall (fun x => zlen x < 2 ^ 63) l -> Forall (fun x => zlen x < 2 ^ 63) m ->
  (w1 <- write_all (mkw o rest) l;; write_all w1 m) = put_all o rest (l ++ m).
Proof.
  intros B F1 F2. rewrite write_all_spec by auto. destruct (put_all_cases o rest l) as [[w E]|E]; rewrite E; cbn [bind].
  - rewrite (put_all_app _ _ _ _ _ E). apply put_all_ok in E as [-> L]. apply write_all_spec; [|exact F2]. eapply small_shift; [|exact B]. now apply zlen_skip_fit.
  - now rewrite (put_all_err _ _ _ _ E).
Qed.

Definition or_err {A} (b : bool) (x : A) : res A := if b then Ok x else Err.

Lemma put_all_slice rest l : (w <- put_all [] rest l;; of_opt (slice (bb_data w) 0 (bb_offset w))) = or_err (zlen (concat l) <=? zlen rest) (concat l).
Proof.
  unfold put_all, or_err. destruct (zlen (concat l) <=? zlen rest); [|reflexivity]. cbn [bind mkw bb_data bb_offset app].
  pose proof (slice_app_mid [] (concat l) (skipn (length (concat l)) rest)) as E. cbn [app] in E. change (zlen (@nil Z)) with 0 in E. rewrite Z.add_0_l in E. now rewrite E.
Qed.

Lemma with4s_small l : Forall set_ok l -> Forall (fun x => zlen x < 2 ^ 63) (with4s l).
Proof. intros F. unfold with4s. apply Forall_map. eapply Forall_impl; [|exact F]. intros n [_ L]. rewrite zlen_app. change (zlen (sc true)) with 4. lia. Qed.

Lemma small_z1024 : small [] (zeros 1024).
Proof. vm_compute. congruence. Qed.

Lemma avc_extra_layout data hdr c S p P tail : bytes_ok data -> zlen data < 2 ^ 63 -> avc_layout data hdr c S p P tail ->
  avc_extra_to_annexb data = or_err (zlen (concat (with4s (S ++ P))) <=? 1024) (concat (with4s (S ++ P))).
Proof.
  intros B L H. unfold avc_extra_to_annexb. rewrite (avc_unmarshal_layout _ _ _ _ _ _ _ _ B L H). destruct H as (_ & _ & FS & FP & _).
  cbn [bind avc_record_of ar_sps ar_pps avc_record_zero app]. rewrite bb_new_mkw.
  rewrite <- bind_assoc2. rewrite write_all2 by (auto using small_z1024, with4s_small). rewrite put_all_slice. unfold with4s. now rewrite map_app.
Qed.

(* ---------------------------------------------------------------------------------------- *)
(** ** M4VCExtraDataToAnnexB *)
Lemma slice_after (a b c : list Z) : slice (a ++ b ++ c) (zlen a) (zlen a + zlen b) = Some b.
Proof. apply slice_app_mid. Qed.

(** One unit of the loop. *)
Lemma m4vc_step f src out n t o rest u s : src = out ++ be_bytes 2 (zlen n) ++ n ++ t -> zlen src < 2 ^ 63 -> small o rest -> set_ok n -> u <> 0 ->
  m4vc_loop (S f) src (mkw out (be_bytes 2 (zlen n) ++ n ++ t)) (mkw o rest) u s =
  (w2 <- put_all o rest [sc true ++ n];;
   let r2 := mkw (out ++ be_bytes 2 (zlen n) ++ n) t in
   if (bb_readable r2 >? 2) && (u - 1 =? 0) && (s + 1 =? 1) then
     match rd_u8 r2 with
     | (r3, Ok v) => m4vc_loop f src r3 w2 v (s + 1)
     | (r3, Err) => m4vc_loop f src r3 w2 0 (s + 1)
     | (_, Panic) => Panic
     | (_, NoFuel) => NoFuel
     end
   else m4vc_loop f src r2 w2 (u - 1) (s + 1)).
Proof.
  intros Es L B [Bn Ln] Hu. cbn [m4vc_loop]. replace (u =? 0) with false by lia.
  assert (Sm : small out (be_bytes 2 (zlen n) ++ n ++ t)) by (unfold small; now rewrite <- Es).
  destruct (rd_set out n t Sm Ln) as [E1 _]. rewrite E1. cbn [bind]. pose proof (zlen_nonneg n) as Nn. pose proof (zlen_nonneg rest) as Nr.
  assert (Es2 : slice src (bb_offset (mkw (out ++ be_bytes 2 (zlen n)) (n ++ t))) (bb_offset (mkw (out ++ be_bytes 2 (zlen n)) (n ++ t)) + zlen n) = Some n).
  { cbn [mkw bb_offset]. rewrite Es, app_assoc. apply slice_app_mid. }
  assert (Sk : try_w (bb_seek (mkw (out ++ be_bytes 2 (zlen n)) (n ++ t)) (zlen n)) = Ok (mkw (out ++ be_bytes 2 (zlen n) ++ n) t)).
  { rewrite seek_ok by (auto; now apply small_app). now rewrite <- app_assoc. }
  unfold put_all. cbn [concat]. rewrite app_nil_r, zlen_app. change (zlen (sc true)) with 4. change StartCode4 with (sc true).
  destruct (Z_lt_dec (zlen rest) 4) as [S4|L4].
  { rewrite wr_bytes_short by (auto; change (zlen (sc true)) with 4; lia). unfold try_w. cbn [snd bind]. now replace (_ <=? _) with false by lia. }
  rewrite wr_end by (auto; change (zlen (sc true)) with 4; lia). unfold try_w at 1. cbn [fst snd bind]. rewrite Es2. cbn [of_opt bind].
  pose proof (zlen_skip_fit (sc true) rest ltac:(change (zlen (sc true)) with 4; lia)) as Ls. change (zlen (sc true)) with 4 in Ls. change (length (sc true)) with 4%nat in *.
  assert (Sm2 : small (o ++ sc true) (skipn 4 rest)) by (eapply small_shift; [|exact B]; change (zlen (sc true)) with 4; lia).
  destruct (Z_lt_dec (zlen rest - 4) (zlen n)) as [S5|L5].
  { rewrite wr_bytes_short by (auto; lia). unfold try_w at 1. cbn [snd bind]. now replace (_ <=? _) with false by lia. }
  rewrite wr_end by (auto; lia). unfold try_w at 1. cbn [fst snd bind]. rewrite Sk. cbn [bind].
  replace (_ <=? _) with true by lia. cbn [bind]. rewrite skipn_skipn, <- app_assoc, app_length. reflexivity.
Qed.

Lemma m4vc_rest U : forall f src out t o rest s, src = out ++ lp 2 U ++ t -> zlen src < 2 ^ 63 -> small o rest -> Forall set_ok U ->
  (length U < f)%nat -> 1 <= s -> m4vc_loop f src (mkw out (lp 2 U ++ t)) (mkw o rest) (zlen U) s = put_all o rest (with4s U).
Proof.
  induction U as [|n U IH]; intros f src out t o rest s Es L B F Lf Hs; destruct f as [|f]; cbn [length] in Lf; try lia.
  - cbn [m4vc_loop]. change (zlen (@nil (list Z)) =? 0) with true. cbv iota. unfold put_all, with4s. cbn [map concat length skipn]. change (zlen (@nil Z)) with 0.
    pose proof (zlen_nonneg rest). replace (0 <=? zlen rest) with true by lia. now rewrite app_nil_r.
  - apply Forall_cons_iff in F as [Hn F]. cbn [lp] in *. rewrite <- !app_assoc in *. pose proof (zlen_nonneg U).
    rewrite m4vc_step by (auto; rewrite zlen_cons; lia). rewrite zlen_cons. replace (1 + zlen U - 1) with (zlen U) by lia.
    cbv zeta. replace (s + 1 =? 1) with false by lia. rewrite andb_false_r.
    change (with4s (n :: U)) with ([sc true ++ n] ++ with4s U).
    destruct (put_all_cases o rest [sc true ++ n]) as [[w E]|E]; rewrite E; cbn [bind].
    + rewrite (put_all_app _ _ _ _ _ E). apply put_all_ok in E as [-> Lw].
      apply IH; [rewrite Es, <- !app_assoc; reflexivity|exact L| |exact F|lia|lia]. eapply small_shift; [|exact B]. now apply zlen_skip_fit.
    + now rewrite (put_all_err _ _ _ _ E).
Qed.

(** What the function returns on a record that Unmarshal accepts: with two or more SPSs it never reads the PPSs. *)
Definition m4vc_units (S P : list (list Z)) : list (list Z) := if zlen S =? 1 then S ++ P else S.

Lemma m4vc_layout data hdr c S p P tail : bytes_ok data -> zlen data < 2 ^ 62 -> avc_layout data hdr c S p P tail ->
  m4vc_extra_to_annexb data = or_err (zlen (concat (with4s (m4vc_units S P))) <=? zlen data + 256) (concat (with4s (m4vc_units S P))).
Proof.
  intros Bd L (Ed & Lh & FS & FP & NS & NP & S1 & P1). unfold m4vc_extra_to_annexb. rewrite bb_new_mkw.
  destruct (five hdr Lh) as (h0 & h1 & h2 & h3 & h4 & ->). pose proof (zlen_nonneg data) as Nd.
  assert (Sm : small [] data) by (apply small_nil; lia).
  assert (E0 : try_w (bb_seek (mkw [] data) 4) = Ok (mkw [h0; h1; h2; h3] (h4 :: [c] ++ lp 2 S ++ [p] ++ lp 2 P ++ tail))).
  { rewrite Ed in *. change ([h0; h1; h2; h3; h4] ++ [c] ++ lp 2 S ++ [p] ++ lp 2 P ++ tail) with ([h0; h1; h2; h3] ++ h4 :: [c] ++ lp 2 S ++ [p] ++ lp 2 P ++ tail) in *. now apply seek_ok. }
  rewrite E0. cbn [bind]. assert (Sm1 : small [h0; h1; h2; h3] (h4 :: [c] ++ lp 2 S ++ [p] ++ lp 2 P ++ tail)) by (unfold small; cbn [app] in *; rewrite <- Ed; lia).
  rewrite rd_u8_ok by auto. cbn [bind]. apply (small_app _ [h4]) in Sm1. cbn [app] in Sm1 |- *. rewrite rd_u8_cons by auto. cbn [bind app]. rewrite land31', <- NS.
  apply (small_app _ [c]) in Sm1. cbn [app] in Sm1. set (pre := [h0; h1; h2; h3; h4; c]) in *. set (rest := zeros (Z.to_nat (zlen data + 256))) in *.
  assert (Lr : zlen rest = zlen data + 256) by (unfold rest, zlen at 1; rewrite zeros_length; lia).
  assert (Smr : small [] rest) by (unfold small; cbn [app]; lia). rewrite bb_new_mkw.
  assert (LS : zlen S <= 31) by (rewrite NS; pose proof (Z.mod_pos_bound c 32 ltac:(lia)); lia).
  assert (LP : zlen P <= 255).
  { rewrite NP. assert (Bp : byte_ok p) by (eapply Forall_forall; [exact Bd|]; rewrite Ed; rewrite !in_app_iff; cbn [In]; tauto). unfold byte_ok in Bp. lia. }
  destruct S as [|n S]; [change (zlen (@nil (list Z))) with 0 in S1; lia|]. apply Forall_cons_iff in FS as [Hn FS]. cbn [lp app] in *. rewrite <- !app_assoc in *.
  assert (Fin : forall w l, put_all [] rest l = Ok w -> wr_written w = or_err (zlen (concat l) <=? zlen data + 256) (concat l)).
  { intros w l E. apply put_all_ok in E as [-> Lc]. unfold wr_written, or_err. cbn [mkw bb_data bb_offset app]. rewrite <- Lr.
    pose proof (slice_app_mid [] (concat l) (skipn (length (concat l)) rest)) as E. cbn [app] in E. change (zlen (@nil Z)) with 0 in E. rewrite Z.add_0_l in E. rewrite E.
    now replace (_ <=? _) with true by lia. }
  assert (Fine : forall l, put_all [] rest l = Err -> Err = or_err (zlen (concat l) <=? zlen data + 256) (concat l)).
  { intros l E. unfold put_all in E. rewrite Lr in E. destruct (zlen (concat l) <=? zlen data + 256); [discriminate|reflexivity]. }
  change 1000%nat with (Datatypes.S 999). rewrite m4vc_step; [|exact Ed|lia|exact Smr|exact Hn|lia]. cbv zeta. rewrite zlen_cons in *. pose proof (zlen_nonneg S) as NnS.
  unfold m4vc_units. rewrite zlen_cons. replace (1 + zlen S - 1) with (zlen S) by lia. change (0 + 1 =? 1) with true. rewrite andb_true_r. change (0 + 1) with 1.
  destruct (put_all_cases [] rest [sc true ++ n]) as [[w E]|E]; rewrite E; cbn [bind].
  2:{ destruct (1 + zlen S =? 1); cbn [app with4s map].
      - apply (Fine (with4s (n :: S ++ P))). change (with4s (n :: S ++ P)) with ([sc true ++ n] ++ with4s (S ++ P)). now apply put_all_err.
      - apply (Fine (with4s (n :: S))). change (with4s (n :: S)) with ([sc true ++ n] ++ with4s S). now apply put_all_err. }
  pose proof E as E'. apply put_all_ok in E' as [-> Lw].
  assert (Smw : small ([] ++ concat [sc true ++ n]) (skipn (length (concat [sc true ++ n])) rest)) by (eapply small_shift; [|exact Smr]; now apply zlen_skip_fit).
  assert (Gen : forall U W, W = [sc true ++ n] ++ with4s U -> forall x, x = put_all ([] ++ concat [sc true ++ n]) (skipn (length (concat [sc true ++ n])) rest) (with4s U) ->
     (w0 <- x;; wr_written w0) = or_err (zlen (concat W) <=? zlen data + 256) (concat W)).
  { intros U W -> x ->. rewrite <- (put_all_app _ _ _ _ _ E). destruct (put_all_cases [] rest ([sc true ++ n] ++ with4s U)) as [[w2 E2]|E2]; rewrite E2; cbn [bind]; auto. }
  destruct (zlen S =? 0) eqn:Z0.
  - assert (S = []) as -> by (destruct S; [reflexivity|rewrite zlen_cons in Z0; pose proof (zlen_nonneg S); lia]). change (1 + zlen (@nil (list Z)) =? 1) with true. cbv iota. cbn [lp app] in *.
    set (out2 := pre ++ be_bytes 2 (zlen n) ++ n) in *.
    assert (Sm2 : small out2 (p :: lp 2 P ++ tail)) by (unfold small, out2; rewrite <- !app_assoc; cbn [app]; unfold pre; cbn [app]; rewrite <- Ed; lia).
    assert (Rd : bb_readable (mkw out2 (p :: lp 2 P ++ tail)) >? 2 = true).
    { unfold bb_readable. cbn [mkw bb_length bb_offset]. unfold small in Sm2. rewrite zlen_app, zlen_cons, zlen_app in *. pose proof (zlen_nonneg out2). pose proof (zlen_nonneg tail). pose proof (zlen_nonneg (lp 2 P)).
      assert (2 <= zlen (lp 2 P)). { destruct P as [|q P']; [change (zlen (@nil (list Z))) with 0 in P1; lia|]. cbn [lp]. rewrite !zlen_app, be2_len. pose proof (zlen_nonneg q). pose proof (zlen_nonneg (lp 2 P')). lia. }
      try (rewrite i64_id by (unfold is_i64; lia)). lia. }
    rewrite Rd. cbn [andb]. rewrite rd_u8_cons by auto. rewrite <- NP.
    apply (Gen P); [reflexivity|]. apply m4vc_rest; [unfold out2, pre; rewrite Ed, NP; cbn [app]; rewrite <- !app_assoc; reflexivity|lia|exact Smw|exact FP|unfold zlen in LP; lia|lia].
  - rewrite andb_false_r. replace (1 + zlen S =? 1) with false by lia. apply (Gen S); [reflexivity|].
    apply m4vc_rest; [unfold pre; rewrite Ed; cbn [app]; rewrite <- !app_assoc; reflexivity|lia|exact Smw|exact FS|unfold zlen in LS; lia|lia].
Qed.

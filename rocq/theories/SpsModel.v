(** * SpsModel: avc/sps.go and hevc/sps.go. *)
From Verif Require Import Base BufioModel NaluModel RecordModel FloatModel.

Notation "x <== m ;;; k" := (g_bind m (fun x => k)) (at level 61, m at next level, right associativity).
Notation "m ;;; k" := (g_bind m (fun _ => k)) (at level 61, right associativity).

(** avc/sps.go:10-27 SPS; Width and Height are int, FPS is [None] where the conversion of a float is implementation-dependent. *)
Record avc_sps := {
  as_id : Z; as_profile : Z; as_level : Z; as_constraint : Z; as_mbw : Z; as_mbh : Z;
  as_cl : Z; as_cr : Z; as_ct : Z; as_cb : Z; as_width : Z; as_height : Z; as_fps : option Z }.

(** avc/sps.go:107-118 one scaling list, [n] entries left. *)
Fixpoint avc_scaling_list (n : nat) (last next : Z) : G unit :=
  match n with
  | O => g_ret tt
  | S k =>
      next <== (if negb (next =? 0) then d <== g_read_se ;;; g_ret (u64 (u64 (last + d) + 256) mod 256) else g_ret next) ;;;
      let last := if negb (next =? 0) then next else last in
      avc_scaling_list k last next
  end.

(** avc/sps.go:93-120 the scaling lists [i .. 7]; [n] lists left. *)
Fixpoint avc_scaling_lists (n : nat) (i : Z) : G unit :=
  match n with
  | O => g_ret tt
  | S k =>
      flag <== g_read_bit ;;;
      (if negb (flag =? 0) then avc_scaling_list (if i <? 6 then 16%nat else 64%nat) 8 8 else g_ret tt) ;;;
      avc_scaling_lists k (i + 1)
  end.

(** avc/sps.go:57-60 *)
Definition avc_is_high (profile : Z) : bool :=
  (profile =? 100) || (profile =? 110) || (profile =? 122) || (profile =? 244) || (profile =? 44) || (profile =? 83) || (profile =? 86) || (profile =? 118).

(** avc/sps.go:62-121 *)
Definition avc_sps_high : G unit :=
  chroma <== g_read_ue ;;;
  (if chroma =? 3 then g_read_bit ;;; g_ret tt else g_ret tt) ;;;
  g_read_ue ;;;
  g_read_ue ;;;
  g_read_bit ;;;
  flag <== g_read_bit ;;;
  if negb (flag =? 0) then avc_scaling_lists 8 0 else g_ret tt.

(** avc/sps.go:155-159: ReadSE for i < n.  Every round consumes at least one bit, so the fuel is the number of unread bits plus one
    (supplied by [avc_sps_cycle]). *)
Fixpoint avc_cycle_loop (fuel : nat) (i n : Z) : G unit :=
  if i <? n then
    match fuel with
    | O => fun g => (g, NoFuel)
    | S f => g_read_se ;;; avc_cycle_loop f (i + 1) n
    end
  else g_ret tt.
Definition avc_sps_cycle (n : Z) : G unit := fun g => avc_cycle_loop (8 * length (g_rest g) + Z.to_nat (g_left g) + 1) 0 n g.

(** avc/sps.go:129-160 *)
Definition avc_sps_poc : G unit :=
  t <== g_read_ue ;;;
  if t =? 0 then g_read_ue ;;; g_ret tt
  else if t =? 1 then
    g_read_bit ;;;
    g_read_se ;;;
    g_read_se ;;;
    n <== g_read_ue ;;;
    avc_sps_cycle n
  else g_ret tt.

(** avc/sps.go:198-215 *)
Definition avc_sps_crop : G (Z * Z * Z * Z) :=
  flag <== g_read_bit ;;;
  if negb (flag =? 0) then
    l <== g_read_ue ;;;
    r <== g_read_ue ;;;
    t <== g_read_ue ;;;
    b <== g_read_ue ;;;
    g_ret (l, r, t, b)
  else g_ret (0, 0, 0, 0).

(** avc/sps.go:264: the error of this ReadBit is ignored; the flag is then 0. *)
Definition g_read_bit_lax : G Z := fun g =>
  match g_read_bit g with
  | (g', Err) => (g', Ok 0)
  | r => r
  end.

(** avc/sps.go:226-341: the VUI parameters read by the code; the frame rate, when timing information is present. *)
Definition avc_sps_vui : G (option (option Z)) :=
  aspect <== g_read_bit ;;;
  (if negb (aspect =? 0) then
     idc <== g_read_bits 8 ;;;
     if idc =? 255 then g_read_bits 16 ;;; g_read_bits 16 ;;; g_ret tt else g_ret tt
   else g_ret tt) ;;;
  overscan <== g_read_bit ;;;
  (if negb (overscan =? 0) then g_read_bit ;;; g_ret tt else g_ret tt) ;;;
  signal <== g_read_bit_lax ;;;
  (if negb (signal =? 0) then
     g_read_bits 3 ;;;
     g_read_bit ;;;
     colour <== g_read_bit ;;;
     if negb (colour =? 0) then g_read_bits 8 ;;; g_read_bits 8 ;;; g_read_bits 8 ;;; g_ret tt else g_ret tt
   else g_ret tt) ;;;
  chroma <== g_read_bit ;;;
  (if negb (chroma =? 0) then g_read_se ;;; g_read_se ;;; g_ret tt else g_ret tt) ;;;
  timing <== g_read_bit ;;;
  if negb (timing =? 0) then
    units <== g_read_bits 32 ;;;
    scale <== g_read_bits 32 ;;;
    g_read_bit ;;;
    g_ret (Some (sps_fps scale units))
  else g_ret None.

(** avc/sps.go:31-343, after RemoveStartCode. *)
Definition avc_sps_body : G avc_sps :=
  g_read_bits 8 ;;;
  profile <== g_read_bits 8 ;;;
  constraint <== g_read_bits 8 ;;;
  level <== g_read_bits 8 ;;;
  id <== g_read_ue ;;;
  (if avc_is_high profile then avc_sps_high else g_ret tt) ;;;
  g_read_ue ;;;
  avc_sps_poc ;;;
  g_read_ue ;;;
  g_read_bit ;;;
  mbw <== g_read_ue ;;;
  mbh <== g_read_ue ;;;
  mbs_only <== g_read_bit ;;;
  (if mbs_only =? 0 then g_read_bit ;;; g_ret tt else g_ret tt) ;;;
  g_read_bit ;;;
  crop <== avc_sps_crop ;;;
  let '(cl, cr, ct, cb) := crop in
  let mbw := u64 (mbw + 1) in
  let mbh := u64 (mbh + 1) in
  let width := i64 (mbw * 16 - cl * 2 - cr * 2) in
  let height := i64 ((2 - mbs_only) * mbh * 16 - ct * 2 - cb * 2) in
  vui <== g_read_bit ;;;
  fps <== (if negb (vui =? 0) then avc_sps_vui else g_ret None) ;;;
  g_ret {| as_id := id; as_profile := profile; as_level := level; as_constraint := Z.shiftr constraint 2; as_mbw := mbw; as_mbh := mbh;
           as_cl := cl; as_cr := cr; as_ct := ct; as_cb := cb; as_width := width; as_height := height;
           as_fps := match fps with Some f => f | None => Some 0 end |}.

(** avc/sps.go:29-344 ParseSPS. *)
Definition avc_parse_sps (data : list Z) : res avc_sps :=
  d <- remove_start_code data;;
  snd (avc_sps_body (golomb_new d)).

(** avc/sps.go:346-357 NewCodecDataFromAVCDecoderConfigurationRecord. *)
Definition avc_new_codec_data (record : list Z) : res (avc_record * avc_sps) :=
  r <- avc_unmarshal avc_record_zero record;;
  s <- of_opt (idx (ar_sps r) 0);;
  i <- avc_parse_sps s;;
  Ok (r, i).

(* ---------------------------------------------------------------------------------------- *)
(** hevc/sps.go:11-30 HEVCSPSInfo, the fields ParseSPS sets. *)
Record hevc_sps := {
  hsp_layers : Z; hsp_nested : Z; hsp_chroma : Z; hsp_pic_width : Z; hsp_pic_height : Z; hsp_depth_chroma : Z;
  hsp_space : Z; hsp_tier : Z; hsp_idc : Z; hsp_compat : Z; hsp_constraint : Z; hsp_level : Z; hsp_width : Z; hsp_height : Z }.

(** hevc/sps.go:243-245 nal2rbsp: bytes.Replace(nal, 00 00 03, 00 00, -1) replaces the non-overlapping occurrences from the left. *)
Fixpoint nal2rbsp (l : list Z) : list Z :=
  match l with
  | [] => []
  | x :: r =>
    match r with
    | y :: z :: t => if (x =? 0) && (y =? 0) && (z =? 3) then 0 :: 0 :: nal2rbsp t else x :: nal2rbsp r
    | _ => x :: nal2rbsp r
    end
  end.

(** hevc/sps.go:182-191 the presence flags of [n] sub-layers. *)
Fixpoint ptl_flags (n : nat) : G (list (Z * Z)) :=
  match n with
  | O => g_ret []
  | S k =>
      p <== g_read_bit ;;;
      l <== g_read_bit ;;;
      r <== ptl_flags k ;;;
      g_ret ((p, l) :: r)
  end.
(** hevc/sps.go:193-197 [n] reserved pairs of bits. *)
Fixpoint ptl_reserved (n : nat) : G unit :=
  match n with
  | O => g_ret tt
  | S k => g_read_bits 2 ;;; ptl_reserved k
  end.
(** hevc/sps.go:199-217 *)
Fixpoint ptl_sub (flags : list (Z * Z)) : G unit :=
  match flags with
  | [] => g_ret tt
  | (p, l) :: r =>
      (if negb (p =? 0) then g_read_bits32 32 ;;; g_read_bits32 32 ;;; g_read_bits32 24 ;;; g_ret tt else g_ret tt) ;;;
      (if negb (l =? 0) then g_read_bits 8 ;;; g_ret tt else g_ret tt) ;;;
      ptl_sub r
  end.

(** hevc/sps.go:157-219 parsePTL and :221-241 updatePTL on a context whose fields are still zero:
    (profile space, tier flag, profile idc, level); the flags stay 0 because they are and-ed into 0. *)
Definition hevc_ptl (max : Z) : G (Z * Z * Z * Z) :=
  space <== g_read_bits 2 ;;;
  tier <== g_read_bit ;;;
  idc <== g_read_bits 5 ;;;
  g_read_bits32 32 ;;;
  g_read_bits64 48 ;;;
  level <== g_read_bits 8 ;;;
  (if max =? 0 then g_ret tt
   else
     flags <== ptl_flags (Z.to_nat max) ;;;
     ptl_reserved (Z.to_nat (8 - max)) ;;;
     ptl_sub flags) ;;;
  let '(tier', level') := if tier >? 0 then (tier, level) else (0, if level >? 0 then level else 0) in
  g_ret (space, tier', (if idc >? 0 then idc else 0), level').

(** hevc/sps.go:124-134 [n] rounds of three codes. *)
Fixpoint hevc_ordering (n : nat) : G unit :=
  match n with
  | O => g_ret tt
  | S k => g_read_ue ;;; g_read_ue ;;; g_read_ue ;;; hevc_ordering k
  end.

(** hevc/sps.go:41-154, after nal2rbsp. *)
Definition hevc_sps_body : G hevc_sps :=
  g_read_bits 4 ;;;
  max <== g_read_bits 3 ;;;
  nested <== g_read_bit ;;;
  ptl <== hevc_ptl max ;;;
  let '(space, tier, idc, level) := ptl in
  g_read_ue ;;;
  cf <== g_read_ue ;;;
  (if cf =? 3 then g_read_bit ;;; g_ret tt else g_ret tt) ;;;
  width <== g_read_ue ;;;
  height <== g_read_ue ;;;
  window <== g_read_bit ;;;
  (if negb (window =? 0) then g_read_ue ;;; g_read_ue ;;; g_read_ue ;;; g_read_ue ;;; g_ret tt else g_ret tt) ;;;
  g_read_ue ;;;
  depth <== g_read_ue ;;;
  g_read_ue ;;;
  present <== g_read_bit ;;;
  let i := if negb (present =? 0) then 0 else max in
  hevc_ordering (Z.to_nat (max + 1 - i)) ;;;
  g_read_ue ;;; g_read_ue ;;; g_read_ue ;;; g_read_ue ;;; g_read_ue ;;; g_read_ue ;;;
  g_ret {| hsp_layers := max + 1; hsp_nested := nested; hsp_chroma := cf; hsp_pic_width := width; hsp_pic_height := height;
           hsp_depth_chroma := depth; hsp_space := space; hsp_tier := tier; hsp_idc := idc; hsp_compat := 0; hsp_constraint := 0;
           hsp_level := level; hsp_width := i64 width; hsp_height := i64 height |}.

(** hevc/sps.go:32-155 ParseSPS. *)
Definition hevc_parse_sps (data : list Z) : res hevc_sps :=
  sps <- remove_start_code data;;
  if zlen sps <? 2 then Err
  else
    payload <- of_opt (slice_from sps 2);;
    snd (hevc_sps_body (golomb_new (nal2rbsp payload))).

(** hevc/sps.go:247-257 NewCodecDataFromHEVCDecoderConfigurationRecord. *)
Definition hevc_new_codec_data (grow : nat -> nat) (record : list Z) : res (hevc_header * hevc_sets * hevc_sps) :=
  '(hd, s) <- hevc_unmarshal grow record;;
  sps <- of_opt (idx (ns_read (hs_heap s) (hs_sps s)) 0);;
  i <- hevc_parse_sps sps;;
  Ok (hd, s, i).

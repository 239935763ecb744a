(** * SpsSpec: sequence parameter sets and emulation prevention as the standards define them.

    Independent of the repository: the syntax structures of ITU-T H.264 7.3.2.1.1 (with E.1.1 up to the timing information)
    and ITU-T H.265 7.3.2.2.1 / 7.3.3 (up to the transform hierarchy depths), their bit encodings, the picture sizes derived
    from them, and the emulation prevention of 7.4.1 / 7.4.2. *)
From Verif Require Import Base BitSpec.

Definition u (n : nat) (v : Z) : list bool := be_bits n v.
Definition flag (b : bool) : list bool := [b].
(** An optional part: a presence flag, then the part. *)
Definition opt {A} (f : A -> list bool) (o : option A) : list bool :=
  match o with Some a => true :: f a | None => [false] end.

(** Ranges of the syntax elements: u(n), ue(v), se(v). *)
Definition u_ok (n : Z) (v : Z) : Prop := 0 <= v < 2 ^ n.
Definition ue_ok (v : Z) : Prop := 0 <= v <= 2 ^ 32 - 2.
Definition se_ok (v : Z) : Prop := - (2 ^ 31 - 1) <= v <= 2 ^ 31 - 1.
Definition opt_ok {A} (P : A -> Prop) (o : option A) : Prop := match o with Some a => P a | None => True end.

(** Padding with zero bits up to a whole number of bytes. *)
Fixpoint bytes_of_bits (fuel : nat) (l : list bool) : list Z :=
  match fuel with
  | O => []
  | S f => match l with [] => [] | _ => bits_value (firstn 8 (l ++ repeat false 7)) :: bytes_of_bits f (skipn 8 l) end
  end.
Definition pack (l : list bool) : list Z := bytes_of_bits (length l) l.

(* ---------------------------------------------------------------------------------------- *)
(** ** H.264 *)

(** 7.3.2.1.1.1: the delta_scale values present for a list of [n] entries. *)
Fixpoint deltas_ok (n : nat) (last next : Z) (ds : list Z) : Prop :=
  match n with
  | O => ds = []
  | S k =>
      if next =? 0 then deltas_ok k last next ds
      else match ds with
           | [] => False
           | d :: r => -128 <= d <= 127 /\ let nx := (last + d + 256) mod 256 in deltas_ok k (if nx =? 0 then last else nx) nx r
           end
  end.

(** The part present in the high profiles. *)
Record high264 := { h_chroma : Z; h_separate : bool; h_luma : Z; h_depth_chroma : Z; h_bypass : bool;
                    h_scaling : option (list (option (list Z))) }.
Inductive poc264 :=
  | Poc0 (lsb : Z)
  | Poc1 (always_zero : bool) (non_ref top_bottom : Z) (cycle : list Z)
  | Poc2.
(** E.1.1, up to timing_info. *)
Record vui264 := {
  v_aspect : option (Z * (Z * Z));
  v_overscan : option bool;
  v_signal : option (Z * bool * option (Z * Z * Z));
  v_chroma_loc : option (Z * Z);
  v_timing : option (Z * Z * bool) }.
Record sps264 := {
  p_header : Z; p_profile : Z; p_constraint : Z; p_level : Z; p_id : Z; p_high : high264;
  p_log2_frame : Z; p_poc : poc264; p_max_ref : Z; p_gaps : bool; p_mbw : Z; p_map_units : Z;
  p_mbs_only : bool; p_adaptive : bool; p_direct : bool; p_crop : option (Z * Z * Z * Z); p_vui : option vui264 }.

(** The profiles whose SPS carries the chroma format (7.3.2.1.1). *)
Definition high_profile (profile : Z) : bool :=
  existsb (Z.eqb profile) [100; 110; 122; 244; 44; 83; 86; 118; 128; 138; 139; 134; 135].

Definition scaling_size (i : nat) : nat := if (i <? 6)%nat then 16%nat else 64%nat.
Definition scaling_bits (ls : list (option (list Z))) : list bool := flat_map (opt (flat_map se_code)) ls.
Fixpoint scaling_ok_from (i : nat) (ls : list (option (list Z))) : Prop :=
  match ls with
  | [] => True
  | o :: r => opt_ok (deltas_ok (scaling_size i) 8 8) o /\ scaling_ok_from (S i) r
  end.
Definition scaling_count (chroma : Z) : nat := if chroma =? 3 then 12%nat else 8%nat.

Definition high_bits (h : high264) : list bool :=
  concat [ue_code (h_chroma h); if h_chroma h =? 3 then flag (h_separate h) else []; ue_code (h_luma h); ue_code (h_depth_chroma h);
          flag (h_bypass h); opt scaling_bits (h_scaling h)].
Definition high_ok (h : high264) : Prop :=
  0 <= h_chroma h <= 3 /\ ue_ok (h_luma h) /\ ue_ok (h_depth_chroma h) /\
  opt_ok (fun ls => length ls = scaling_count (h_chroma h) /\ scaling_ok_from 0 ls) (h_scaling h).

Definition poc_bits (p : poc264) : list bool :=
  match p with
  | Poc0 lsb => concat [ue_code 0; ue_code lsb]
  | Poc1 z a b cycle => concat [ue_code 1; flag z; se_code a; se_code b; ue_code (zlen cycle); flat_map se_code cycle]
  | Poc2 => ue_code 2
  end.
Definition poc_ok (p : poc264) : Prop :=
  match p with
  | Poc0 lsb => ue_ok lsb
  | Poc1 _ a b cycle => se_ok a /\ se_ok b /\ zlen cycle <= 255 /\ Forall se_ok cycle
  | Poc2 => True
  end.

Definition crop_bits (c : Z * Z * Z * Z) : list bool :=
  let '(l, r, t, b) := c in concat [ue_code l; ue_code r; ue_code t; ue_code b].
Definition crop_ok (c : Z * Z * Z * Z) : Prop := let '(l, r, t, b) := c in ue_ok l /\ ue_ok r /\ ue_ok t /\ ue_ok b.

(** aspect_ratio_idc 255 is Extended_SAR. *)
Definition aspect_bits (a : Z * (Z * Z)) : list bool :=
  let '(idc, (w, h)) := a in concat [u 8 idc; if idc =? 255 then u 16 w ++ u 16 h else []].
Definition aspect_ok (a : Z * (Z * Z)) : Prop := let '(idc, (w, h)) := a in u_ok 8 idc /\ u_ok 16 w /\ u_ok 16 h.
Definition colour_bits (c : Z * Z * Z) : list bool := let '(p, t, m) := c in concat [u 8 p; u 8 t; u 8 m].
Definition colour_ok (c : Z * Z * Z) : Prop := let '(p, t, m) := c in u_ok 8 p /\ u_ok 8 t /\ u_ok 8 m.
Definition signal_bits (s : Z * bool * option (Z * Z * Z)) : list bool :=
  let '(f, r, c) := s in concat [u 3 f; flag r; opt colour_bits c].
Definition signal_ok (s : Z * bool * option (Z * Z * Z)) : Prop := let '(f, r, c) := s in u_ok 3 f /\ opt_ok colour_ok c.
Definition timing_bits (t : Z * Z * bool) : list bool := let '(n, s, f) := t in concat [u 32 n; u 32 s; flag f].
Definition timing_ok (t : Z * Z * bool) : Prop := let '(n, s, f) := t in u_ok 32 n /\ u_ok 32 s.
Definition vui_bits (v : vui264) : list bool :=
  concat [opt aspect_bits (v_aspect v); opt flag (v_overscan v); opt signal_bits (v_signal v);
          opt (fun '(a, b) => ue_code a ++ ue_code b) (v_chroma_loc v); opt timing_bits (v_timing v)].
Definition vui_ok (v : vui264) : Prop :=
  opt_ok aspect_ok (v_aspect v) /\ opt_ok signal_ok (v_signal v) /\ opt_ok (fun '(a, b) => ue_ok a /\ ue_ok b) (v_chroma_loc v) /\
  opt_ok timing_ok (v_timing v).

(** The NAL unit header byte and the SPS, up to the timing information of the VUI (the rest of the VUI and the trailing bits follow). *)
Definition sps264_bits (p : sps264) : list bool :=
  concat [u 8 (p_header p); u 8 (p_profile p); u 8 (p_constraint p); u 8 (p_level p); ue_code (p_id p);
          if high_profile (p_profile p) then high_bits (p_high p) else [];
          ue_code (p_log2_frame p); poc_bits (p_poc p); ue_code (p_max_ref p); flag (p_gaps p); ue_code (p_mbw p); ue_code (p_map_units p);
          flag (p_mbs_only p); if p_mbs_only p then [] else flag (p_adaptive p); flag (p_direct p);
          opt crop_bits (p_crop p); opt vui_bits (p_vui p)].
Definition sps264_ok (p : sps264) : Prop :=
  u_ok 8 (p_header p) /\ u_ok 8 (p_profile p) /\ u_ok 8 (p_constraint p) /\ u_ok 8 (p_level p) /\ ue_ok (p_id p) /\
  high_ok (p_high p) /\ ue_ok (p_log2_frame p) /\ poc_ok (p_poc p) /\ ue_ok (p_max_ref p) /\ ue_ok (p_mbw p) /\ ue_ok (p_map_units p) /\
  opt_ok crop_ok (p_crop p) /\ opt_ok vui_ok (p_vui p).

(** 7.4.2.1.1: ChromaArrayType, CropUnitX, CropUnitY and the cropped picture size. *)
Definition chroma_array_type (p : sps264) : Z :=
  if high_profile (p_profile p) then
    if (h_chroma (p_high p) =? 3) && h_separate (p_high p) then 0 else h_chroma (p_high p)
  else 1.
Definition field_factor (p : sps264) : Z := if p_mbs_only p then 1 else 2.
Definition crop_unit_x (p : sps264) : Z :=
  match chroma_array_type p with 1 | 2 => 2 | _ => 1 end.
Definition crop_unit_y (p : sps264) : Z :=
  match chroma_array_type p with 1 => 2 * field_factor p | _ => field_factor p end.
Definition crop_of (p : sps264) : Z * Z * Z * Z := match p_crop p with Some c => c | None => (0, 0, 0, 0) end.
Definition width264 (p : sps264) : Z := let '(l, r, t, b) := crop_of p in 16 * (p_mbw p + 1) - crop_unit_x p * (l + r).
Definition height264 (p : sps264) : Z := let '(l, r, t, b) := crop_of p in 16 * (field_factor p * (p_map_units p + 1)) - crop_unit_y p * (t + b).
(** Frames per second: time_scale / (2 * num_units_in_tick), rounded down; 0 when there is no timing information. *)
Definition timing_of (p : sps264) : option (Z * Z * bool) := match p_vui p with Some v => v_timing v | None => None end.
Definition fps264 (p : sps264) : Z := match timing_of p with Some (n, s, _) => s / (2 * n) | None => 0 end.

(* ---------------------------------------------------------------------------------------- *)
(** ** H.265 *)

(** A sub-layer: its profile part (88 bits) and its level (8 bits), when present. *)
Record sub265 := { sl_profile : option (Z * Z * Z); sl_level : option Z }.
Record ptl265 := { t_space : Z; t_tier : bool; t_idc : Z; t_compat : Z; t_constraint : Z; t_level : Z; t_subs : list sub265 }.
Record sps265 := {
  q_vps : Z; q_nesting : bool; q_ptl : ptl265; q_id : Z; q_chroma : Z; q_separate : bool; q_width : Z; q_height : Z;
  q_window : option (Z * Z * Z * Z); q_luma : Z; q_depth_chroma : Z; q_log2_poc : Z; q_ordering_present : bool;
  q_ordering : list (Z * Z * Z); q_tail : Z * Z * Z * Z * Z * Z }.

Definition present {A} (o : option A) : bool := match o with Some _ => true | None => false end.
Definition sub_flags (s : sub265) : list bool := [present (sl_profile s); present (sl_level s)].
Definition sub_bits (s : sub265) : list bool :=
  concat [match sl_profile s with Some (a, b, c) => concat [u 32 a; u 32 b; u 24 c] | None => [] end;
          match sl_level s with Some l => u 8 l | None => [] end].
(** 7.3.3 profile_tier_level: when there are sub-layers, reserved_zero_2bits fill up to 8 pairs of flags. *)
Definition ptl_bits (t : ptl265) : list bool :=
  concat [u 2 (t_space t); flag (t_tier t); u 5 (t_idc t); u 32 (t_compat t); u 48 (t_constraint t); u 8 (t_level t);
          match t_subs t with
          | [] => []
          | ss => concat [flat_map sub_flags ss; repeat false (2 * (8 - length ss)); flat_map sub_bits ss]
          end].
Definition ptl_ok (t : ptl265) : Prop :=
  u_ok 2 (t_space t) /\ u_ok 5 (t_idc t) /\ u_ok 32 (t_compat t) /\ u_ok 48 (t_constraint t) /\ u_ok 8 (t_level t) /\ (length (t_subs t) <= 6)%nat.

Definition ordering_bits (o : Z * Z * Z) : list bool := let '(a, b, c) := o in concat [ue_code a; ue_code b; ue_code c].
Definition ordering_ok (o : Z * Z * Z) : Prop := let '(a, b, c) := o in ue_ok a /\ ue_ok b /\ ue_ok c.
Definition tail_bits (o : Z * Z * Z * Z * Z * Z) : list bool :=
  let '(a, b, c, d, e, f) := o in concat [ue_code a; ue_code b; ue_code c; ue_code d; ue_code e; ue_code f].
Definition tail_ok (o : Z * Z * Z * Z * Z * Z) : Prop :=
  let '(a, b, c, d, e, f) := o in ue_ok a /\ ue_ok b /\ ue_ok c /\ ue_ok d /\ ue_ok e /\ ue_ok f.

(** The SPS after the two bytes of the NAL unit header, up to max_transform_hierarchy_depth_intra. *)
Definition sps265_bits (q : sps265) : list bool :=
  concat [u 4 (q_vps q); u 3 (Z.of_nat (length (t_subs (q_ptl q)))); flag (q_nesting q); ptl_bits (q_ptl q);
          ue_code (q_id q); ue_code (q_chroma q); if q_chroma q =? 3 then flag (q_separate q) else [];
          ue_code (q_width q); ue_code (q_height q); opt crop_bits (q_window q);
          ue_code (q_luma q); ue_code (q_depth_chroma q); ue_code (q_log2_poc q);
          flag (q_ordering_present q); flat_map ordering_bits (q_ordering q); tail_bits (q_tail q)].
Definition sps265_ok (q : sps265) : Prop :=
  u_ok 4 (q_vps q) /\ ptl_ok (q_ptl q) /\ ue_ok (q_id q) /\ ue_ok (q_chroma q) /\ ue_ok (q_width q) /\ ue_ok (q_height q) /\
  opt_ok crop_ok (q_window q) /\ ue_ok (q_luma q) /\ ue_ok (q_depth_chroma q) /\ ue_ok (q_log2_poc q) /\
  length (q_ordering q) = (if q_ordering_present q then S (length (t_subs (q_ptl q))) else 1%nat) /\
  Forall ordering_ok (q_ordering q) /\ tail_ok (q_tail q).

(** 7.4.3.2.1: SubWidthC and SubHeightC, and the size inside the conformance window. *)
Definition sub_width_c (q : sps265) : Z := match q_chroma q with 1 | 2 => 2 | _ => 1 end.
Definition sub_height_c (q : sps265) : Z := match q_chroma q with 1 => 2 | _ => 1 end.
Definition window_of (q : sps265) : Z * Z * Z * Z := match q_window q with Some c => c | None => (0, 0, 0, 0) end.
Definition width265 (q : sps265) : Z := let '(l, r, t, b) := window_of q in q_width q - sub_width_c q * (l + r).
Definition height265 (q : sps265) : Z := let '(l, r, t, b) := window_of q in q_height q - sub_height_c q * (t + b).

(* ---------------------------------------------------------------------------------------- *)
(** ** Emulation prevention (H.264 7.4.1, H.265 7.4.2)

    [z] zero bytes (at most 2 matter) precede: a byte 0, 1, 2 or 3 after two zero bytes is preceded by an inserted 3, and a
    payload that ends with two zero bytes gets a final 3. *)
Fixpoint escape_from (z : nat) (l : list Z) : list Z :=
  match l with
  | [] => if (2 <=? z)%nat then [3] else []
  | b :: r =>
      if (2 <=? z)%nat && (b <=? 3) then 3 :: b :: escape_from (if b =? 0 then 1%nat else 0%nat) r
      else b :: escape_from (if b =? 0 then S z else 0%nat) r
  end.
Definition escape (l : list Z) : list Z := escape_from 0 l.

(** * FloatModel: the floating-point computations of packet_utils.go, avc/sps.go and utils/aac_util.go.

    float64 and float32 are the IEEE 754 formats of the standard library's SpecFloat (pure integer
    arithmetic, round to nearest even). *)
From Coq Require Import SpecFloat.
From Verif Require Import Base.

(** float64(z) for an integer z, x * y, x / y. *)
Definition f64_of_Z (z : Z) : spec_float := binary_normalize 53 1024 z 0 false.
Definition f64_mul := SFmul 53 1024.
Definition f64_div := SFdiv 53 1024.
Definition f32_of_Z (z : Z) : spec_float := binary_normalize 24 128 z 0 false.
Definition f32_div := SFdiv 24 128.

(** The integer part (toward zero) of a finite float. *)
Definition sf_trunc (f : spec_float) : Z :=
  match f with
  | S754_finite s m e => cond_Zopp s (if 0 <=? e then Zpos m * 2 ^ e else Zpos m / 2 ^ (- e))
  | _ => 0
  end.
Definition sf_finite (f : spec_float) : bool := match f with S754_finite _ _ _ | S754_zero _ => true | _ => false end.

(** int64(f): truncation; [None] when the value does not fit (or is not finite): "implementation-dependent" in the Go specification. *)
Definition f2i (f : spec_float) : option Z :=
  let t := sf_trunc f in
  if sf_finite f && (- 2 ^ 63 <=? t) && (t <? 2 ^ 63) then Some t else None.

(** packet_utils.go:9-12 ConvertTs. *)
Definition convert_ts (ts src dst : Z) : option Z :=
  let interval := f64_div (f64_of_Z dst) (f64_of_Z src) in
  f2i (f64_mul (f64_of_Z ts) interval).

(** av_packet.go:57-63 ConvertDts, :65-71 ConvertPts, :73-79 GetDuration (the same code on Dts, Pts, Duration). *)
Definition convert_field (v timebase dst : Z) : option Z := if timebase =? dst then Some v else convert_ts v timebase dst.
(** av_packet.go:82-88 GetPtsDtsDelta. *)
Definition pts_dts_delta (pts dts timebase dst : Z) : option Z :=
  if timebase =? dst then Some (i64 (pts - dts)) else convert_ts (i64 (pts - dts)) timebase dst.

(** avc/sps.go:331 int(math.Floor(float64(time_scale) / float64(num_units_in_tick) / 2.0)); both operands are non-negative, so
    Floor is the truncation. *)
Definition sps_fps (time_scale num_units : Z) : option Z :=
  f2i (f64_div (f64_div (f64_of_Z time_scale) (f64_of_Z num_units)) (f64_of_Z 2)).

(** utils/aac_util.go:268-270 ComputeAACFrameDuration: a float32. *)
Definition aac_frame_duration (sampleRate : Z) : spec_float := f32_div (f32_of_Z sampleRate) (f32_of_Z 1024).

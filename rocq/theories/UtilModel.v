(** * UtilModel: utils/random_util.go, the String methods of utils/codec_id.go and utils/av_util.go. *)
From Coq Require Import String Ascii DecimalString.
From Verif Require Import Base AacModel.

(** utils/codec_id.go, the remaining identifiers used by String. *)
Definition AVCodecIdH263 := 4.
Definition AVCodecIdVP8 := 139.
Definition AVCodecIdVP9 := 167.
Definition AVCodecIdAV1 := 32797.
Definition AVCodecIdOPUS := 86076.
Definition AVCodecIdMP3 := 86017.

(** strconv.Itoa: decimal digits without leading zeros, with a minus sign for negative numbers. *)
Definition itoa (z : Z) : string := NilZero.string_of_int (Z.to_int z).

(** utils/codec_id.go:536-571 AVCodecID.String. *)
Definition codec_string (a : Z) : string :=
  if a =? AVCodecIdH263 then "H263"
  else if a =? AVCodecIdH264 then "H264"
  else if a =? AVCodecIdH265 then "H265"
  else if a =? AVCodecIdVP8 then "VP8"
  else if a =? AVCodecIdVP9 then "VP9"
  else if a =? AVCodecIdAV1 then "AV1"
  else if a =? AVCodecIdAAC then "AAC"
  else if a =? AVCodecIdPCMALAW then "PCMA"
  else if a =? AVCodecIdPCMMULAW then "PCMU"
  else if a =? AVCodecIdOPUS then "OPUS"
  else if a =? AVCodecIdMP3 then "MP3"
  else if a =? AVCodecIdADPCMG722 then "G722"
  else if a =? AVCodecIdADPCMG726 then "G726"
  else if a =? AVCodecIdPCMS16LE then "PCMS16LE"
  else itoa a.

(** utils/av_util.go:17-47 AVMediaType.String; the constants are -1 .. 5 (av_util.go:7-15). *)
Definition media_string (a : Z) : res string :=
  if -1 =? a then Ok "unknown"%string
  else if 0 =? a then Ok "video"%string
  else if 1 =? a then Ok "audio"%string
  else if 2 =? a then Ok "data"%string
  else if 3 =? a then Ok "subtitle"%string
  else if 4 =? a then Ok "attachment"%string
  else if 5 =? a then Ok "n"%string
  else Panic.

(* ---------------------------------------------------------------------------------------- *)
(** The random source: rand.Intn(n) panics for n <= 0; otherwise it returns one of the outcomes 0..n-1. A run is given the list of
    raw outcomes it will see; [draw n src] takes the next. An outcome outside 0..n-1 is no behaviour of Intn ([NoFuel]). *)
Definition draw (n : Z) (src : list Z) : res (Z * list Z) :=
  if n <=? 0 then Panic
  else match src with
       | [] => NoFuel
       | x :: r => if (0 <=? x) && (x <? n) then Ok (x, r) else NoFuel
       end.

(** utils/random_util.go:8 letterBytes, as bytes. *)
Definition letter_bytes : list Z :=
  map (fun c => Z.of_nat (nat_of_ascii c)) (list_ascii_of_string "abcdefghijklmnopqrstuvwxyzABCDEFGHIJKLMNOPQRSTUVWXYZ0123456789").

(** utils/random_util.go:13-15 the loop: one draw per byte. *)
Fixpoint rand_letters (n : nat) (src : list Z) : res (list Z * list Z) :=
  match n with
  | O => Ok ([], src)
  | S n' =>
      '(i, src) <- draw (zlen letter_bytes) src;;
      c <- of_opt (idx letter_bytes i);;
      '(r, src) <- rand_letters n' src;;
      Ok (c :: r, src)
  end.
(** utils/random_util.go:10-18 RandStringBytes; make panics on a negative length. *)
Definition rand_string_bytes (n : Z) (src : list Z) : res (list Z * list Z) :=
  if n <? 0 then Panic else rand_letters (Z.to_nat n) src.

(** utils/random_util.go:21-28 RandomIntInRange, on 64-bit ints. *)
Definition random_int_in_range (min max : Z) (src : list Z) : res (Z * list Z) :=
  if min >? max then Panic
  else
    '(x, src) <- draw (i64 (i64 (max - min) + 1)) src;;
    Ok (i64 (x + min), src).

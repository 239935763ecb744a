(** * RecordSpec: layout of the decoder configuration records (ISO/IEC 14496-15), independent of the code. *)
From Verif Require Import Base NaluSpec.

(** A parameter set with a 16-bit length. *)
Definition set_ok (n : list Z) : Prop := bytes_ok n /\ zlen n < 2 ^ 16.

(** avcC: 5 bytes, the SPS count in the low 5 bits, the SPSs, the PPS count, the PPSs; then anything. *)
Definition avc_layout (data hdr : list Z) (c : Z) (S : list (list Z)) (p : Z) (P : list (list Z)) (tail : list Z) : Prop :=
  data = hdr ++ [c] ++ lp 2 S ++ [p] ++ lp 2 P ++ tail /\ zlen hdr = 5 /\
  Forall set_ok S /\ Forall set_ok P /\ zlen S = c mod 32 /\ zlen P = p /\ 1 <= zlen S /\ 1 <= zlen P.

(** hvcC: arrays of a type byte, a 16-bit count and the units. *)
Definition harray (a : Z * list (list Z)) : list Z := [fst a] ++ be_bytes 2 (zlen (snd a)) ++ lp 2 (snd a).
Definition harray_ok (a : Z * list (list Z)) : Prop := byte_ok (fst a) /\ zlen (snd a) < 2 ^ 16 /\ Forall set_ok (snd a).
Definition hevc_layout (data hdr : list Z) (arrs : list (Z * list (list Z))) (tail : list Z) : Prop :=
  data = hdr ++ concat (map harray arrs) ++ tail /\ zlen hdr = 23 /\ Forall harray_ok arrs /\ idx hdr 22 = Some (zlen arrs).

(** The bit field of [w] bits at bit [o] of a big-endian header. *)
Definition field (hdr : list Z) (o w : Z) : Z := (be_value hdr / 2 ^ (8 * zlen hdr - o - w)) mod 2 ^ w.

(** *** Writing a record into 1024 bytes *)
(** A parameter set without its start code; [None] when it is too short to tell. *)
Definition bare (x : list Z) : option (list Z) :=
  match x with
  | 0 :: 0 :: 1 :: r => Some r
  | 0 :: 0 :: 0 :: 1 :: r => Some r
  | [] | [0] | [0; 0] | [0; 0; 0] => None
  | _ => Some x
  end.
(** The bare sets in order, each with its 2-byte length, as long as there is room: the first set without bare form or without room decides. *)
Fixpoint fill (room : Z) (l : list (list Z)) : res (list (list Z)) :=
  match l with
  | [] => Ok []
  | x :: r =>
    match bare x with
    | None => Panic
    | Some n => if 2 + zlen n <=? room then ns <- fill (room - 2 - zlen n) r;; Ok (n :: ns) else Err
    end
  end.
(** An array of an H.265 record takes its type from its first set and 3 more bytes. *)
Definition fill_array (room : Z) (l : list (list Z)) : res (list (list Z)) :=
  match bare (hd [] l) with
  | Some (_ :: _) => if 3 <=? room then fill (room - 3) l else Err
  | _ => Panic
  end.
Definition avc_written (sl pl : list (list Z)) : res (list Z) :=
  match sl, pl with
  | [], _ | _, [] => Err
  | _, _ =>
    S <- fill 1018 sl;;
    if zlen (lp 2 S) =? 1018 then Err
    else
      P <- fill (1017 - zlen (lp 2 S)) pl;;
      match last S [] with
      | _ :: b1 :: b2 :: b3 :: _ => Ok ([1; b1; b2; b3; 255; Z.lor 224 (u8 (zlen sl))] ++ lp 2 S ++ [u8 (zlen pl)] ++ lp 2 P)
      | _ => Panic
      end
  end.
Definition hevc_array (ns : list (list Z)) : list Z := harray (hevc_nal_type (hd [] ns), ns).
Definition hevc_written (vl sl pl : list (list Z)) : res (list Z) :=
  match vl, sl, pl with
  | [], _, _ | _, [], _ | _, _, [] => Err
  | _, _, _ =>
    V <- fill_array 1001 vl;;
    S <- fill_array (1001 - zlen (hevc_array V)) sl;;
    P <- fill_array (1001 - zlen (hevc_array V) - zlen (hevc_array S)) pl;;
    Ok ((1 :: zeros 20 ++ [3; 3]) ++ hevc_array V ++ hevc_array S ++ hevc_array P)
  end.

(** *** M4VCExtraDataToAnnexB on arbitrary bytes *)
(** [n] units with 2-byte lengths are written, each after a start code, into [room] bytes: the output and the unread bytes. A missing length
    and missing room are errors, a unit longer than the data is a panic. *)
Fixpoint copy_units (n : nat) (room : Z) (rest : list Z) : res (list Z * list Z) :=
  match n with
  | O => Ok ([], rest)
  | S n =>
    match rest with
    | a :: b :: t =>
      let size := 256 * a + b in
      if room <? 4 then Err
      else if zlen t <? size then Panic
      else if room <? 4 + size then Err
      else '(o, r) <- copy_units n (room - 4 - size) (skipn (Z.to_nat size) t);; Ok (sc true ++ firstn (Z.to_nat size) t ++ o, r)
    | _ => Err
    end
  end.
(** The first count is in the low 5 bits of byte 5 (0 if there is none). A second count is read only if the first was 1 and at least 3 bytes
    are left. *)
Definition m4vc_spec (src : list Z) : res (list Z) :=
  match src with
  | _ :: _ :: _ :: _ :: _ :: [] => Ok []
  | _ :: _ :: _ :: _ :: _ :: c :: t =>
    '(o, r) <- copy_units (Z.to_nat (c mod 32)) (zlen src + 256) t;;
    match r with
    | p :: r' => if (c mod 32 =? 1) && (3 <=? zlen r) then '(o', _) <- copy_units (Z.to_nat p) (zlen src + 256 - zlen o) r';; Ok (o ++ o') else Ok o
    | [] => Ok o
    end
  | _ => Err
  end.

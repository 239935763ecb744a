(** * NaluSpec: Annex-B and AVCC as byte formats, independent of the code. *)
From Verif Require Import Base.

(** The bytes 00 00 01 at position k. *)
Definition pat (p : list Z) (k : Z) : Prop := idx p k = Some 0 /\ idx p (k + 1) = Some 0 /\ idx p (k + 2) = Some 1.
(** A start code followed by at least one byte. *)
Definition sc_at (p : list Z) (k : Z) : Prop := pat p k /\ k + 3 < zlen p.
Definition first_sc (p : list Z) (k : Z) : Prop := sc_at p k /\ forall j, j < k -> ~ sc_at p j.
(** Length of the start code whose 00 00 01 is at k: a zero byte before it belongs to it. *)
Definition sc_len_at (p : list Z) (k : Z) : Z := match idx p (k - 1) with Some 0 => 4 | _ => 3 end.

(** Where a byte stream is cut for the start code at k: before its zero byte, unless that byte is one of the
    first three, which are never looked at. *)
Definition zero_at (p : list Z) (k : Z) : bool := match idx p k with Some 0 => true | _ => false end.
Definition cut_at (p : list Z) (k : Z) : Z := if (4 <=? k) && zero_at p (k - 1) then k - 1 else k.
Definition is_cut (p : list Z) (o : Z) : Prop := exists k, 3 <= k /\ sc_at p k /\ o = cut_at p k.
(** The positions at which the pieces of a list begin. *)
Fixpoint offsets (o : Z) (xs : list (list Z)) : list Z := match xs with [] => [] | x :: r => o :: offsets (o + zlen x) r end.

(** A 3- or 4-byte start code. *)
Definition sc (four : bool) : list Z := if four then [0; 0; 0; 1] else [0; 0; 1].
Definition sc_len (four : bool) : Z := if four then 4 else 3.

(** A unit without content: a bare start code, or three zero bytes at the very beginning. *)
Definition blank (x : list Z) : Prop := In x [[0; 0; 0]; sc false; sc true].
(** Data with a blank unit: the whole data, the data before the first start code, or two start codes in a row
    (not looking at the first three bytes). *)
Definition blank_unit (data : list Z) : Prop :=
  blank data \/
  (exists x four c r, blank x /\ data = x ++ sc four ++ c :: r) \/
  (exists a four c r, 3 <= zlen a /\ data = a ++ sc false ++ sc four ++ c :: r).

(** Data ending in 00 00 01. *)
Definition ends_sc (n : list Z) : Prop := exists n0, n = n0 ++ sc false.

(** A NAL unit as it may appear in a byte stream: not empty, no start code inside, does not end in 0. *)
Definition no_pat (n : list Z) : Prop := forall k, ~ pat n k.
Definition nalu_ok (n : list Z) : Prop := bytes_ok n /\ n <> [] /\ last n 1 <> 0 /\ no_pat n.
Definition unit_ok (u : bool * list Z) : Prop := nalu_ok (snd u).

(** Annex-B byte stream of NAL units with individually chosen start codes. *)
Fixpoint annexb (l : list (bool * list Z)) : list Z :=
  match l with [] => [] | (four, n) :: r => sc four ++ n ++ annexb r end.
(** Annex-B as the library writes it: a 4-byte start code first, then 3-byte ones. *)
Definition annexb_norm (l : list (list Z)) : list Z :=
  match l with [] => [] | n :: r => sc true ++ n ++ concat (map (fun m => sc false ++ m) r) end.
(** AVCC: every unit after its 4-byte big-endian length. *)
Fixpoint avcc (l : list (list Z)) : list Z :=
  match l with [] => [] | n :: r => be_bytes 4 (zlen n) ++ n ++ avcc r end.
(** A unit without its leading zero bytes. *)
Fixpoint strip0 (n : list Z) : list Z := match n with [] => [] | x :: r => if x =? 0 then strip0 r else n end.
(** A unit that has a representable 4-byte length. *)
Definition avcc_unit_ok (n : list Z) : Prop := bytes_ok n /\ 0 < zlen n < 2 ^ 32.

(** NAL unit types. *)
Definition avc_nal_type (n : list Z) : Z := hd 0 n mod 32.
Definition hevc_nal_type (n : list Z) : Z := (hd 0 n / 2) mod 64.

(** The first unit whose type is not in [skip]. *)
Definition first_other (type : list Z -> Z) (skip : Z -> bool) (l : list (list Z)) : option (list Z) :=
  find (fun n => negb (skip (type n))) l.
(** The last unit of a type. *)
Definition last_of_type (type : list Z -> Z) (t : Z) (l : list (list Z)) : option (list Z) :=
  find (fun n => type n =? t) (rev l).

(** *** AVCC access units with parameter sets inserted *)

(** The output of a conversion: the extra data, or a unit. *)
Inductive chunk := CExtra | CUnit (n : list Z).

(** What the H.264 converters do: the extra data goes before every IDR slice (type 5) that has no SPS (7) or
    PPS (8) before it in the access unit. *)
Fixpoint plan (seen : bool) (l : list (list Z)) : list chunk :=
  match l with
  | [] => []
  | n :: r =>
    let t := avc_nal_type n in
    let seen := seen || (t =? 7) || (t =? 8) in
    (if (t =? 5) && negb seen then [CExtra] else []) ++ CUnit n :: plan seen r
  end.

(** What one would want: at most once, before the first IDR slice. *)
Fixpoint plan_once (seen : bool) (l : list (list Z)) : list chunk :=
  match l with
  | [] => []
  | n :: r =>
    let t := avc_nal_type n in
    let seen := seen || (t =? 7) || (t =? 8) in
    if (t =? 5) && negb seen then CExtra :: CUnit n :: map CUnit r
    else CUnit n :: plan_once seen r
  end.

(** Bytes of a plan: a unit at the very beginning gets a 4-byte start code, the others a 3-byte one. *)
Fixpoint render (extra : list Z) (first : bool) (l : list chunk) : list Z :=
  match l with
  | [] => []
  | CExtra :: r => extra ++ render extra (first && (zlen extra =? 0)) r
  | CUnit n :: r => sc first ++ n ++ render extra false r
  end.

Definition not_sei (n : list Z) : bool := negb (avc_nal_type n =? 6).

(** Data on which an AVCC reader stops: no complete non-empty unit at the front. *)
Definition avcc_stop (tail : list Z) : Prop :=
  zlen tail <= 4 \/ be_value (firstn 4 tail) = 0 \/ be_value (firstn 4 tail) > zlen tail - 4.

(** Number of start codes in arbitrary data. *)
Fixpoint count_sc (p : list Z) : Z :=
  match p with
  | [] => 0
  | x :: r => (match p with 0 :: 0 :: 1 :: _ :: _ => 1 | _ => 0 end) + count_sc r
  end.

(** *** H.265 in MP4 *)
(** Units after k-byte big-endian lengths. *)
Fixpoint lp (k : nat) (l : list (list Z)) : list Z :=
  match l with [] => [] | n :: r => be_bytes k (zlen n) ++ n ++ lp k r end.
Definition lp_unit_ok (k : nat) (n : list Z) : Prop := bytes_ok n /\ 2 <= zlen n < 256 ^ Z.of_nat k.
Definition irap (n : list Z) : bool := (16 <=? hevc_nal_type n) && (hevc_nal_type n <=? 23).
(** All with 4-byte start codes. *)
Definition annexb4 (l : list (list Z)) : list Z := concat (map (fun n => sc true ++ n) l).
(** The units up to (not including) the first IRAP, and the rest. *)
Fixpoint before_irap (l : list (list Z)) : list (list Z) * list (list Z) :=
  match l with
  | [] => ([], [])
  | n :: r => if irap n then ([], l) else let '(a, b) := before_irap r in (n :: a, b)
  end.
Definition with_extra (extra : list Z) (l : list (list Z)) : list Z :=
  match before_irap l with
  | (a, []) => annexb4 a
  | (a, b) => annexb4 a ++ extra ++ annexb4 b
  end.

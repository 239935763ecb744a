(** * RecordStateSpec: what Unmarshal leaves in a record, on plain lists of bytes. *)
From Verif Require Import Base NaluSpec RecordSpec.

(** The first [n] units with 2-byte lengths: those that are there, and the bytes behind them if all are there. *)
Fixpoint take_units (n : nat) (rest : list Z) : list (list Z) * option (list Z) :=
  match n with
  | O => ([], Some rest)
  | S k =>
    match rest with
    | a :: b :: t =>
      let size := Z.to_nat (256 * a + b) in
      if (length t <? size)%nat then ([], None)
      else let '(l, r) := take_units k (skipn size t) in (firstn size t :: l, r)
    | _ => ([], None)
    end
  end.
(** The units, with their types, of the first [n] arrays of an H.265 record. *)
Fixpoint take_arrays (n : nat) (rest : list Z) : list (Z * list Z) * option (list Z) :=
  match n with
  | O => ([], Some rest)
  | S k =>
    match rest with
    | b :: c :: d :: t =>
      let '(l, r) := take_units (Z.to_nat (256 * c + d)) t in
      let u := map (fun x => (b mod 64, x)) l in
      match r with
      | None => (u, None)
      | Some r1 => let '(u', r') := take_arrays k r1 in (u ++ u', r')
      end
    | _ => ([], None)
    end
  end.
(** An H.264 record behind its first five bytes: the SPSs and PPSs that are there, and whether the record is whole. *)
Definition avc_parts (body : list Z) : list (list Z) * list (list Z) * bool :=
  match body with
  | [] => ([], [], false)
  | c :: t =>
    if c mod 32 =? 0 then ([], [], false)
    else
      match take_units (Z.to_nat (c mod 32)) t with
      | (sps, Some (p :: t')) =>
        if p =? 0 then (sps, [], false)
        else match take_units (Z.to_nat p) t' with (pps, r) => (sps, pps, match r with Some _ => true | None => false end) end
      | (sps, _) => (sps, [], false)
      end
  end.

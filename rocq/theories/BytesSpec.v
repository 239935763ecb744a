(** * BytesSpec: a byte buffer with a cursor, as one would describe it on paper.

    State: the bytes and a position.  An operation of signed size d succeeds iff the position moved by
    d stays inside the buffer; otherwise it is an error without effect.  No machine integers. *)
From Verif Require Import Base.

Inductive bop :=
| OSeek (n : Z) | OSeekBack (n : Z) | OClear | OReset (d : list Z)
| ORead (n : nat)           (* big-endian unsigned of n = 1, 2, 3, 4, 8 bytes *)
| OBytes (n : Z)
| OWrite (n : nat) (v : Z)  (* big-endian unsigned of n = 1, 2, 4, 8 bytes *)
| OWriteBytes (d : list Z).

Inductive bval := VUnit | VNum (z : Z) | VList (l : list Z).

(** How far the cursor moves. *)
Definition bop_delta (o : bop) : Z :=
  match o with
  | OSeek n => n
  | OSeekBack n => - n
  | OClear | OReset _ => 0
  | ORead n | OWrite n _ => Z.of_nat n
  | OBytes n => n
  | OWriteBytes d => zlen d
  end.

(** replace the bytes at [off] *)
Definition overwrite (data : list Z) (off : Z) (new : list Z) : list Z :=
  firstn (Z.to_nat off) data ++ new ++ skipn (Z.to_nat (off + zlen new)) data.

Definition spec_step (data : list Z) (off : Z) (o : bop) : (list Z * Z) * res bval :=
  match o with
  | OClear => ((data, 0), Ok VUnit)
  | OReset d => ((d, 0), Ok VUnit)
  | _ =>
    let e := off + bop_delta o in
    if (0 <=? e) && (e <=? zlen data) then
      match o with
      | ORead n => ((data, e), Ok (VNum (be_value (firstn n (skipn (Z.to_nat off) data)))))
      | OBytes n => ((data, e), Ok (VList (firstn (Z.to_nat n) (skipn (Z.to_nat off) data))))
      | OWrite n v => ((overwrite data off (be_bytes n v), e), Ok VUnit)
      | OWriteBytes d => ((overwrite data off d, e), Ok VUnit)
      | _ => ((data, e), Ok VUnit)
      end
    else ((data, off), Err)
  end.

Fixpoint spec_run (data : list Z) (off : Z) (ops : list bop) : (list Z * Z) * list (res bval) :=
  match ops with
  | [] => ((data, off), [])
  | o :: ops' =>
    let '((d1, o1), r) := spec_step data off o in
    let '(s, rs) := spec_run d1 o1 ops' in (s, r :: rs)
  end.

(** Arguments a Go program can pass: int arguments are 64 bit, slices are shorter than 2^63,
    widths are those of the API; sizes of ReadBytes are not negative (see C05 for those). *)
Definition bop_ok (o : bop) : Prop :=
  match o with
  | OSeek n | OSeekBack n => is_i64 n
  | OClear => True
  | OReset d => zlen d < 2 ^ 63 /\ bytes_ok d
  | ORead n => n = 1%nat \/ n = 2%nat \/ n = 3%nat \/ n = 4%nat \/ n = 8%nat
  | OBytes n => is_i64 n /\ 0 <= n
  | OWrite n v => (n = 1%nat \/ n = 2%nat \/ n = 4%nat \/ n = 8%nat) /\ 0 <= v < 256 ^ Z.of_nat n
  | OWriteBytes d => zlen d < 2 ^ 63 /\ bytes_ok d
  end.

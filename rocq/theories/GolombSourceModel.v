(** * GolombSourceModel: bufio/golomb_reader.go once more, over an arbitrary io.Reader.

    BufioModel has the reader over a *bytes.Reader, the only one used in the repository. The field R is exported and may hold any
    io.Reader. Its contract lets Read return the last byte together with io.EOF, return 0 bytes without an error, and use the buffer as
    scratch space; ReadBit ignores the number of bytes and looks at the error and at the buffer only. *)
From Verif Require Import Base.

(** One call of Read with a buffer of one byte: what it left there if it wrote to it, the number of bytes it returned (1 or 0), and whether
    it returned an error. *)
Record answer := mkAns { an_wrote : option Z; an_one : bool; an_failed : bool }.
(** The answers still to come; after them every Read returns 0 and io.EOF. *)
Record gsource := mkGS { gs_src : list answer; gs_buf : Z; gs_left : Z }.
(** The zero value with R set. *)
Definition gs_new (src : list answer) : gsource := mkGS src 0 0.

Definition GS (A : Type) := gsource -> gsource * res A.
Definition s_ret {A} (a : A) : GS A := fun g => (g, Ok a).
Definition s_bind {A B} (m : GS A) (f : A -> GS B) : GS B :=
  fun g => match m g with
           | (g', Ok a) => f a g'
           | (g', Err) => (g', Err)
           | (g', Panic) => (g', Panic)
           | (g', NoFuel) => (g', NoFuel)
           end.

(** The buffer after an answer. *)
Definition after (buf : Z) (a : answer) : Z := match an_wrote a with Some b => b | None => buf end.

(** bufio/golomb_reader.go:13-23 ReadBit. *)
Definition s_read_bit : GS Z := fun g =>
  if gs_left g =? 0 then
    match gs_src g with
    | [] => (g, Err)
    | a :: src =>
      let buf := after (gs_buf g) a in
      if an_failed a then (mkGS src buf 0, Err)
      else let left := 8 - 1 in (mkGS src buf left, Ok (Z.land (Z.shiftr buf left) 1))
    end
  else
    let left := gs_left g - 1 in (mkGS (gs_src g) (gs_buf g) left, Ok (Z.land (Z.shiftr (gs_buf g) left) 1)).

(** bufio/golomb_reader.go:25-34 ReadBits. *)
Fixpoint s_read_bits_loop (k : nat) (acc : Z) : GS Z :=
  match k with
  | O => s_ret acc
  | S k' => s_bind s_read_bit (fun bit => s_read_bits_loop k' (Z.lor acc (u64 (Z.shiftl bit (Z.of_nat k')))))
  end.
Definition s_read_bits (n : Z) : GS Z := s_read_bits_loop (Z.to_nat n) 0.

(** bufio/golomb_reader.go:36-46 ReadBits32. *)
Fixpoint s_read_bits32_loop (k : nat) (r : Z) : GS Z :=
  match k with
  | O => s_ret r
  | S k' => s_bind s_read_bit (fun t => s_read_bits32_loop k' (Z.lor (u32 (Z.shiftl r 1)) (u32 t)))
  end.
Definition s_read_bits32 (n : Z) : GS Z := s_read_bits32_loop (Z.to_nat n) 0.

(** bufio/golomb_reader.go:48-58 ReadBits64. *)
Fixpoint s_read_bits64_loop (k : nat) (r : Z) : GS Z :=
  match k with
  | O => s_ret r
  | S k' => s_bind s_read_bit (fun t => s_read_bits64_loop k' (Z.lor (u64 (Z.shiftl r 1)) (u64 t)))
  end.
Definition s_read_bits64 (n : Z) : GS Z := s_read_bits64_loop (Z.to_nat n) 0.

(** bufio/golomb_reader.go:61-71, the loop counting leading zeros. *)
Fixpoint s_zeros_loop (fuel : nat) (i : Z) : GS Z :=
  match fuel with
  | O => fun g => (g, NoFuel)
  | S fuel' =>
    s_bind s_read_bit (fun bit =>
      if negb ((bit =? 0) && (i <? 32)) then s_ret i else s_zeros_loop fuel' (i + 1))
  end.

(** bufio/golomb_reader.go:60-77 ReadExponentialGolombCode. *)
Definition s_read_ue : GS Z :=
  s_bind (s_zeros_loop 100 0) (fun i =>
  s_bind (s_read_bits i) (fun res =>
  s_ret (u64 (res + u64 (Z.shiftl 1 i - 1))))).

(** bufio/golomb_reader.go:79-89 ReadSE. *)
Definition s_read_se : GS Z :=
  s_bind s_read_ue (fun res =>
  if negb (Z.land res 1 =? 0) then s_ret (u64 (res + 1) / 2)
  else s_ret (u64 (- res) / 2)).

(** * BufioModel: package bufio, function by function. *)
From Verif Require Import Base.

(* ---------------------------------------------------------------------------------------- *)
(** ** bits_reader.go *)

(** bufio/bits_reader.go:8-21, the loop of ReadBits; [n] is the number of iterations left. *)
Fixpoint read_bits_loop (data : list Z) (n : nat) (cur result : Z) : res Z :=
  match n with
  | O => Ok result
  | S n' =>
    let byteIndex := Z.quot cur 8 in
    let bitIndex := 7 - Z.rem cur 8 in
    if byteIndex >=? zlen data then Ok result
    else
      b <- of_opt (idx data byteIndex);;
      let bitValue := Z.land (Z.shiftr b bitIndex) 1 in
      read_bits_loop data n' (cur + 1) (Z.lor (u64 (Z.shiftl result 1)) bitValue)
  end.

(** bufio/bits_reader.go:4-24 ReadBits. *)
Definition read_bits (data : list Z) (startBit bitLength : Z) : res Z :=
  read_bits_loop data (Z.to_nat bitLength) startBit 0.

(** bufio/bits_reader.go:26-29 BitsReader, bufio/bits_writer.go:26-29 BitsWriter. *)
Record bits_cursor := { bc_data : list Z; bc_off : Z }.

(** bufio/bits_reader.go:31-35 Read. *)
Definition br_read (b : bits_cursor) (length : Z) : res (Z * bits_cursor) :=
  v <- read_bits (bc_data b) (bc_off b) length;;
  Ok (v, {| bc_data := bc_data b; bc_off := bc_off b + length |}).

(** bufio/bits_reader.go:37-39 and bufio/bits_writer.go:36-38 Seek. *)
Definition bc_seek (b : bits_cursor) (length : Z) : bits_cursor :=
  {| bc_data := bc_data b; bc_off := bc_off b + length |}.

(** bufio/bits_reader.go:41-45 ReadBytes. *)
Definition br_read_bytes (b : bits_cursor) (length : Z) : res (list Z * bits_cursor) :=
  let off' := bc_off b + 8 * length in
  s <- of_opt (slice (bc_data b) (Z.quot (bc_off b) 8) (Z.quot off' 8));;
  Ok (s, {| bc_data := bc_data b; bc_off := off' |}).

(** bufio/bits_reader.go:47-49 SafeRead. *)
Definition br_safe_read (b : bits_cursor) (length : Z) : res (Z * bits_cursor) := Ok (0, b).

(* ---------------------------------------------------------------------------------------- *)
(** ** bits_writer.go *)

(** bufio/bits_writer.go:7-23, the loop of WriteBits; [n] iterations left, so i = n-1. *)
Fixpoint write_bits_loop (data : list Z) (n : nat) (cur value : Z) : res (list Z) :=
  match n with
  | O => Ok data
  | S n' =>
    let byteIndex := Z.quot cur 8 in
    let bitIndex := 7 - Z.rem cur 8 in
    if byteIndex >=? zlen data then Ok data
    else
      let bitValue := Z.land (Z.shiftr value (Z.of_nat n')) 1 in
      b <- of_opt (idx data byteIndex);;
      let b1 := Z.ldiff b (u8 (Z.shiftl 1 bitIndex)) in
      let b2 := Z.lor b1 (u8 (Z.shiftl bitValue bitIndex)) in
      data' <- of_opt (upd data byteIndex b2);;
      write_bits_loop data' n' (cur + 1) value
  end.

(** bufio/bits_writer.go:4-24 WriteBits. *)
Definition write_bits (data : list Z) (startBit bitLength value : Z) : res (list Z) :=
  write_bits_loop data (Z.to_nat bitLength) startBit value.

(** bufio/bits_writer.go:31-34 Write. *)
Definition bw_write (b : bits_cursor) (length value : Z) : res bits_cursor :=
  d <- write_bits (bc_data b) (bc_off b) length value;;
  Ok {| bc_data := d; bc_off := bc_off b + length |}.

(** bufio/bits_writer.go:40-43 WriteBytes. *)
Definition bw_write_bytes (b : bits_cursor) (data : list Z) : res bits_cursor :=
  d <- of_opt (copy_at (bc_data b) (Z.quot (bc_off b) 8) data);;
  Ok {| bc_data := d; bc_off := bc_off b + zlen data * 8 |}.

(* ---------------------------------------------------------------------------------------- *)
(** ** util.go *)

(** bufio/util.go:3-7 PutUint24. *)
Definition put_uint24 (dst : list Z) (src : Z) : res (list Z) :=
  d0 <- of_opt (upd dst 0 (u8 (Z.shiftr src 16)));;
  d1 <- of_opt (upd d0 1 (u8 (Z.shiftr src 8)));;
  of_opt (upd d1 2 (u8 src)).

(** bufio/util.go:9-11 Uint24. *)
Definition uint24 (data : list Z) : res Z :=
  a <- of_opt (idx data 0);;
  b <- of_opt (idx data 1);;
  c <- of_opt (idx data 2);;
  Ok (Z.lor (Z.lor (u32 (Z.shiftl a 16)) (u32 (Z.shiftl b 8))) c).

(** bufio/util.go:13-27 MinInt, MaxInt. *)
Definition min_int (a b : Z) : Z := if a >? b then b else a.
Definition max_int (a b : Z) : Z := if a >? b then a else b.

(** encoding/binary.BigEndian.UintN / PutUintN (N = 8n): panic on short slices. *)
Definition be_get (n : nat) (l : list Z) : res Z :=
  s <- of_opt (slice l 0 (Z.of_nat n));; Ok (be_value s).
Definition be_put (n : nat) (l : list Z) (v : Z) : res (list Z) :=
  if zlen l <? Z.of_nat n then Panic else of_opt (copy_at l 0 (be_bytes n v)).

(* ---------------------------------------------------------------------------------------- *)
(** ** bytes_buffer.go *)

(** bufio/bytes_buffer.go:27-31 bytesBuffer. *)
Record bytes_buffer := { bb_data : list Z; bb_length : Z; bb_offset : Z }.

Definition bb_set_offset (b : bytes_buffer) (o : Z) : bytes_buffer :=
  {| bb_data := bb_data b; bb_length := bb_length b; bb_offset := o |}.
Definition bb_set_data (b : bytes_buffer) (d : list Z) : bytes_buffer :=
  {| bb_data := d; bb_length := bb_length b; bb_offset := bb_offset b |}.

(** bufio/bytes_buffer.go:34-42 peekN: None is the error (nothing assigned), Some the updated state. *)
Definition peekN (b : bytes_buffer) (size : Z) : option bytes_buffer :=
  let e := i64 (bb_offset b + size) in
  if (bb_length b <? e) || (e <? 0) then None else Some (bb_set_offset b e).

(** bufio/bytes_buffer.go:44-48 setData; also Reset (70-72), NewBytesReader (bytes_reader.go:77-81),
    NewBytesWriter (bytes_wirter.go:77-81). *)
Definition bb_new (data : list Z) : bytes_buffer :=
  {| bb_data := data; bb_length := zlen data; bb_offset := 0 |}.

(** Methods return the new state (Go mutates the receiver, also on the error path) and the outcome. *)

(** bufio/bytes_buffer.go:50-56 Seek. *)
Definition bb_seek (b : bytes_buffer) (size : Z) : bytes_buffer * res unit :=
  match peekN b size with None => (b, Err) | Some b' => (b', Ok tt) end.

(** bufio/bytes_buffer.go:58-64 SeekBack. *)
Definition bb_seek_back (b : bytes_buffer) (size : Z) : bytes_buffer * res unit :=
  match peekN b (i64 (0 - size)) with None => (b, Err) | Some b' => (b', Ok tt) end.

(** bufio/bytes_buffer.go:74-76 RemainingBytes. *)
Definition bb_remaining (b : bytes_buffer) : res (list Z) := of_opt (slice_from (bb_data b) (bb_offset b)).

(** bufio/bytes_buffer.go:78-80 ReadableBytes. *)
Definition bb_readable (b : bytes_buffer) : Z := bb_length b - bb_offset b.

(** bufio/bytes_buffer.go:82-84 Clear. *)
Definition bb_clear (b : bytes_buffer) : bytes_buffer := bb_set_offset b 0.

(* ---------------------------------------------------------------------------------------- *)
(** ** bytes_reader.go *)

(** bufio/bytes_reader.go:28-34 ReadUint8. *)
Definition rd_u8 (b : bytes_buffer) : bytes_buffer * res Z :=
  match peekN b 1 with
  | None => (b, Err)
  | Some b' => (b', of_opt (idx (bb_data b') (bb_offset b' - 1)))
  end.

(** bufio/bytes_reader.go:36-42 (n=2), 52-58 (n=4), 60-66 (n=8): ReadUint16/32/64. *)
Definition rd_uint (n : nat) (b : bytes_buffer) : bytes_buffer * res Z :=
  match peekN b (Z.of_nat n) with
  | None => (b, Err)
  | Some b' =>
    (b', s <- of_opt (slice_from (bb_data b') (bb_offset b' - Z.of_nat n));; be_get n s)
  end.

(** bufio/bytes_reader.go:44-50 ReadUint24. *)
Definition rd_u24 (b : bytes_buffer) : bytes_buffer * res Z :=
  match peekN b 3 with
  | None => (b, Err)
  | Some b' => (b', s <- of_opt (slice_from (bb_data b') (bb_offset b' - 3));; uint24 s)
  end.

(** bufio/bytes_reader.go:68-75 ReadBytes. *)
Definition rd_bytes (b : bytes_buffer) (size : Z) : bytes_buffer * res (list Z) :=
  let tmp := bb_offset b in
  match peekN b size with
  | None => (b, Err)
  | Some b' => (b', of_opt (slice (bb_data b') tmp (bb_offset b')))
  end.

(* ---------------------------------------------------------------------------------------- *)
(** ** bytes_wirter.go *)

Definition finish_write (b : bytes_buffer) (r : res (list Z)) : bytes_buffer * res unit :=
  match r with
  | Ok d => (bb_set_data b d, Ok tt)
  | Err => (b, Err)
  | Panic => (b, Panic)
  | NoFuel => (b, NoFuel)
  end.

(** bufio/bytes_wirter.go:28-35 WriteUint8. *)
Definition wr_u8 (b : bytes_buffer) (v : Z) : bytes_buffer * res unit :=
  match peekN b 1 with
  | None => (b, Err)
  | Some b' => finish_write b' (of_opt (upd (bb_data b') (bb_offset b' - 1) v))
  end.

(** A write into the subslice data[lo:], seen in data. *)
Definition write_sub (data : list Z) (lo : Z) (f : list Z -> res (list Z)) : res (list Z) :=
  s <- of_opt (slice_from data lo);;
  s' <- f s;;
  Ok (firstn (Z.to_nat lo) data ++ s').

(** bufio/bytes_wirter.go:37-44, 46-53, 55-62: WriteUint16/32/64. *)
Definition wr_uint (n : nat) (b : bytes_buffer) (v : Z) : bytes_buffer * res unit :=
  match peekN b (Z.of_nat n) with
  | None => (b, Err)
  | Some b' =>
    finish_write b' (write_sub (bb_data b') (bb_offset b' - Z.of_nat n) (fun s => be_put n s v))
  end.

(** bufio/bytes_wirter.go:64-71 Write. *)
Definition wr_bytes (b : bytes_buffer) (data : list Z) : bytes_buffer * res unit :=
  match peekN b (zlen data) with
  | None => (b, Err)
  | Some b' => finish_write b' (of_opt (copy_at (bb_data b') (bb_offset b' - zlen data) data))
  end.

(** bufio/bytes_wirter.go:73-75 WrittenBytes. *)
Definition wr_written (b : bytes_buffer) : res (list Z) := of_opt (slice (bb_data b) 0 (bb_offset b)).

(* ---------------------------------------------------------------------------------------- *)
(** ** golomb_reader.go

    R is an io.Reader; every use in the repository passes a *bytes.Reader (avc/sps.go, hevc/sps.go),
    so R is modelled as the list of bytes not yet read: Read into a one byte buffer returns the next
    byte, or io.EOF.  uint is 64 bits wide.  All methods return the state even when they fail. *)

(** bufio/golomb_reader.go:7-11 GolombBitReader. *)
Record golomb := { g_rest : list Z; g_buf : Z; g_left : Z }.
Definition golomb_new (data : list Z) : golomb := {| g_rest := data; g_buf := 0; g_left := 0 |}.

(** The state monad of the reader. *)
Definition G (A : Type) := golomb -> golomb * res A.
Definition g_ret {A} (a : A) : G A := fun g => (g, Ok a).
Definition g_bind {A B} (m : G A) (f : A -> G B) : G B :=
  fun g => match m g with
           | (g', Ok a) => f a g'
           | (g', Err) => (g', Err)
           | (g', Panic) => (g', Panic)
           | (g', NoFuel) => (g', NoFuel)
           end.

(** bufio/golomb_reader.go:13-23 ReadBit. *)
Definition g_read_bit : G Z := fun g =>
  if g_left g =? 0 then
    match g_rest g with
    | [] => (g, Err)
    | b :: rest =>
      let left := 8 - 1 in
      ({| g_rest := rest; g_buf := b; g_left := left |}, Ok (Z.land (Z.shiftr b left) 1))
    end
  else
    let left := g_left g - 1 in
    ({| g_rest := g_rest g; g_buf := g_buf g; g_left := left |}, Ok (Z.land (Z.shiftr (g_buf g) left) 1)).

(** bufio/golomb_reader.go:25-34 ReadBits; [k] iterations left, so the shift n-i-1 is k-1. *)
Fixpoint g_read_bits_loop (k : nat) (acc : Z) : G Z :=
  match k with
  | O => g_ret acc
  | S k' =>
    g_bind g_read_bit (fun bit => g_read_bits_loop k' (Z.lor acc (u64 (Z.shiftl bit (Z.of_nat k')))))
  end.
Definition g_read_bits (n : Z) : G Z := g_read_bits_loop (Z.to_nat n) 0.

(** bufio/golomb_reader.go:36-46 ReadBits32. *)
Fixpoint g_read_bits32_loop (k : nat) (r : Z) : G Z :=
  match k with
  | O => g_ret r
  | S k' => g_bind g_read_bit (fun t => g_read_bits32_loop k' (Z.lor (u32 (Z.shiftl r 1)) (u32 t)))
  end.
Definition g_read_bits32 (n : Z) : G Z := g_read_bits32_loop (Z.to_nat n) 0.

(** bufio/golomb_reader.go:48-58 ReadBits64. *)
Fixpoint g_read_bits64_loop (k : nat) (r : Z) : G Z :=
  match k with
  | O => g_ret r
  | S k' => g_bind g_read_bit (fun t => g_read_bits64_loop k' (Z.lor (u64 (Z.shiftl r 1)) (u64 t)))
  end.
Definition g_read_bits64 (n : Z) : G Z := g_read_bits64_loop (Z.to_nat n) 0.

(** bufio/golomb_reader.go:61-71, the loop counting leading zeros. *)
Fixpoint g_zeros_loop (fuel : nat) (i : Z) : G Z :=
  match fuel with
  | O => fun g => (g, NoFuel)
  | S fuel' =>
    g_bind g_read_bit (fun bit =>
      if negb ((bit =? 0) && (i <? 32)) then g_ret i else g_zeros_loop fuel' (i + 1))
  end.

(** bufio/golomb_reader.go:60-77 ReadExponentialGolombCode. *)
Definition g_read_ue : G Z :=
  g_bind (g_zeros_loop 100 0) (fun i =>
  g_bind (g_read_bits i) (fun res =>
  g_ret (u64 (res + u64 (Z.shiftl 1 i - 1))))).

(** bufio/golomb_reader.go:79-89 ReadSE. *)
Definition g_read_se : G Z :=
  g_bind g_read_ue (fun res =>
  if negb (Z.land res 1 =? 0) then g_ret (u64 (res + 1) / 2)
  else g_ret (u64 (- res) / 2)).

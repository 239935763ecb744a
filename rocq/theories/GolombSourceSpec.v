(** * GolombSourceSpec: what a bit reader gets from an io.Reader. *)
From Verif Require Import Base BufioModel GolombSourceModel.

(** The bytes in the buffer after each Read, up to the first error. *)
Fixpoint taken (buf : Z) (src : list answer) : list Z :=
  match src with
  | [] => []
  | a :: t => if an_failed a then [] else let b := match an_wrote a with Some b => b | None => buf end in b :: taken b t
  end.
(** The byte in the buffer after some answers: the last one written. *)
Definition last_written (buf : Z) (l : list answer) : Z := fold_left (fun b a => match an_wrote a with Some x => x | None => b end) l buf.
(** The answers used up by a call that failed: the last one is the error, or there were none left. *)
Definition used_by_error (used rest : list answer) : Prop :=
  exists ok, Forall (fun a => an_failed a = false) ok /\ ((used = ok /\ rest = []) \/ exists a, used = ok ++ [a] /\ an_failed a = true).
(** The data of the io.Reader by its contract: the bytes returned, those that come with the error included. *)
Fixpoint delivered_bytes (src : list answer) : list Z :=
  match src with
  | [] => []
  | a :: t =>
    (if an_one a then match an_wrote a with Some b => [b] | None => [] end else []) ++
    (if an_failed a then [] else delivered_bytes t)
  end.
(** A Read that returns 1 has written the byte. *)
Definition lawful (a : answer) : Prop := an_one a = true -> an_wrote a <> None.

(** The methods of the reader. *)
Inductive gop := GBit | GBits (n : Z) | GBits32 (n : Z) | GBits64 (n : Z) | GUE | GSE.
Definition g_op (o : gop) : G Z := match o with GBit => g_read_bit | GBits n => g_read_bits n | GBits32 n => g_read_bits32 n | GBits64 n => g_read_bits64 n | GUE => g_read_ue | GSE => g_read_se end.
Definition s_op (o : gop) : GS Z := match o with GBit => s_read_bit | GBits n => s_read_bits n | GBits32 n => s_read_bits32 n | GBits64 n => s_read_bits64 n | GUE => s_read_ue | GSE => s_read_se end.
(** Calls of methods until one fails; [choose] picks the next call by the values read so far, as a parser does. *)
Fixpoint g_parse (choose : list Z -> option gop) (fuel : nat) (got : list Z) : G (list Z) :=
  match fuel with
  | O => fun g => (g, NoFuel)
  | S f => match choose got with None => g_ret got | Some o => g_bind (g_op o) (fun v => g_parse choose f (got ++ [v])) end
  end.
Fixpoint s_parse (choose : list Z -> option gop) (fuel : nat) (got : list Z) : GS (list Z) :=
  match fuel with
  | O => fun g => (g, NoFuel)
  | S f => match choose got with None => s_ret got | Some o => s_bind (s_op o) (fun v => s_parse choose f (got ++ [v])) end
  end.

(** * RbLedgerSpec: an account of the blocks a user of RBBlockBuffer holds.

    The user sees a queue: a block enters it with the first Write after a Fetch, and the oldest one leaves it with each Pop.
    The account also says where each of these blocks is: in the array in use, in an array that a growth replaced, or
    released by the buffer although no Pop of the user reached it yet. *)
From Verif Require Import Base CollectionsSpec BlockModel BlockSpec.

Inductive place := InRing | Aside | Gone.
Record entry := mkE { e_bytes : list Z; e_slice : option gslice; e_place : place }.

(** [l_owed]: Pops that are still to be spent on blocks set aside by the last growth.
    [l_lost]: Pops that were still to be spent so when a further growth began a new count. *)
Record ledger := mkLed { l_held : list entry; l_owed : Z; l_lost : Z }.
Definition led_new : ledger := mkLed [] 0 0.

Definition in_ring (e : entry) : bool := match e_place e with InRing => true | _ => false end.
Definition open_entry (l : list entry) : option (list Z) :=
  match last_of l with
  | Some e => match e_slice e with None => if in_ring e then Some (e_bytes e) else None | Some _ => None end
  | None => None
  end.
Definition before_open (l : list entry) : list entry := match open_entry l with Some _ => removelast l | None => l end.
Definition open_content (l : list entry) : list Z := match open_entry l with Some b => b | None => [] end.
Definition set_aside (e : entry) : entry := if in_ring e then mkE (e_bytes e) (e_slice e) Aside else e.
(** the buffer releases the oldest block it still has *)
Fixpoint release (l : list entry) : list entry :=
  match l with
  | [] => []
  | e :: t => if in_ring e then mkE (e_bytes e) (e_slice e) Gone :: t else e :: release t
  end.

(** [ret]: the slice that was returned; [grew]: the call replaced the array. *)
Definition led_step (L : ledger) (o : bb_op) (ret : option gslice) (grew : bool) : ledger :=
  let held := l_held L in
  match o with
  | BWrite d =>
    let front := before_open held in
    let e := mkE (open_content held ++ d) None InRing in
    if grew then mkLed (map set_aside front ++ [e]) (zlen (filter in_ring front)) (l_lost L + l_owed L)
    else mkLed (front ++ [e]) (l_owed L) (l_lost L)
  | BFetch =>
    match ret with
    | Some s => mkLed (before_open held ++ [mkE (open_content held) (Some s) InRing]) (l_owed L) (l_lost L)
    | None => L
    end
  | BPop =>
    if l_owed L >? 0 then mkLed (tl held) (l_owed L - 1) (l_lost L)
    else if existsb in_ring held then mkLed (tl (release held)) 0 (l_lost L)
    else mkLed (tl held) 0 (Z.max (l_lost L - 1) 0)
  | BPopBack => mkLed (removelast held) (l_owed L) (l_lost L)
  | BClear => led_new
  | BPending | BSize => L
  end.

(** A history; a panic leaves everything as it was. *)
Definition acc_step (st : heap * rbuf * ledger) (o : bb_op) : heap * rbuf * ledger :=
  let '(h, r, L) := st in
  match rb_impl h r o with
  | Ok (h1, r1, ret) => (h1, r1, led_step L o (raw_slice ret) (negb (Nat.eqb (s_arr (d_data (rb_d r1))) (s_arr (d_data (rb_d r))))))
  | _ => st
  end.
Definition acc_run (st : heap * rbuf * ledger) (ops : list bb_op) := fold_left acc_step ops st.

(** No Write of the history meets an exactly full ring. *)
Fixpoint never_full (st : heap * rbuf * ledger) (ops : list bb_op) : Prop :=
  match ops with
  | [] => True
  | o :: ops' => match o with BWrite _ => ~ rb_full (snd (fst st)) | _ => True end /\ never_full (acc_step st o) ops'
  end.

(** How a block of the ring shows in the account. *)
Definition shows (data : gslice) (k : block) (e : entry) : Prop :=
  e_place e = InRing /\ zlen (e_bytes e) = bk_size k /\
  e_slice e = (if bk_completed k then Some (mkSlice (s_arr data) (s_off data + bk_index k) (bk_size k)) else None).

(** * PropertiesRbFetch: C108 (the block being written), C109 (the memory a Write changes). *)
From Verif Require Import Base CollectionsSpec BlockModel BlockSpec HeapProofs RbFetchSpec RbFetchProofs.

(** C108: after any calls, PendingBlockSize is the number of bytes written since the last Fetch (since PopBack or Clear,
    or since a Pop that emptied the buffer), and Fetch returns exactly those bytes. With no block open Fetch returns nil,
    and panics if there is no block at all. *)
Theorem C108_fetch_exact : forall h0 c h r ops, rb_new h0 c = Ok (h, r) ->
  let '(h', r', cur) := ring_run (h, r, None) ops in
  rb_pending r' = match cur with Some b => zlen b | None => 0 end /\
  match cur with
  | Some b => exists r2 s, rb_fetch r' = Ok (r2, Some s) /\ read h' s = Ok b
  | None => if rb_size r' =? 0 then rb_fetch r' = Panic else rb_fetch r' = Ok (r', None)
  end.
Proof.
  intros h0 c h r ops E. pose proof (open_run ops h r None (open_new _ _ _ _ E)) as O. destruct (ring_run (h, r, None) ops) as [[h' r'] cur].
  destruct (open_state _ _ _ O) as [P F]. split; [destruct cur; exact P|exact F].
Qed.
Print Assumptions C108_fetch_exact.

(** a ring of 6 bytes: the third block begins at the end of the array and is moved to its front when it grows *)
Example C108_example : exists h r h' r', rb_new [] 6 = Ok (h, r) /\
  ring_run (h, r, None) [BWrite [1;2;3]; BFetch; BWrite [4;5]; BFetch; BPop; BWrite [6]; BWrite [7;8]; BPending] = (h', r', Some [6;7;8]) /\
  rb_pending r' = 3 /\ (exists r2 s, rb_fetch r' = Ok (r2, Some s) /\ read h' s = Ok [6;7;8] /\ rb_fetch r2 = Ok (r2, None)).
Proof.
  do 4 eexists. split; [vm_compute; reflexivity|]. split; [vm_compute; reflexivity|]. split; [reflexivity|]. do 2 eexists. split; [vm_compute; reflexivity|]. split; reflexivity.
Qed.
Print Assumptions C108_example.

(** C109: a Write after any calls either puts one stretch of bytes into the array, at a place given by the indices of the
    first and the last block, and changes no other byte of any array; or it makes a new array that begins with the whole
    open block, and changes no byte of any array there was. *)
Theorem C109_write_effect : forall h0 c h r ops d, rb_new h0 c = Ok (h, r) ->
  let '(h', r', cur) := ring_run (h, r, None) ops in
  let old := match cur with Some b => b | None => [] end in
  let data := d_data (rb_d r') in
  exists a h2 r2, read h' data = Ok a /\ rb_write h' r' d = Ok (h2, r2) /\
  match write_target r' old d with
  | Put lo b => d_data (rb_d r2) = data /\ 0 <= lo /\ lo + zlen b <= zlen a /\ read h2 data = Ok (overlay a lo b) /\
      forall t, apart t (mkSlice (s_arr data) (s_off data + lo) (zlen b)) -> read h2 t = read h' t
  | Grow => s_arr (d_data (rb_d r2)) = length h' /\ (forall t, (s_arr t < length h')%nat -> read h2 t = read h' t) /\
      exists rest, read h2 (d_data (rb_d r2)) = Ok (old ++ d ++ rest)
  end.
Proof.
  intros h0 c h r ops d E. pose proof (open_run ops h r None (open_new _ _ _ _ E)) as O. destruct (ring_run (h, r, None) ops) as [[h' r'] cur]. cbn zeta.
  pose proof O as ((V & _) & _). destruct (valid_read _ _ V) as (a & Ra & _). destruct (write_effect h' r' cur d a O Ra) as (h2 & r2 & Ew & X). exists a, h2, r2. split; [exact Ra|]. split; [exact Ew|]. exact X.
Qed.
Print Assumptions C109_write_effect.

(** two blocks of three fill the ring of six: after the first Pop a Write of two goes to the front, the next Write of two
    bytes into the same block makes a new array *)
Example C109_example : exists h r, rb_new [] 6 = Ok (h, r) /\
  (let '(h1, r1, cur) := ring_run (h, r, None) [BWrite [1;2;3]; BFetch; BWrite [4;5;6]; BFetch; BPop] in
   read h1 (d_data (rb_d r1)) = Ok [1;2;3;4;5;6] /\ write_target r1 [] [7;8] = Put 0 [7;8] /\ overlay [1;2;3;4;5;6] 0 [7;8] = [7;8;3;4;5;6]) /\
  (let '(h1, r1, cur) := ring_run (h, r, None) [BWrite [1;2;3]; BFetch; BWrite [4;5;6]; BFetch; BPop; BWrite [7;8]] in
   cur = Some [7;8] /\ write_target r1 [7;8] [9;9] = Grow /\ write_target r1 [7;8] [9] = Put 2 [9]).
Proof.
  do 2 eexists. split; [vm_compute; reflexivity|]. split; vm_compute; repeat split; reflexivity.
Qed.
Print Assumptions C109_example.

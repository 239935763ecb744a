(** * ModelTests: the tests of the repository (its *_test.go files), run on the model.

    These are tests of the model, not properties: the decoder configuration records are from real streams. *)
From Verif Require Import Base BufioModel CollectionsModel BlockModel RecordModel SpsModel.
From Coq Require Import List.
Import ListNotations.
Local Open Scope list_scope.

(** avc/mp4_test.go:9-35 *)
Definition test_avc : list Z := [1; 66; 192; 30; 255; 225; 0; 24; 103; 66; 192; 30; 218; 1; 224; 8; 159; 150; 16; 0; 0; 3; 0; 16; 0; 0; 3; 3; 32; 241; 98; 234; 1; 0; 5; 104; 206; 15; 44; 128].
Example test_avc_record : avc_unmarshal avc_record_zero test_avc =
  Ok {| ar_version := 1; ar_profile := 66; ar_compat := 192; ar_level := 30; ar_length_size := 3;
        ar_sps := [[0; 0; 0; 1; 103; 66; 192; 30; 218; 1; 224; 8; 159; 150; 16; 0; 0; 3; 0; 16; 0; 0; 3; 3; 32; 241; 98; 234]];
        ar_pps := [[0; 0; 0; 1; 104; 206; 15; 44; 128]] |} /\
  avc_extra_to_annexb test_avc =
  Ok [0; 0; 0; 1; 103; 66; 192; 30; 218; 1; 224; 8; 159; 150; 16; 0; 0; 3; 0; 16; 0; 0; 3; 3; 32; 241; 98; 234; 0; 0; 0; 1; 104; 206; 15; 44; 128].
Proof. split; vm_compute; reflexivity. Qed.
(** A 1920x1080 stream; the frame rate is wrong because the emulation prevention bytes are left in (C82). *)
Example test_avc_codec_data : exists r s, avc_new_codec_data test_avc = Ok (r, s) /\ as_width s = 1920 /\ as_height s = 1080 /\ as_fps s = Some 174762.
Proof. do 2 eexists. split; [vm_compute; reflexivity|]. repeat split; vm_compute; reflexivity. Qed.

(** hevc/mp4_test.go:9-35 *)
Definition test_hevc : list Z := [1; 1; 96; 0; 0; 0; 144; 0; 0; 0; 0; 0; 93; 240; 0; 252; 253; 248; 248; 0; 0; 15; 3; 160; 0; 1; 0; 24; 64; 1; 12; 1; 255; 255; 1; 96; 0; 0; 3; 0; 144; 0; 0; 3; 0; 0; 3; 0; 93; 153; 152; 9; 161; 0; 1; 0; 45; 66; 1; 1; 1; 96; 0; 0; 3; 0; 144; 0; 0; 3; 0; 0; 3; 0; 93; 160; 2; 128; 128; 45; 22; 89; 153; 164; 147; 43; 154; 128; 128; 128; 130; 0; 0; 3; 0; 2; 0; 0; 3; 0; 50; 16; 162; 0; 1; 0; 7; 68; 1; 193; 114; 180; 98; 64].
Example test_hevc_record : exists h s, hevc_unmarshal (fun n => n) test_hevc = Ok (h, s) /\ hh_version h = 1 /\ hh_profile h = 1 /\ hh_level h = 93 /\ hh_length_size h = 4 /\ hh_arrays h = 3 /\
  ns_read (hs_heap s) (hs_vps s) = [[0; 0; 0; 1; 64; 1; 12; 1; 255; 255; 1; 96; 0; 0; 3; 0; 144; 0; 0; 3; 0; 0; 3; 0; 93; 153; 152; 9]] /\
  ns_read (hs_heap s) (hs_sps s) = [[0; 0; 0; 1; 66; 1; 1; 1; 96; 0; 0; 3; 0; 144; 0; 0; 3; 0; 0; 3; 0; 93; 160; 2; 128; 128; 45; 22; 89; 153; 164; 147; 43; 154; 128; 128; 128; 130; 0; 0; 3; 0; 2; 0; 0; 3; 0; 50; 16]] /\
  ns_read (hs_heap s) (hs_pps s) = [[0; 0; 0; 1; 68; 1; 193; 114; 180; 98; 64]].
Proof. do 2 eexists. split; [vm_compute; reflexivity|]. repeat split; vm_compute; reflexivity. Qed.
Example test_hevc_codec_data : exists h s i, hevc_new_codec_data (fun n => n) test_hevc = Ok (h, s, i) /\ hsp_width i = 1280 /\ hsp_height i = 720.
Proof. do 3 eexists. split; [vm_compute; reflexivity|]. split; vm_compute; reflexivity. Qed.

(** bufio/bits_test.go:8-16 *)
Example test_bits_reader : br_read {| bc_data := [170; 204; 240]; bc_off := 4 |} 8 = Ok (172, {| bc_data := [170; 204; 240]; bc_off := 12 |}).
Proof. vm_compute. reflexivity. Qed.

Definition upto (n : nat) : list Z := map Z.of_nat (seq 0 n).
Fixpoint iter {S} (f : S -> res S) (n : nat) (s : S) : res S := match n with O => Ok s | S k => s' <- f s;; iter f k s' end.
Fixpoint drain {S B} (f : S -> res (B * S)) (n : nat) (s : S) : res (list B * S) :=
  match n with O => Ok ([], s) | S k => '(x, s1) <- f s;; '(l, s2) <- drain f k s1;; Ok (x :: l, s2) end.
Fixpoint feed {S B} (f : S -> B -> res S) (l : list B) (s : S) : res S := match l with [] => Ok s | x :: r => s' <- f s x;; feed f r s' end.

(** collections/linked_list_test.go:8-24 *)
Example test_linked_list : exists l, feed ll_add (upto 100) (@ll_new Z) = Ok l /\ map (fun i => ll_get l i) (upto 100) = map Ok (upto 100) /\
  exists l', drain (fun l => ll_remove l 0) 100 l = Ok (upto 100, l') /\ ll_size l' = 0.
Proof. eexists. split; [vm_compute; reflexivity|]. split; [vm_compute; reflexivity|]. eexists. split; vm_compute; reflexivity. Qed.
(** collections/queue_test.go:8-19 *)
Example test_queue : exists q q', (q <- queue_new 0 1;; feed (queue_push 0) (upto 100) q) = Ok q /\ drain queue_pop_back 100 q = Ok (rev (upto 100), q').
Proof. do 2 eexists. split; vm_compute; reflexivity. Qed.
(** collections/reference_counter_test.go:8-13; the zero value of the counter is 0. *)
Example test_reference_counter : rc_use_count (rc_refer 0) = 1 /\ snd (rc_release (rc_refer 0)) = true.
Proof. split; reflexivity. Qed.
(** collections/ringbuffer_test.go:8-29: the test panics in Head of the empty buffer. Without that: the last ten of the hundred elements. *)
Example test_ring_buffer : exists r, ring_new 0 10 = Ok r /\ ring_is_full r = false /\ ring_is_empty r = true /\ ring_head r = Panic /\ ring_tail r = Panic /\
  exists r1 r2, feed (ring_push 0) (upto 100) r = Ok r1 /\ drain (ring_pop 0) 10 r1 = Ok (skipn 90 (upto 100), r2) /\ ring_is_empty r2 = true.
Proof. eexists. split; [vm_compute; reflexivity|]. repeat (split; [vm_compute; reflexivity|]). do 2 eexists. split; [vm_compute; reflexivity|]. split; vm_compute; reflexivity. Qed.
(** collections/blockbuffer_test.go:5-27 (both parts are the same): one open block of a hundred bytes; popping on is harmless. *)
Example test_block_buffer : exists h b, (s <- d_new [] 24;; feed (fun s x => d_write (fst s) (snd s) [x]) (upto 100) s) = Ok (h, b) /\
  d_blocks b = [{| bk_index := 0; bk_size := 100; bk_completed := false |}] /\ exists b', iter d_pop 100 b = Ok b' /\ d_size b' = 0.
Proof. do 2 eexists. split; [vm_compute; reflexivity|]. split; [vm_compute; reflexivity|]. eexists. split; vm_compute; reflexivity. Qed.

(** * RecordStateModel: Unmarshal as a method of a record that may have been used before.

    RecordModel gives the record only when Unmarshal succeeds, and the H.265 one only for a fresh receiver. Here the receiver is given
    and returned in every case, together with the error. *)
From Verif Require Import Base BufioModel NaluModel RecordModel.

(** "if err != nil { return err }" with the receiver in state [s]. *)
Definition keep {S A B} (s : S) (x : res A) (k : A -> S * res B) : S * res B :=
  match x with Ok a => k a | Err => (s, Err) | Panic => (s, Panic) | NoFuel => (s, NoFuel) end.

(** avc/mp4.go:118-135 and 145-162: the list grows with every unit that is read. *)
Fixpoint read_sets_st (n : nat) (r : bytes_buffer) (acc : list (list Z)) : list (list Z) * res bytes_buffer :=
  match n with
  | O => (acc, Ok r)
  | S k =>
    keep acc (try_ (rd_uint 2 r)) (fun '(r1, length) =>
    keep acc (try_ (rd_bytes r1 length)) (fun '(r2, bytes) =>
    keep acc (with_start_code bytes) (fun s => read_sets_st k r2 (acc ++ [s]))))
  end.
Definition with_lists (a : avc_record) (sps pps : list (list Z)) : avc_record :=
  {| ar_version := ar_version a; ar_profile := ar_profile a; ar_compat := ar_compat a; ar_level := ar_level a; ar_length_size := ar_length_size a;
     ar_sps := sps; ar_pps := pps |}.
(** avc/mp4.go:96-170 Unmarshal; the header fields are set last (164-168). *)
Definition avc_unmarshal_st (a : avc_record) (data : list Z) : avc_record * res unit :=
  keep a (try_w (bb_seek (bb_new data) 5)) (fun r0 =>
  keep a (try_ (rd_u8 r0)) (fun '(r1, c) =>
  let spsCount := Z.land c 31 in
  if spsCount <? 1 then (a, Err)
  else
    let '(sps, e1) := read_sets_st (Z.to_nat spsCount) r1 (ar_sps a) in
    let a1 := with_lists a sps (ar_pps a) in
    keep a1 e1 (fun r2 =>
    keep a1 (try_ (rd_u8 r2)) (fun '(r3, ppsCount) =>
    if ppsCount <? 1 then (a1, Err)
    else
      let '(pps, e2) := read_sets_st (Z.to_nat ppsCount) r3 (ar_pps a1) in
      let a2 := with_lists a1 (ar_sps a1) pps in
      keep a2 e2 (fun _ =>
      keep a2 (b0 <- of_opt (idx data 0);; b1 <- of_opt (idx data 1);; b2 <- of_opt (idx data 2);; b3 <- of_opt (idx data 3);; b4 <- of_opt (idx data 4);;
               Ok {| ar_version := b0; ar_profile := b1; ar_compat := b2; ar_level := b3; ar_length_size := Z.land b4 3; ar_sps := ar_sps a2; ar_pps := ar_pps a2 |})
        (fun a3 => (a3, Ok tt))))))).

(** hevc/mp4.go:173-196. *)
Fixpoint hevc_read_nalus_st (grow : nat -> nat) (n : nat) (t : Z) (r : bytes_buffer) (s : hevc_sets) : hevc_sets * res bytes_buffer :=
  match n with
  | O => (s, Ok r)
  | S k =>
    keep s (try_ (rd_uint 2 r)) (fun '(r1, length) =>
    keep s (try_ (rd_bytes r1 length)) (fun '(r2, bytes) =>
    keep s (with_start_code bytes) (fun nalu => hevc_read_nalus_st grow k t r2 (hevc_add grow s t nalu))))
  end.
(** hevc/mp4.go:161-197. *)
Fixpoint hevc_read_arrays_st (grow : nat -> nat) (n : nat) (r : bytes_buffer) (s : hevc_sets) : hevc_sets * res bytes_buffer :=
  match n with
  | O => (s, Ok r)
  | S k =>
    keep s (try_ (rd_u8 r)) (fun '(r1, b) =>
    keep s (try_ (rd_uint 2 r1)) (fun '(r2, count) =>
    let '(s1, e) := hevc_read_nalus_st grow (Z.to_nat count) (Z.land b 63) r2 s in
    keep s1 e (fun r3 => hevc_read_arrays_st grow k r3 s1)))
  end.
(** hevc/mp4.go:133-209 Unmarshal; the header fields are set first (139-159). *)
Definition hevc_unmarshal_st (grow : nat -> nat) (x : hevc_header * hevc_sets) (data : list Z) : (hevc_header * hevc_sets) * res unit :=
  keep x (try_w (bb_seek (bb_new data) 23)) (fun r0 =>
  keep x (hevc_read_header data) (fun hd =>
  let '(s, e) := hevc_read_arrays_st grow (Z.to_nat (hh_arrays hd)) r0 (snd x) in
  keep (hd, s) e (fun _ =>
  if (ns_len (hs_sps s) =? 0)%nat then ((hd, s), Err)
  else if (ns_len (hs_pps s) =? 0)%nat then ((hd, s), Err)
  else if (ns_len (hs_vps s) =? 0)%nat then ((hd, s), Err)
  else ((hd, s), Ok tt)))).

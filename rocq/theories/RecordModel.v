(** * RecordModel: avc/mp4.go, hevc/mp4.go, M4VCExtraDataToAnnexB - decoder configuration records. *)
From Verif Require Import Base BufioModel NaluModel.

(** "if err := op; err != nil { return err }": keep the new state, propagate the error. *)
Definition try_ {A} (x : bytes_buffer * res A) : res (bytes_buffer * A) :=
  match snd x with Ok a => Ok (fst x, a) | Err => Err | Panic => Panic | NoFuel => NoFuel end.
Definition try_w (x : bytes_buffer * res unit) : res bytes_buffer :=
  match snd x with Ok _ => Ok (fst x) | Err => Err | Panic => Panic | NoFuel => NoFuel end.

(* ---------------------------------------------------------------------------------------- *)
(** ** avc/mp4.go *)

(** avc/mp4.go:31-40 AVCDecoderConfigurationRecord. *)
Record avc_record := {
  ar_version : Z; ar_profile : Z; ar_compat : Z; ar_level : Z; ar_length_size : Z;
  ar_sps : list (list Z); ar_pps : list (list Z) }.
Definition avc_record_zero : avc_record :=
  {| ar_version := 0; ar_profile := 0; ar_compat := 0; ar_level := 0; ar_length_size := 0; ar_sps := []; ar_pps := [] |}.

(** avc/mp4.go:61-70 and 76-85, hevc/mp4.go:105-114: strip the start code, write length and bytes.  The second
    result is the last stripped unit (noStartCodeSps after the loop; nil is None). *)
Fixpoint write_sets (w : bytes_buffer) (l : list (list Z)) (last : option (list Z)) : res (bytes_buffer * option (list Z)) :=
  match l with
  | [] => Ok (w, last)
  | x :: r =>
    n <- remove_start_code x;;
    w1 <- try_w (wr_uint 2 w (u16 (zlen n)));;
    w2 <- try_w (wr_bytes w1 n);;
    write_sets w2 r (Some n)
  end.

(** avc/mp4.go:42-94 Marshal.  The array [bytes] is the writer's; the stores at the end go into it. *)
Definition avc_marshal (spsList ppsList : list (list Z)) : res (list Z) :=
  if zlen spsList =? 0 then Err
  else if zlen ppsList =? 0 then Err
  else
    w0 <- try_w (bb_seek (bb_new (zeros 1024)) 5);;
    w1 <- try_w (wr_u8 w0 (u8 (Z.land (zlen spsList) 31)));;
    '(w2, lastSps) <- write_sets w1 spsList None;;
    w3 <- try_w (wr_u8 w2 (u8 (zlen ppsList)));;
    '(w4, _) <- write_sets w3 ppsList None;;
    sps <- of_opt lastSps;;
    d0 <- of_opt (upd (bb_data w4) 0 1);;
    b1 <- of_opt (idx sps 1);;
    d1 <- of_opt (upd d0 1 b1);;
    b2 <- of_opt (idx sps 2);;
    d2 <- of_opt (upd d1 2 b2);;
    b3 <- of_opt (idx sps 3);;
    d3 <- of_opt (upd d2 3 b3);;
    d4 <- of_opt (upd d3 4 255);;
    d5 <- of_opt (upd d4 5 (Z.lor 224 (u8 (zlen spsList))));;
    of_opt (slice d5 0 (bb_offset w4)).

(** avc/mp4.go:118-135 and 145-162: read n length-prefixed units, prepend 00000001, append to the list. *)
Fixpoint read_sets (n : nat) (r : bytes_buffer) (acc : list (list Z)) : res (bytes_buffer * list (list Z)) :=
  match n with
  | O => Ok (r, acc)
  | S k =>
    '(r1, length) <- try_ (rd_uint 2 r);;
    '(r2, bytes) <- try_ (rd_bytes r1 length);;
    s <- with_start_code bytes;;
    read_sets k r2 (acc ++ [s])
  end.

(** avc/mp4.go:96-170 Unmarshal into the receiver [a] (whose lists are appended to). *)
Definition avc_unmarshal (a : avc_record) (data : list Z) : res avc_record :=
  r0 <- try_w (bb_seek (bb_new data) 5);;
  '(r1, c) <- try_ (rd_u8 r0);;
  let spsCount := Z.land c 31 in
  if spsCount <? 1 then Err
  else
    '(r2, sps) <- read_sets (Z.to_nat spsCount) r1 (ar_sps a);;
    '(r3, ppsCount) <- try_ (rd_u8 r2);;
    if ppsCount <? 1 then Err
    else
      '(r4, pps) <- read_sets (Z.to_nat ppsCount) r3 (ar_pps a);;
      b0 <- of_opt (idx data 0);;
      b1 <- of_opt (idx data 1);;
      b2 <- of_opt (idx data 2);;
      b3 <- of_opt (idx data 3);;
      b4 <- of_opt (idx data 4);;
      Ok {| ar_version := b0; ar_profile := b1; ar_compat := b2; ar_level := b3; ar_length_size := Z.land b4 3;
            ar_sps := sps; ar_pps := pps |}.

(** avc/mp4.go:182-192, hevc/mp4.go:220-236: write the units one after the other. *)
Fixpoint write_all (w : bytes_buffer) (l : list (list Z)) : res bytes_buffer :=
  match l with
  | [] => Ok w
  | x :: r => w1 <- try_w (wr_bytes w x);; write_all w1 r
  end.

(** avc/mp4.go:173-195 avc.ExtraDataToAnnexB. *)
Definition avc_extra_to_annexb (data : list Z) : res (list Z) :=
  rec <- avc_unmarshal avc_record_zero data;;
  w1 <- write_all (bb_new (zeros 1024)) (ar_sps rec);;
  w2 <- write_all w1 (ar_pps rec);;
  of_opt (slice (bb_data w2) 0 (bb_offset w2)).

(** avc/util.go:277-296, the loop of M4VCExtraDataToAnnexB. *)
Fixpoint m4vc_loop (fuel : nat) (src : list Z) (r w : bytes_buffer) (unitNb spsDone : Z) : res bytes_buffer :=
  match fuel with
  | O => NoFuel
  | S f =>
    if unitNb =? 0 then Ok w
    else
      let unitNb := unitNb - 1 in
      '(r1, size) <- try_ (rd_uint 2 r);;
      w1 <- try_w (wr_bytes w StartCode4);;
      bytes <- of_opt (slice src (bb_offset r1) (bb_offset r1 + size));;
      w2 <- try_w (wr_bytes w1 bytes);;
      r2 <- try_w (bb_seek r1 size);;
      let spsDone := spsDone + 1 in
      if (bb_readable r2 >? 2) && (unitNb =? 0) && (spsDone =? 1) then
        match rd_u8 r2 with
        | (r3, Ok n) => m4vc_loop f src r3 w2 n spsDone
        | (r3, Err) => m4vc_loop f src r3 w2 0 spsDone
        | (_, Panic) => Panic
        | (_, NoFuel) => NoFuel
        end
      else m4vc_loop f src r2 w2 unitNb spsDone
  end.

(** avc/util.go:255-299 M4VCExtraDataToAnnexB; the error of the second ReadUint8 is overwritten. *)
Definition m4vc_extra_to_annexb (src : list Z) : res (list Z) :=
  r0 <- try_w (bb_seek (bb_new src) 4);;
  '(r1, _) <- try_ (rd_u8 r0);;
  let '(r2, n) := rd_u8 r1 in
  unitNb <- match n with Ok v => Ok (Z.land v 31) | Err => Ok 0 | Panic => Panic | NoFuel => NoFuel end;;
  w <- m4vc_loop 1000 src r2 (bb_new (zeros (Z.to_nat (zlen src + 256)))) unitNb 0;;
  wr_written w.

(* ---------------------------------------------------------------------------------------- *)
(** ** hevc/mp4.go

    Unmarshal executes r.SPSList = append(r.PPSList, nalu), so SPSList may share its array with PPSList and be
    overwritten by a later append.  [][]byte values are therefore modelled as Go does: an array with a capacity
    and a length.  The growth policy of append is a parameter. *)

Definition nheap := list (list (list Z)).
Record nslice := { ns_arr : option nat; ns_len : nat }.
Definition ns_nil : nslice := {| ns_arr := None; ns_len := 0 |}.
Definition ns_array (h : nheap) (s : nslice) : list (list Z) := match ns_arr s with Some a => nth a h [] | None => [] end.
Definition ns_read (h : nheap) (s : nslice) : list (list Z) := firstn (ns_len s) (ns_array h s).

Definition ns_append (grow : nat -> nat) (h : nheap) (s : nslice) (x : list Z) : nheap * nslice :=
  match ns_arr s with
  | Some a =>
    if (ns_len s <? length (nth a h []))%nat
    then (set_nth a (set_nth (ns_len s) x (nth a h [])) h, {| ns_arr := Some a; ns_len := S (ns_len s) |})
    else (h ++ [ns_read h s ++ [x] ++ repeat [] (grow (S (ns_len s)))], {| ns_arr := Some (length h); ns_len := S (ns_len s) |})
  | None => (h ++ [[x] ++ repeat [] (grow 1%nat)], {| ns_arr := Some (length h); ns_len := 1 |})
  end.

(** hevc/mp4.go:50-73 HEVCDecoderConfigurationRecord. *)
Record hevc_header := {
  hh_version : Z; hh_space : Z; hh_tier : Z; hh_profile : Z; hh_compat : Z; hh_constraint : Z; hh_level : Z;
  hh_min_spatial : Z; hh_parallelism : Z; hh_chroma : Z; hh_luma : Z; hh_chroma_depth : Z; hh_avg_rate : Z;
  hh_const_rate : Z; hh_layers : Z; hh_nested : Z; hh_length_size : Z; hh_arrays : Z }.
Record hevc_sets := { hs_heap : nheap; hs_vps : nslice; hs_sps : nslice; hs_pps : nslice }.
Definition hevc_sets_zero : hevc_sets := {| hs_heap := []; hs_vps := ns_nil; hs_sps := ns_nil; hs_pps := ns_nil |}.

(** hevc/mp4.go:95-116, the closure write. *)
Definition hevc_write (w : bytes_buffer) (data : list (list Z)) : res bytes_buffer :=
  x <- of_opt (idx data 0);;
  n <- remove_start_code x;;
  b <- of_opt (idx n 0);;
  w1 <- try_w (wr_u8 w (Z.land (Z.shiftr b 1) 63));;
  w2 <- try_w (wr_uint 2 w1 (u16 (zlen data)));;
  '(w3, _) <- write_sets w2 data None;;
  Ok w3.

(** hevc/mp4.go:75-131 Marshal. *)
Definition hevc_marshal (vpsList spsList ppsList : list (list Z)) : res (list Z) :=
  if zlen spsList =? 0 then Err
  else if zlen ppsList =? 0 then Err
  else if zlen vpsList =? 0 then Err
  else
    d0 <- of_opt (upd (zeros 1024) 0 1);;
    d1 <- of_opt (upd d0 21 3);;
    d2 <- of_opt (upd d1 22 3);;
    w0 <- try_w (bb_seek (bb_new d2) 23);;
    w1 <- hevc_write w0 vpsList;;
    w2 <- hevc_write w1 spsList;;
    w3 <- hevc_write w2 ppsList;;
    of_opt (slice (bb_data w3) 0 (bb_offset w3)).

(** hevc/mp4.go:189-195: the append of one unit of an array of type [t]. *)
Definition hevc_add (grow : nat -> nat) (s : hevc_sets) (t : Z) (nalu : list Z) : hevc_sets :=
  if t =? HevcNalVPS then
    let '(h, x) := ns_append grow (hs_heap s) (hs_vps s) nalu in
    {| hs_heap := h; hs_vps := x; hs_sps := hs_sps s; hs_pps := hs_pps s |}
  else if t =? HevcNalSPS then
    let '(h, x) := ns_append grow (hs_heap s) (hs_pps s) nalu in
    {| hs_heap := h; hs_vps := hs_vps s; hs_sps := x; hs_pps := hs_pps s |}
  else if t =? HevcNalPPS then
    let '(h, x) := ns_append grow (hs_heap s) (hs_pps s) nalu in
    {| hs_heap := h; hs_vps := hs_vps s; hs_sps := hs_sps s; hs_pps := x |}
  else s.

(** hevc/mp4.go:173-196. *)
Fixpoint hevc_read_nalus (grow : nat -> nat) (n : nat) (t : Z) (r : bytes_buffer) (s : hevc_sets) : res (bytes_buffer * hevc_sets) :=
  match n with
  | O => Ok (r, s)
  | S k =>
    '(r1, length) <- try_ (rd_uint 2 r);;
    '(r2, bytes) <- try_ (rd_bytes r1 length);;
    nalu <- with_start_code bytes;;
    hevc_read_nalus grow k t r2 (hevc_add grow s t nalu)
  end.

(** hevc/mp4.go:161-197. *)
Fixpoint hevc_read_arrays (grow : nat -> nat) (n : nat) (r : bytes_buffer) (s : hevc_sets) : res (bytes_buffer * hevc_sets) :=
  match n with
  | O => Ok (r, s)
  | S k =>
    '(r1, b) <- try_ (rd_u8 r);;
    '(r2, count) <- try_ (rd_uint 2 r1);;
    '(r3, s1) <- hevc_read_nalus grow (Z.to_nat count) (Z.land b 63) r2 s;;
    hevc_read_arrays grow k r3 s1
  end.

Definition get_be (n : nat) (data : list Z) (lo : Z) : res Z := s <- of_opt (slice_from data lo);; be_get n s.

(** hevc/mp4.go:139-159, the header fields. *)
Definition hevc_read_header (data : list Z) : res hevc_header :=
  b0 <- of_opt (idx data 0);;
  b1 <- of_opt (idx data 1);;
  compat <- get_be 4 data 2;;
  c1 <- get_be 4 data 6;;
  c2 <- get_be 2 data 10;;
  b12 <- of_opt (idx data 12);;
  ms <- get_be 2 data 13;;
  b15 <- of_opt (idx data 15);;
  b16 <- of_opt (idx data 16);;
  b17 <- of_opt (idx data 17);;
  b18 <- of_opt (idx data 18);;
  afr <- get_be 2 data 19;;
  b21 <- of_opt (idx data 21);;
  b22 <- of_opt (idx data 22);;
  Ok {| hh_version := b0;
        hh_space := Z.land (Z.shiftr b1 6) 3;
        hh_tier := Z.land (Z.shiftr b1 5) 1;
        hh_profile := Z.land b1 31;
        hh_compat := compat;
        hh_constraint := Z.lor (u64 (Z.shiftl c1 16)) c2;
        hh_level := b12;
        hh_min_spatial := Z.land ms 4095;
        hh_parallelism := Z.land b15 3;
        hh_chroma := Z.land b16 3;
        hh_luma := Z.land b17 7;
        hh_chroma_depth := Z.land b18 7;
        hh_avg_rate := afr;
        hh_const_rate := Z.land (Z.shiftr b21 6) 3;
        hh_layers := Z.land (Z.shiftr b21 3) 7;
        hh_nested := Z.land (Z.shiftr b21 2) 1;
        hh_length_size := u8 (Z.land b21 3 + 1);
        hh_arrays := b22 |}.

(** hevc/mp4.go:133-209 Unmarshal into a fresh record. *)
Definition hevc_unmarshal (grow : nat -> nat) (data : list Z) : res (hevc_header * hevc_sets) :=
  r0 <- try_w (bb_seek (bb_new data) 23);;
  hd <- hevc_read_header data;;
  '(_, s) <- hevc_read_arrays grow (Z.to_nat (hh_arrays hd)) r0 hevc_sets_zero;;
  if (ns_len (hs_sps s) =? 0)%nat then Err
  else if (ns_len (hs_pps s) =? 0)%nat then Err
  else if (ns_len (hs_vps s) =? 0)%nat then Err
  else Ok (hd, s).

(** hevc/mp4.go:211-239 hevc.ExtraDataToAnnexB. *)
Definition hevc_extra_to_annexb (grow : nat -> nat) (data : list Z) : res (list Z) :=
  '(_, s) <- hevc_unmarshal grow data;;
  w1 <- write_all (bb_new (zeros 1024)) (ns_read (hs_heap s) (hs_vps s));;
  w2 <- write_all w1 (ns_read (hs_heap s) (hs_sps s));;
  w3 <- write_all w2 (ns_read (hs_heap s) (hs_pps s));;
  of_opt (slice (bb_data w3) 0 (bb_offset w3)).

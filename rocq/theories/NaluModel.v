(** * NaluModel: avc/util.go and hevc/util.go - start codes, NAL unit splitting, AVCC <-> Annex-B.

    Input and output slices are separate arrays (the callers always allocate dst).  A function that writes into
    a slice argument returns the slice's new contents together with its Go result. *)
From Verif Require Import Base BufioModel.

(** avc/avc.go:3-36 and hevc/hevc.go:6-71, the NAL unit types the code looks at. *)
Definition H264NalSlice := 1.
Definition H264NalIDRSlice := 5.
Definition H264NalSEI := 6.
Definition H264NalSPS := 7.
Definition H264NalPPS := 8.
Definition H264NalAUD := 9.
Definition HevcNalVPS := 32.
Definition HevcNalSPS := 33.
Definition HevcNalPPS := 34.
Definition HevcNalAUD := 35.
Definition HevcNalSeiPrefix := 39.
Definition HevcNalSeiSuffix := 40.

(** avc/util.go:9-12, hevc/util.go:9-12. *)
Definition StartCode3 : list Z := [0; 0; 1].
Definition StartCode4 : list Z := [0; 0; 0; 1].

(* ---------------------------------------------------------------------------------------- *)
(** ** Start codes *)

(** avc/util.go:19-30, the loop of FindStartCode; the result is i after the loop. *)
Fixpoint find_start_code_loop (fuel : nat) (p : list Z) (i : Z) : res Z :=
  match fuel with
  | O => NoFuel
  | S f =>
    if i <? zlen p then
      b0 <- of_opt (idx p i);;
      if b0 >? 1 then find_start_code_loop f p (i + 3)
      else
        b1 <- of_opt (idx p (i - 1));;
        if negb (b1 =? 0) then find_start_code_loop f p (i + 2)
        else
          b2 <- of_opt (idx p (i - 2));;
          if negb (Z.lor b2 (u8 (b0 - 1)) =? 0) then find_start_code_loop f p (i + 1)
          else Ok (i + 1)
    else Ok i
  end.

(** avc/util.go:15-43 FindStartCode. *)
Definition find_start_code (p : list Z) : res (Z * Z) :=
  i <- find_start_code_loop (S (length p)) p 2;;
  if i <? zlen p then
    (if i >? 3 then
       b <- of_opt (idx p (i - 4));; Ok (i, if b =? 0 then 4 else 3)
     else Ok (i, 3))
  else Ok (-1, -1).

(** avc/util.go:46-55 FindStartCodeWithReader; the error of Seek is ignored by the code. *)
Definition find_start_code_with_reader (r : bytes_buffer) : bytes_buffer * res Z :=
  match bb_remaining r with
  | Ok data =>
    match find_start_code data with
    | Ok (index, _) =>
      if index <? 0 then (r, Ok (-1))
      else (fst (bb_seek r (index + 1)), of_opt (idx data index))
    | Err => (r, Err) | Panic => (r, Panic) | NoFuel => (r, NoFuel)
    end
  | Err => (r, Err) | Panic => (r, Panic) | NoFuel => (r, NoFuel)
  end.

(** avc/util.go:58-65 FindStartCode2. *)
Definition find_start_code2 (p : list Z) : res Z :=
  '(index, length) <- find_start_code p;;
  if index <? 0 then Ok index else Ok (index - length).

(* ---------------------------------------------------------------------------------------- *)
(** ** Key frames *)

(** avc/util.go:69-87, the loop of avc.IsKeyFrame. *)
Fixpoint avc_is_key_frame_loop (fuel : nat) (p : list Z) (index : Z) : res bool :=
  match fuel with
  | O => NoFuel
  | S f =>
    q <- of_opt (slice_from p index);;
    '(n, _) <- find_start_code q;;
    if n <? 0 then Ok false
    else
      let index := index + n in
      state <- of_opt (idx p index);;
      let t := Z.land state 31 in
      if (t =? H264NalSEI) || (t =? H264NalAUD) || (t =? H264NalPPS) || (t =? H264NalSPS)
      then avc_is_key_frame_loop f p index
      else Ok (t =? H264NalIDRSlice)
  end.
(** avc/util.go:67-88 avc.IsKeyFrame. *)
Definition avc_is_key_frame (p : list Z) : res bool := avc_is_key_frame_loop (S (length p)) p 0.

(** HEVCNALUnitType(b >> 1 & 0x3F) *)
Definition hevc_type (b : Z) : Z := Z.land (Z.shiftr b 1) 63.

(** hevc/util.go:122-144, the loop of hevc.IsKeyFrame. *)
Fixpoint hevc_is_key_frame_loop (fuel : nat) (p : list Z) (index : Z) : res bool :=
  match fuel with
  | O => NoFuel
  | S f =>
    q <- of_opt (slice_from p index);;
    '(n, _) <- find_start_code q;;
    if n <? 0 then Ok false
    else
      let index := index + n in
      b <- of_opt (idx p index);;
      let t := hevc_type b in
      if (t >=? 16) && (t <=? 23) then Ok true
      else if (t =? HevcNalSPS) || (t =? HevcNalPPS) || (t =? HevcNalVPS) || (t =? HevcNalSeiPrefix)
              || (t =? HevcNalSeiSuffix) || (t =? HevcNalAUD)
      then hevc_is_key_frame_loop f p index
      else Ok false
  end.
(** hevc/util.go:120-145 hevc.IsKeyFrame. *)
Definition hevc_is_key_frame (p : list Z) : res bool := hevc_is_key_frame_loop (S (length p)) p 0.

(** avc/util.go:90-100 ParseNalUnits: the body changes nothing, so every iteration is the same.
    [Ok] would be a return; there is no return statement in the loop. *)
Fixpoint parse_nal_units (fuel : nat) (p : list Z) : res Z :=
  match fuel with
  | O => NoFuel
  | S f =>
    '(index, _) <- find_start_code p;;
    _ <- of_opt (idx p index);;
    parse_nal_units f p
  end.

(* ---------------------------------------------------------------------------------------- *)
(** ** Annex-B and AVCC *)

(** avc/util.go:102-124 copyNalUWithBytes. *)
Definition copy_nalu_with_bytes (dst data : list Z) (outSize : Z) (append : bool) : res (list Z * Z) :=
  let startCodeSize := if append then (if outSize =? 0 then 4 else 3) else 0 in
  dst1 <- (if append then
             if startCodeSize =? 4 then write_sub dst 0 (fun s => be_put 4 s 1)
             else write_sub dst 0 (fun s => put_uint24 s 1)
           else Ok dst);;
  dst2 <- of_opt (copy_at dst1 startCodeSize data);;
  Ok (dst2, startCodeSize + zlen data).

(** f(dst[lo:]) for a function that writes into its argument and returns a number. *)
Definition call_sub (dst : list Z) (lo : Z) (f : list Z -> res (list Z * Z)) : res (list Z * Z) :=
  s <- of_opt (slice_from dst lo);;
  '(s', n) <- f s;;
  Ok (firstn (Z.to_nat lo) dst ++ s', n).

(** avc/util.go:126-145 copyNalU: the writer's errors are ignored. *)
Definition copy_nalu (w : bytes_buffer) (data : list Z) (outSize : Z) (append : bool) : res (bytes_buffer * Z) :=
  let startCodeSize := if append then (if outSize =? 0 then 4 else 3) else 0 in
  let step (w : bytes_buffer) (d : list Z) : res bytes_buffer :=
    match wr_bytes w d with (w', Panic) => Panic | (w', NoFuel) => NoFuel | (w', _) => Ok w' end in
  w1 <- (if append then step w (if startCodeSize =? 4 then StartCode4 else StartCode3) else Ok w);;
  w2 <- step w1 data;;
  Ok (w2, startCodeSize + zlen data).

(** avc/util.go:151-178, the loop of AVCC2AnnexB. *)
Fixpoint avcc2annexb_loop (fuel : nat) (avcc extra dst : list Z) (index outSize : Z) (spsSeen ppsSeen : bool)
  : res (list Z * Z) :=
  match fuel with
  | O => NoFuel
  | S f =>
    if index <? zlen avcc then
      s <- of_opt (slice_from avcc (index - 4));;
      size <- be_get 4 s;;
      if (size =? 0) || (zlen avcc - index <? size) then Ok (dst, outSize)
      else
        h <- of_opt (idx avcc index);;
        let unitType := Z.land h 31 in
        if unitType =? H264NalSEI then avcc2annexb_loop f avcc extra dst (index + size + 4) outSize spsSeen ppsSeen
        else
          let spsSeen := spsSeen || (unitType =? H264NalSPS) in
          let ppsSeen := ppsSeen || (unitType =? H264NalPPS) in
          '(dst1, out1) <-
            (if (unitType =? H264NalIDRSlice) && negb spsSeen && negb ppsSeen && (zlen extra >? 0) then
               '(d, n) <- call_sub dst outSize (fun t => copy_nalu_with_bytes t extra outSize false);;
               Ok (d, outSize + n)
             else Ok (dst, outSize));;
          bytes <- of_opt (slice avcc index (index + size));;
          '(dst2, n) <- call_sub dst1 out1 (fun t => copy_nalu_with_bytes t bytes out1 true);;
          avcc2annexb_loop f avcc extra dst2 (index + size + 4) (out1 + n) spsSeen ppsSeen
    else Ok (dst, outSize)
  end.
(** avc/util.go:147-181 AVCC2AnnexB. *)
Definition avcc2annexb (dst avcc extra : list Z) : res (list Z * Z) :=
  avcc2annexb_loop (S (length avcc)) avcc extra dst 4 0 false false.

(** avc/util.go:194-196, the inner loop of AnnexB2AVCC. *)
Fixpoint skip_zeros (fuel : nat) (annexB : list Z) (nalStart : Z) : res Z :=
  match fuel with
  | O => NoFuel
  | S f =>
    if nalStart <? zlen annexB then
      b <- of_opt (idx annexB nalStart);;
      if b =? 0 then skip_zeros f annexB (nalStart + 1) else Ok nalStart
    else Ok nalStart
  end.

(** avc/util.go:192-220, the outer loop of AnnexB2AVCC. *)
Fixpoint annexb2avcc_loop (fuel : nat) (annexB dst : list Z) (nalStart size : Z) : res (list Z * Z) :=
  match fuel with
  | O => NoFuel
  | S f =>
    if nalStart <? zlen annexB then
      nalStart <- skip_zeros (S (length annexB)) annexB nalStart;;
      if nalStart >=? zlen annexB then Ok (dst, size)
      else
        rest <- of_opt (slice_from annexB nalStart);;
        '(nalEnd, n) <- find_start_code rest;;
        let '(nalEnd, n) := if nalEnd <? 0 then (zlen rest, 0) else (nalEnd, n) in
        let nalSize := if nalEnd - n =? 0 then nalEnd - n + 1 else nalEnd - n in
        dst1 <- write_sub dst size (fun s => be_put 4 s (u32 nalSize));;
        bytes <- of_opt (slice annexB nalStart (nalStart + nalSize));;
        dst2 <- of_opt (copy_at dst1 (size + 4) bytes);;
        annexb2avcc_loop f annexB dst2 (nalStart + nalEnd) (size + 4 + nalSize)
    else Ok (dst, size)
  end.
(** avc/util.go:183-223 AnnexB2AVCC. *)
Definition annexb2avcc (dst annexB : list Z) : res (list Z * Z) :=
  '(nalStart, _) <- find_start_code annexB;;
  if nalStart <? 0 then Ok (dst, 0)
  else annexb2avcc_loop (S (length annexB)) annexB dst nalStart 0.

(** avc/util.go:228-252, the loop of avc.Mp4ToAnnexB. *)
Fixpoint avc_mp4_to_annexb_loop (fuel : nat) (w : bytes_buffer) (data extra : list Z) (index outSize : Z)
  (spsSeen ppsSeen : bool) : res bytes_buffer :=
  match fuel with
  | O => NoFuel
  | S f =>
    if index <? zlen data then
      s <- of_opt (slice_from data (index - 4));;
      size <- be_get 4 s;;
      if (size =? 0) || (zlen data - index <? size) then Ok w
      else
        h <- of_opt (idx data index);;
        let unitType := Z.land h 31 in
        let spsSeen := spsSeen || (unitType =? H264NalSPS) in
        let ppsSeen := ppsSeen || (unitType =? H264NalPPS) in
        '(w1, out1) <-
          (if (unitType =? H264NalIDRSlice) && negb spsSeen && negb ppsSeen then
             '(w1, n) <- copy_nalu w extra outSize false;; Ok (w1, outSize + n)
           else Ok (w, outSize));;
        bytes <- of_opt (slice data index (index + size));;
        '(w2, n) <- copy_nalu w1 bytes out1 true;;
        avc_mp4_to_annexb_loop f w2 data extra (index + size + 4) (out1 + n) spsSeen ppsSeen
    else Ok w
  end.
(** avc/util.go:225-253 avc.Mp4ToAnnexB. *)
Definition avc_mp4_to_annexb (w : bytes_buffer) (data extra : list Z) : res bytes_buffer :=
  avc_mp4_to_annexb_loop (S (length data)) w data extra 4 0 false false.

(** hevc/util.go:54-57: read lengthSize bytes big-endian into an int. *)
Fixpoint read_length (lengthSize : nat) (data : list Z) (index acc : Z) : res (Z * Z) :=
  match lengthSize with
  | O => Ok (acc, index)
  | S k =>
    b <- of_opt (idx data index);;
    read_length k data (index + 1) (Z.lor (i64 (Z.shiftl acc 8)) b)
  end.

(** hevc/util.go:44-84, the loop of hevc.Mp4ToAnnexB. *)
Fixpoint hevc_mp4_to_annexb_loop (fuel : nat) (dst data extra : list Z) (lengthSize index n : Z) (gotIRAP : bool)
  : res (list Z * Z) :=
  match fuel with
  | O => NoFuel
  | S f =>
    if index <? zlen data then
      if zlen data - index <? lengthSize then Err
      else
        '(size, index) <- read_length (Z.to_nat lengthSize) data index 0;;
        if (size <? 2) || (size >? zlen data - index) then Err
        else
          h <- of_opt (idx data index);;
          let t := hevc_type h in
          let isIRAP := (t >=? 16) && (t <=? 23) in
          let addExtraData := isIRAP && negb gotIRAP in
          '(dst1, n1) <-
            (if addExtraData && (zlen extra >? 0) then
               d <- of_opt (copy_at dst n extra);; Ok (d, n + zlen extra)
             else Ok (dst, n));;
          dst2 <- of_opt (copy_at dst1 n1 StartCode4);;
          bytes <- of_opt (slice data index (index + size));;
          dst3 <- of_opt (copy_at dst2 (n1 + 4) bytes);;
          hevc_mp4_to_annexb_loop f dst3 data extra lengthSize (index + size) (n1 + 4 + size) (gotIRAP || isIRAP)
    else Ok (dst, n)
  end.
(** hevc/util.go:38-87 hevc.Mp4ToAnnexB. *)
Definition hevc_mp4_to_annexb (dst data extra : list Z) (lengthSize : Z) : res (list Z * Z) :=
  hevc_mp4_to_annexb_loop (S (length data)) dst data extra lengthSize 0 0 false.

(* ---------------------------------------------------------------------------------------- *)
(** ** Splitting and parameter sets *)

(** avc/util.go:304-311, the loop of SplitNalU: the slices passed to the callback, in order. *)
Fixpoint split_nalu_loop (fuel : nat) (data : list Z) (offset : Z) : res (list (list Z)) :=
  match fuel with
  | O => NoFuel
  | S f =>
    q <- of_opt (slice_from data (offset + 3));;
    n <- find_start_code2 q;;
    if n >? -1 then
      let n := n + 3 in
      piece <- of_opt (slice data offset (offset + n));;
      rest <- split_nalu_loop f data (offset + n);;
      Ok (piece :: rest)
    else
      piece <- of_opt (slice_from data offset);;
      Ok [piece]
  end.
(** avc/util.go:301-312 SplitNalU. *)
Definition split_nalu (data : list Z) : res (list (list Z)) := split_nalu_loop (S (length data)) data 0.

(** avc/util.go:314-324 RemoveStartCode (the || and && are short-circuit). *)
Definition remove_start_code (data : list Z) : res (list Z) :=
  d0 <- of_opt (idx data 0);;
  if negb (d0 =? 0) then Ok data
  else
    d1 <- of_opt (idx data 1);;
    if negb (d1 =? 0) then Ok data
    else
      d2 <- of_opt (idx data 2);;
      if d2 =? 1 then of_opt (slice_from data 3)
      else if d2 =? 0 then
        d3 <- of_opt (idx data 3);;
        if d3 =? 1 then of_opt (slice_from data 4) else Ok data
      else Ok data.

(** avc/util.go:336-338 and the like: make, PutUint32, copy. *)
Definition with_start_code (nalu : list Z) : res (list Z) :=
  d <- be_put 4 (zeros (Z.to_nat (4 + zlen nalu))) 1;;
  of_opt (copy_at d 4 nalu).

(** avc/util.go:331-344, the callback of ParseExtraDataFromKeyNALU over the pieces; nil is None. *)
Fixpoint avc_extra_loop (pieces : list (list Z)) (sps pps : option (list Z)) : res (option (list Z) * option (list Z)) :=
  match pieces with
  | [] => Ok (sps, pps)
  | nalu :: rest =>
    n <- remove_start_code nalu;;
    h <- of_opt (idx n 0);;
    let header := Z.land h 31 in
    if header =? H264NalSPS then s <- with_start_code n;; avc_extra_loop rest (Some s) pps
    else if header =? H264NalPPS then s <- with_start_code n;; avc_extra_loop rest sps (Some s)
    else avc_extra_loop rest sps pps
  end.
(** avc/util.go:327-350 avc.ParseExtraDataFromKeyNALU. *)
Definition avc_parse_extra_data (data : list Z) : res (list Z * list Z) :=
  pieces <- split_nalu data;;
  '(sps, pps) <- avc_extra_loop pieces None None;;
  match sps, pps with Some s, Some p => Ok (s, p) | _, _ => Err end.

(** hevc/util.go:95-112. *)
Fixpoint hevc_extra_loop (pieces : list (list Z)) (vps sps pps : option (list Z))
  : res (option (list Z) * option (list Z) * option (list Z)) :=
  match pieces with
  | [] => Ok (vps, sps, pps)
  | nalu :: rest =>
    n <- remove_start_code nalu;;
    h <- of_opt (idx n 0);;
    let header := hevc_type h in
    if header =? HevcNalVPS then s <- with_start_code n;; hevc_extra_loop rest (Some s) sps pps
    else if header =? HevcNalSPS then s <- with_start_code n;; hevc_extra_loop rest vps (Some s) pps
    else if header =? HevcNalPPS then s <- with_start_code n;; hevc_extra_loop rest vps sps (Some s)
    else hevc_extra_loop rest vps sps pps
  end.
(** hevc/util.go:90-118 hevc.ParseExtraDataFromKeyNALU. *)
Definition hevc_parse_extra_data (data : list Z) : res (list Z * list Z * list Z) :=
  pieces <- split_nalu data;;
  '(vps, sps, pps) <- hevc_extra_loop pieces None None None;;
  match vps, sps, pps with Some v, Some s, Some p => Ok (v, s, p) | _, _, _ => Err end.

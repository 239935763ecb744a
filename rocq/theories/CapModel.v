(** * CapModel: slices with spare capacity.

    A Go slice expression s[lo:hi] is bounded by cap(s), not by len(s). The other model files take cap = len; here are the functions
    whose slice expression can reach beyond len, with the elements between len and cap as an extra argument [spare]. All other slice
    expressions of the code have a bound that was checked against len, or have no upper bound (s[lo:] ends at len). *)
From Verif Require Import Base BufioModel NaluModel RecordModel PacketModel.

(** s[lo:hi] *)
Definition slice_cap {A} (s spare : list A) (lo hi : Z) : option (list A) := slice (s ++ spare) lo hi.

(** bufio/bits_reader.go:41-45 ReadBytes. *)
Definition br_read_bytes_cap (b : bits_cursor) (spare : list Z) (length : Z) : res (list Z * bits_cursor) :=
  let off' := bc_off b + 8 * length in
  s <- of_opt (slice_cap (bc_data b) spare (Z.quot (bc_off b) 8) (Z.quot off' 8));;
  Ok (s, {| bc_data := bc_data b; bc_off := off' |}).

(** avc/util.go:277-296, the loop of M4VCExtraDataToAnnexB. *)
Fixpoint m4vc_loop_cap (fuel : nat) (src spare : list Z) (r w : bytes_buffer) (unitNb spsDone : Z) : res bytes_buffer :=
  match fuel with
  | O => NoFuel
  | S f =>
    if unitNb =? 0 then Ok w
    else
      let unitNb := unitNb - 1 in
      '(r1, size) <- try_ (rd_uint 2 r);;
      w1 <- try_w (wr_bytes w StartCode4);;
      bytes <- of_opt (slice_cap src spare (bb_offset r1) (bb_offset r1 + size));;
      w2 <- try_w (wr_bytes w1 bytes);;
      r2 <- try_w (bb_seek r1 size);;
      let spsDone := spsDone + 1 in
      if (bb_readable r2 >? 2) && (unitNb =? 0) && (spsDone =? 1) then
        match rd_u8 r2 with
        | (r3, Ok n) => m4vc_loop_cap f src spare r3 w2 n spsDone
        | (r3, Err) => m4vc_loop_cap f src spare r3 w2 0 spsDone
        | (_, Panic) => Panic
        | (_, NoFuel) => NoFuel
        end
      else m4vc_loop_cap f src spare r2 w2 unitNb spsDone
  end.

(** avc/util.go:255-299 M4VCExtraDataToAnnexB. *)
Definition m4vc_extra_to_annexb_cap (src spare : list Z) : res (list Z) :=
  r0 <- try_w (bb_seek (bb_new src) 4);;
  '(r1, _) <- try_ (rd_u8 r0);;
  let '(r2, n) := rd_u8 r1 in
  unitNb <- match n with Ok v => Ok (Z.land v 31) | Err => Ok 0 | Panic => Panic | NoFuel => NoFuel end;;
  w <- m4vc_loop_cap 1000 src spare r2 (bb_new (zeros (Z.to_nat (zlen src + 256)))) unitNb 0;;
  wr_written w.

(** packet_utils.go:77-96 AnnexBPacket2AVCC; [spare] is what OnBufferAlloc's slice has beyond its length (make leaves nothing there). *)
Definition annexb_packet_to_avcc_cap (spare : list Z) (p : packet) : res (packet * list Z) :=
  _ <- assert (AVMediaTypeVideo =? pk_media p);;
  if negb (PacketTypeAnnexB =? pk_type p) || negb (is_h26x (pk_codec p)) then Ok (p, pk_data p)
  else
    match pk_avcc p with
    | Some d => Ok (p, d)
    | None =>
      '(bytes, n) <- annexb2avcc (alloc p (zlen (pk_data p) + 256)) (pk_data p);;
      r <- of_opt (slice_cap bytes (match pk_alloc p with Some _ => spare | None => [] end) 0 n);;
      Ok (set_avcc p r, r)
    end.

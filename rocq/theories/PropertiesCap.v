(** * PropertiesCap: C110, slices with spare capacity. *)
From Verif Require Import Base BufioModel BytesSpec NaluModel NaluSpec SplitProofs StretchSpec RecordModel RecordSpec AacModel PacketModel PacketProofs CapModel CapProofs.

(** ** C110: what the functions do when a slice has room beyond its length. *)
(** Without spare capacity they are the functions of the rest of the model. *)
Theorem C110_no_spare :
  (forall b n, br_read_bytes_cap b [] n = br_read_bytes b n) /\
  (forall src, m4vc_extra_to_annexb_cap src [] = m4vc_extra_to_annexb src) /\
  (forall p, annexb_packet_to_avcc_cap [] p = annexb_packet_to_avcc p).
Proof. exact no_spare. Qed.
Print Assumptions C110_no_spare.

(** The record with a cut-off unit: an error instead of a panic when the spare capacity covers the [k] missing bytes; any other result is
    the same. Nothing beyond the length of the record is ever returned. *)
Theorem C110_m4vc_exact : forall src, bytes_ok src -> zlen src < 2 ^ 62 -> exists k, 1 <= k <= 65535 /\
  (m4vc_extra_to_annexb src = Panic -> exists h a b t, src = h ++ a :: b :: t /\ k = 256 * a + b - zlen t) /\
  forall spare, m4vc_extra_to_annexb_cap src spare =
    match m4vc_extra_to_annexb src with Panic => if k <=? zlen spare then Err else Panic | y => y end.
Proof.
  intros src B L. destruct (m4vc_cap src B L) as (k & Hk & Cu & E). exists k. split; [exact Hk|]. split; [exact Cu|].
  intros spare. rewrite E. destruct (m4vc_extra_to_annexb src); reflexivity.
Qed.
Print Assumptions C110_m4vc_exact.

(** ReadBytes can return bytes that are not in the reader's data. *)
Theorem C110_read_bytes_beyond : exists data spare n r b', bytes_ok (data ++ spare) /\ br_read_bytes_cap {| bc_data := data; bc_off := 0 |} spare n = Ok (r, b') /\ zlen data < zlen r.
Proof. exists [1], [42; 43], 3, [1; 42; 43]. eexists. split; [repeat constructor; unfold byte_ok; lia|]. split; [vm_compute; reflexivity|vm_compute; reflexivity]. Qed.
Theorem C110_read_bytes_exact : forall data spare off n, let lo := Z.quot off 8 in let hi := Z.quot (off + 8 * n) 8 in
  br_read_bytes_cap {| bc_data := data; bc_off := off |} spare n =
    if (0 <=? lo) && (lo <=? hi) && (hi <=? zlen data + zlen spare)
    then Ok (firstn (Z.to_nat (hi - lo)) (skipn (Z.to_nat lo) (data ++ spare)), {| bc_data := data; bc_off := off + 8 * n |}) else Panic.
Proof. intros data spare off n lo hi. unfold br_read_bytes_cap, slice_cap, slice. cbn [bc_data bc_off]. fold lo hi. rewrite zlen_app. destruct (_ && _ && _); reflexivity. Qed.
Print Assumptions C110_read_bytes_beyond.
Print Assumptions C110_read_bytes_exact.

(** AnnexBPacket2AVCC with an allocator whose slices have spare capacity: a result longer than the slice is not refused; its end is what
    the allocator's memory held. *)
Theorem C110_packet_exact : forall spare p, pk_media p = AVMediaTypeVideo -> pk_type p = PacketTypeAnnexB -> is_h26x (pk_codec p) = true -> pk_avcc p = None -> alloc_ok p ->
  bytes_ok (pk_data p) -> exists units, found_units (pk_data p) units /\
    let R := avcc units in let room := zlen (pk_data p) + 256 in let extra := match pk_alloc p with Some _ => spare | None => [] end in
    annexb_packet_to_avcc_cap spare p =
      match stored room units with
      | Some _ => if zlen R <=? room + zlen extra then let r := firstn (Z.to_nat room) R ++ firstn (Z.to_nat (zlen R - room)) extra in Ok (set_avcc p r, r) else Panic
      | None => Panic
      end.
Proof. exact packet_cap. Qed.
Print Assumptions C110_packet_exact.

Definition cap_pkt (data : list Z) : packet :=
  let p := init_video pkt_zero data 0 0 false PacketTypeAnnexB AVCodecIdH264 0 1000 in
  mkPkt (pk_data p) 0 0 0 false (pk_created p) (pk_buffer p) 0 1000 (pk_media p) (pk_codec p) (pk_type p) None None (Some (fun n => zeros (Z.to_nat n))).
Definition tail_of (n : Z) (x : res (packet * list Z)) : list Z := match x with Ok (_, r) => skipn (Z.to_nat n) r | _ => [] end.
Example C110_example :
  (m4vc_extra_to_annexb_cap [1;66;0;30;255;225;0;4;103;66] [] = Panic /\ m4vc_extra_to_annexb_cap [1;66;0;30;255;225;0;4;103;66] [9] = Panic /\
   m4vc_extra_to_annexb_cap [1;66;0;30;255;225;0;4;103;66] [9;9] = Err) /\
  br_read_bytes_cap {| bc_data := [1]; bc_off := 0 |} [42; 43] 4 = Panic /\
  (let p := cap_pkt (annexb (repeat (false, [97]) (Z.to_nat 256) ++ [(false, [98; 99])])) in
   annexb_packet_to_avcc_cap [] p = Panic /\
   tail_of 1280 (annexb_packet_to_avcc_cap [77; 78] p) = [0; 0; 0; 2; 98; 77]).
Proof. split; [|split]; [vm_compute; auto|vm_compute; reflexivity|]. split; vm_compute; reflexivity. Qed.

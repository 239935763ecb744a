(** * What the file handler has to write. *)
From Verif Require Import Base PacketModel.

(** The bytes of the access unit of a packet: the Annex-B form for video, the data otherwise. *)
Definition access_unit (tracks : list stream) (p : packet) (d : list Z) : Prop :=
  if AVMediaTypeVideo =? pk_media p then exists s p1, idx tracks (pk_index p) = Some s /\ avcc_packet_to_annexb s p = Ok (p1, d) else d = pk_data p.
Definition writes_of (tracks : list stream) (p : packet) (w : list (list Z)) : Prop :=
  exists d, access_unit tracks p d /\
  w = match (if (AVMediaTypeVideo =? pk_media p) && pk_key p && (PacketTypeAVCC =? pk_type p) then idx tracks (pk_index p) else None) with
      | Some s => match st_params s with Some c => [cd_annexb c; d] | None => [d] end
      | None => [d]
      end.
(** The bytes for file [j], given packets [ps] and their writes [ws]. *)
Definition written (ps : list packet) (ws : list (list (list Z))) (j : nat) : list Z :=
  concat (concat (map snd (filter (fun x => Z.of_nat j =? pk_index (fst x)) (combine ps ws)))).

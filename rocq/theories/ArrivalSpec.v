(** * ArrivalSpec: streams that are heard of in turn. *)
From Verif Require Import Base TrackSpec IntakeSpec.
From Coq Require Import List.
Import ListNotations.
Local Open Scope list_scope.

(** Track numbers of packets in the order of their arrival: before a packet of a track there is a packet of every track with a smaller number. *)
Definition in_turn (l : list Z) : Prop := forall a i b, l = a ++ i :: b -> forall k, 0 <= k < i -> In k a.
(** The same for the packets that are handed over, with the buffers in the order in which their tracks were announced. *)
Definition buffers_in_turn (bs : list Z) (l : list payload) : Prop :=
  forall a x b, l = a ++ x :: b -> forall k j, nth_error bs k = Some (payload_buffer x) -> (j < k)%nat -> exists y, In y a /\ nth_error bs j = Some (payload_buffer y).

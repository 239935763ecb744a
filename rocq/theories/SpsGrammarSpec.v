(** * SpsGrammarSpec: the bit strings a parser may take for a sequence parameter set.

    A [form] is a set of bit strings. The forms below follow the syntax tables of the standards (as [SpsSpec] does) but put no range
    on any element, so that every bit string in the layout of an SPS has a form: exp-Golomb codes of up to 32 leading zeros, any
    number of them, any picture order count type, any chroma format. *)
From Verif Require Import Base BitSpec SpsSpec.

Definition form := list bool -> Prop.
Definition is (l : list bool) : form := fun bs => bs = l.
Fixpoint seq (l : list form) : form :=
  match l with
  | [] => is []
  | f :: t => fun bs => exists a b, bs = a ++ b /\ f a /\ seq t b
  end.
Definition opt_form {A} (f : A -> form) (o : option A) : form :=
  match o with Some a => seq [is [true]; f a] | None => is [false] end.
(** An optional part whose contents do not matter. *)
Definition maybe (f : form) : form := fun bs => bs = [false] \/ seq [is [true]; f] bs.
Definition u_form (n : nat) (v : Z) : form := fun bs => u_ok (Z.of_nat n) v /\ bs = u n v.
(** Any [n] bits. *)
Definition any_form (n : nat) : form := fun bs => length bs = n.
(** An exp-Golomb code with up to 32 leading zeros. 33 zeros are read like 32 zeros and a one. *)
Definition ue_form (v : Z) : form := fun bs =>
  (0 <= v < 2 ^ 33 - 1 /\ bs = ue_code v) \/ (2 ^ 32 - 1 <= v < 2 ^ 33 - 1 /\ bs = repeat false 33 ++ u 32 (v - (2 ^ 32 - 1))).
Definition se_form (v : Z) : form := ue_form (if 0 <? v then 2 * v - 1 else - 2 * v).
(** Some code. *)
Definition a_code : form := fun bs => exists v, ue_form v bs.

(* ---------------------------------------------------------------------------------------- *)
(** ** H.264 *)
(** One scaling list of [n] entries: the deltas that are present. *)
Fixpoint deltas_form (n : nat) (last next : Z) : form :=
  match n with
  | O => is []
  | S k =>
      if next =? 0 then deltas_form k last next
      else fun bs => exists d, seq [se_form d; deltas_form k (if (last + d + 256) mod 256 =? 0 then last else (last + d + 256) mod 256) ((last + d + 256) mod 256)] bs
  end.
(** [n] scaling lists from number [i] on, each with a presence flag. *)
Fixpoint scalings_form (n i : nat) : form :=
  match n with
  | O => is []
  | S k => seq [maybe (deltas_form (scaling_size i) 8 8); scalings_form k (S i)]
  end.
(** The high profile part, with [count] scaling lists. *)
Definition high_form (count : Z -> nat) : form := fun bs =>
  exists chroma, seq [ue_form chroma; if chroma =? 3 then any_form 1 else is []; a_code; a_code; any_form 1;
    maybe (scalings_form (count chroma) 0)] bs.
Fixpoint codes_form (n : nat) : form := match n with O => is [] | S k => seq [a_code; codes_form k] end.
Definition poc_form : form := fun bs =>
  (seq [ue_form 0; a_code] bs) \/
  (exists n, seq [ue_form 1; any_form 1; a_code; a_code; ue_form (Z.of_nat n); codes_form n] bs) \/
  (exists t, 2 <= t /\ ue_form t bs).
Definition crop_form (c : Z * Z * Z * Z) : form := let '(l, r, t, b) := c in seq [ue_form l; ue_form r; ue_form t; ue_form b].
Definition aspect_form : form := fun bs => exists idc, seq [u_form 8 idc; if idc =? 255 then any_form 32 else is []] bs.
Definition signal_form : form := seq [any_form 4; maybe (any_form 24)].
Definition timing_form (t : Z * Z * bool) : form := let '(n, s, f) := t in seq [u_form 32 n; u_form 32 s; is [f]].
Definition vui_form (t : option (Z * Z * bool)) : form :=
  seq [maybe aspect_form; maybe (any_form 1); maybe signal_form; maybe (seq [a_code; a_code]); opt_form timing_form t].

(** What a parser returns for an SPS. *)
Record sps264_view := {
  w_profile : Z; w_constraint : Z; w_level : Z; w_id : Z; w_mbw : Z; w_map_units : Z; w_mbs_only : bool;
  w_crop : option (Z * Z * Z * Z); w_timing : option (option (Z * Z * bool)) }.
(** The SPS layout, given the profiles that have the high profile part and the number of scaling lists for a chroma format. *)
Definition sps264_form (high : Z -> bool) (count : Z -> nat) (w : sps264_view) : form :=
  seq [any_form 8; u_form 8 (w_profile w); u_form 8 (w_constraint w); u_form 8 (w_level w); ue_form (w_id w);
       if high (w_profile w) then high_form count else is [];
       a_code; poc_form; a_code; any_form 1; ue_form (w_mbw w); ue_form (w_map_units w); is [w_mbs_only w];
       if w_mbs_only w then is [] else any_form 1; any_form 1; opt_form crop_form (w_crop w); opt_form vui_form (w_timing w)].

(* ---------------------------------------------------------------------------------------- *)
(** ** H.265 *)
(** The sub-layers: pairs of presence flags, padding up to eight pairs, then 88 bits and 8 bits for each flag set. *)
Definition pair_bits (f : bool * bool) : list bool := [fst f; snd f].
Definition pair_size (f : bool * bool) : nat := ((if fst f then 88 else 0) + (if snd f then 8 else 0))%nat.
Definition sub_layers_form (n : nat) : form :=
  match n with
  | O => is []
  | _ => fun bs => exists fl, length fl = n /\ seq [is (flat_map pair_bits fl); any_form (2 * (8 - n)); any_form (list_sum (map pair_size fl))] bs
  end.
Record sps265_view := {
  x_layers : nat; x_nesting : bool; x_space : Z; x_tier : bool; x_idc : Z; x_level : Z; x_chroma : Z; x_width : Z; x_height : Z; x_depth_chroma : Z }.
Definition sps265_form (w : sps265_view) : form := fun bs =>
  exists present : bool,
  seq [any_form 4; u_form 3 (Z.of_nat (x_layers w)); is [x_nesting w];
       u_form 2 (x_space w); is [x_tier w]; u_form 5 (x_idc w); any_form 80; u_form 8 (x_level w); sub_layers_form (x_layers w);
       a_code; ue_form (x_chroma w); if x_chroma w =? 3 then any_form 1 else is []; ue_form (x_width w); ue_form (x_height w);
       maybe (codes_form 4); a_code; ue_form (x_depth_chroma w); a_code; is [present];
       codes_form (3 * if present then S (x_layers w) else 1); codes_form 6] bs.

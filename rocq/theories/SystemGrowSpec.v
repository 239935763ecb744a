(** * SystemGrowSpec: when the pieces of a block fit into its stream buffer, growths included. *)
From Verif Require Import Base BlockModel BlockSpec PacketModel DemuxModel DeliverySpec SystemSpec.
From Coq Require Import List.
Import ListNotations.
Local Open Scope list_scope.

(** Every piece finds a ring that is not exactly full, and makes it grow only if all blocks set aside by an earlier growth
    are released. *)
Fixpoint chunks_fit (h : heap) (s : sbuf) (buf : Z) (video : bool) (chunks : list (list Z)) : Prop :=
  match chunks with
  | [] => True
  | c :: t =>
    match sb_find_or_create h s buf video with
    | Ok (h1, _, r) =>
      ~ rb_full r /\ (rb_discard r > 0 -> forall h2 r2, rb_write h1 r c = Ok (h2, r2) -> d_data (rb_d r2) = d_data (rb_d r))
    | _ => True
    end /\
    match sb_write h s c buf video with Ok (h1, s1, _) => chunks_fit h1 s1 buf video t | _ => True end
  end.
Definition call_fits (y : system) (c : call) : Prop :=
  match call_block (snd (fst c)) with
  | None => True
  | Some (buf, data) =>
    concat (snd c) = data /\ snd c <> [] /\ 0 <= buf <= zlen (sy_bufs y) /\
    chunks_fit (sy_heap y) (sy_bufs y) buf (call_video (snd (fst c))) (snd c)
  end.
Fixpoint sys_fits (y : system) (l : list call) : Prop :=
  match l with
  | [] => True
  | c :: t => call_fits y c /\ match sys_step y c with Ok (y1, _) => sys_fits y1 t | _ => True end
  end.

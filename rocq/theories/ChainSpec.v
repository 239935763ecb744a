(** * ChainSpec: a LinkedList under arbitrary indices, as three plain lists. *)
From Verif Require Import Base CollectionsSpec.
Open Scope Z_scope.

(** The elements counted by Size; those behind them up to the last node, which Size no longer counts; those behind the last node, removed earlier
    but still linked. *)
Record chain (A : Type) := mkChain { ch_list : list A; ch_hidden : list A; ch_stale : list A }.
Arguments mkChain {A}. Arguments ch_list {A}. Arguments ch_hidden {A}. Arguments ch_stale {A}.
Definition chain_new {A} : chain A := mkChain [] [] [].

(** With the last counted element gone the list is empty, whatever else was linked. *)
Definition settle {A} (c : chain A) : chain A := if zlen (ch_list c) =? 0 then chain_new else c.
(** Size goes down by one while all nodes stay: the last counted element is hidden. *)
Definition hide {A} (l h t : list A) : chain A := mkChain (removelast l) (match last_of l with Some x => [x] | None => [] end ++ h) t.

Definition chain_spec {A} (c : chain A) (o : ll_op A) : chain A * res (cout A) :=
  let '(mkChain l h t) := c in
  match o with
  | LAdd a => let x := l ++ h ++ [a] in let n := S (length l) in (mkChain (firstn n x) (skipn n x) [], Ok OUnit)
  | LRemove i =>
    if i <? 0 then
      match l with
      | [] => (c, Panic)
      | _ =>
        match h, t with
        | [], [] => (c, Panic)
        | [], x :: t' => (settle (hide l [] t'), Ok (OElem x))
        | [x], _ => (settle (hide l [] (x :: t)), Ok (OElem x))
        | x :: h', _ => (settle (hide l h' t), Ok (OElem x))
        end
      end
    else
      match idx l i with
      | None => (c, Panic)
      | Some x => (settle (mkChain (remove_nth (Z.to_nat i) l) h (if (i =? zlen l - 1) && (zlen h =? 0) then x :: t else t)), Ok (OElem x))
      end
  | LGet i => (c, opt_res (if i <? 0 then match l with [] => None | _ => first_of (h ++ t) end else idx l i))
  | LSize => (c, Ok (ONum (zlen l)))
  end.

(** * CollectionsSpec: the containers as plain lists. *)
From Verif Require Import Base.

Inductive cout (A : Type) := OUnit | OElem (a : A) | ONum (z : Z) | OBool (b : bool) | OList (l : list A).
Arguments OUnit {A}. Arguments OElem {A}. Arguments ONum {A}. Arguments OBool {A}. Arguments OList {A}.

Inductive ring_op (A : Type) :=
| RPush (a : A) | RPop | RHead | RTail | RSize | RCapacity | RIsEmpty | RIsFull | RData | RClear.
Arguments RPush {A}. Arguments RPop {A}. Arguments RHead {A}. Arguments RTail {A}. Arguments RSize {A}.
Arguments RCapacity {A}. Arguments RIsEmpty {A}. Arguments RIsFull {A}. Arguments RData {A}. Arguments RClear {A}.

Definition opt_res {A} (o : option A) : res (cout A) := match o with Some a => Ok (OElem a) | None => Panic end.

(** first and last element *)
Definition first_of {A} (l : list A) : option A := match l with [] => None | x :: _ => Some x end.
Fixpoint last_of {A} (l : list A) : option A :=
  match l with [] => None | [x] => Some x | _ :: t => last_of t end.

(** A bounded buffer of capacity c holding the last c elements. *)
Definition ring_spec {A} (zero : A) (c : Z) (l : list A) (o : ring_op A) : list A * res (cout A) :=
  match o with
  | RPush a => let l' := l ++ [a] in (if zlen l' >? c then tl l' else l', Ok OUnit)
  | RPop => match l with [] => (l, Ok (OElem zero)) | x :: t => (t, Ok (OElem x)) end
  | RHead => (l, opt_res (first_of l))
  | RTail => (l, opt_res (last_of l))
  | RSize => (l, Ok (ONum (zlen l)))
  | RCapacity => (l, Ok (ONum c))
  | RIsEmpty => (l, Ok (OBool (zlen l =? 0)))
  | RIsFull => (l, Ok (OBool (zlen l =? c)))
  | RData => (l, Ok (OList l))
  | RClear => ([], Ok OUnit)
  end.

Inductive queue_op (A : Type) :=
| QPush (a : A) | QPop | QPopBack | QPeek (i : Z) | QHead | QTail | QSize | QIsEmpty | QData | QClear.
Arguments QPush {A}. Arguments QPop {A}. Arguments QPopBack {A}. Arguments QPeek {A}. Arguments QHead {A}.
Arguments QTail {A}. Arguments QSize {A}. Arguments QIsEmpty {A}. Arguments QData {A}. Arguments QClear {A}.

Definition queue_spec {A} (zero : A) (l : list A) (o : queue_op A) : list A * res (cout A) :=
  match o with
  | QPush a => (l ++ [a], Ok OUnit)
  | QPop => match l with [] => (l, Ok (OElem zero)) | x :: t => (t, Ok (OElem x)) end
  | QPopBack => (removelast l, opt_res (last_of l))
  | QPeek i => (l, opt_res (idx l i))
  | QHead => (l, opt_res (first_of l))
  | QTail => (l, opt_res (last_of l))
  | QSize => (l, Ok (ONum (zlen l)))
  | QIsEmpty => (l, Ok (OBool (zlen l =? 0)))
  | QData => (l, Ok (OList l))
  | QClear => ([], Ok OUnit)
  end.

(** The elements a call takes out of the contents without clearing their slot, and those of a whole history. *)
Definition ring_left {A} (l : list A) (o : ring_op A) : list A := match o with RClear => l | _ => [] end.
Definition queue_left {A} (l : list A) (o : queue_op A) : list A :=
  match o with QPopBack => match last_of l with Some x => [x] | None => [] end | QClear => l | _ => [] end.
Fixpoint left_behind {A O R} (spec : list A -> O -> list A * R) (lft : list A -> O -> list A) (l : list A) (ops : list O) : list A :=
  match ops with [] => [] | o :: t => lft l o ++ left_behind spec lft (fst (spec l o)) t end.

Inductive ll_op (A : Type) := LAdd (a : A) | LRemove (i : Z) | LGet (i : Z) | LSize.
Arguments LAdd {A}. Arguments LRemove {A}. Arguments LGet {A}. Arguments LSize {A}.

Definition remove_nth {A} (n : nat) (l : list A) : list A := firstn n l ++ skipn (S n) l.

Definition ll_spec {A} (l : list A) (o : ll_op A) : list A * res (cout A) :=
  match o with
  | LAdd a => (l ++ [a], Ok OUnit)
  | LRemove i => (remove_nth (Z.to_nat i) l, opt_res (idx l i))
  | LGet i => (l, opt_res (idx l i))
  | LSize => (l, Ok (ONum (zlen l)))
  end.

(** The list together with the element, if any, that the last node still points to: the last element removed from the
    end, until the next Add.  A negative index reaches it. *)
Definition stale_spec {A} (x : list A * option A) (o : ll_op A) : (list A * option A) * res (cout A) :=
  let '(l, st) := x in
  match o with
  | LAdd a => ((l ++ [a], None), Ok OUnit)
  | LRemove i => match idx l i with
                 | Some a => ((remove_nth (Z.to_nat i) l, if zlen l =? 1 then None else if i =? zlen l - 1 then Some a else st), Ok (OElem a))
                 | None => (x, Panic)
                 end
  | LGet i => (x, if i <? 0 then match st with Some a => Ok (OElem a) | None => Panic end else opt_res (idx l i))
  | LSize => (x, Ok (ONum (zlen l)))
  end.

(** Running a history of operations, collecting the outcomes. *)
Fixpoint run {S O R : Type} (step : S -> O -> S * R) (s : S) (ops : list O) : S * list R :=
  match ops with
  | [] => (s, [])
  | o :: ops' =>
    let '(s1, r) := step s o in
    let '(s2, rs) := run step s1 ops' in (s2, r :: rs)
  end.

Lemma run_sim {S T O R} (P : O -> Prop) (f : S -> O -> S * R) (g : T -> O -> T * R) (rel : S -> T -> Prop) :
  (forall s t o, rel s t -> P o -> rel (fst (f s o)) (fst (g t o)) /\ snd (f s o) = snd (g t o)) ->
  forall ops s t, rel s t -> Forall P ops ->
  rel (fst (run f s ops)) (fst (run g t ops)) /\ snd (run f s ops) = snd (run g t ops).
Proof.
  intros H. induction ops as [|o ops IH]; intros s t Hr F; cbn [run]; [auto|].
  inversion F as [|? ? Fo Ff]; subst. destruct (H s t o Hr Fo) as [H1 H2].
  destruct (f s o) as [s1 r1], (g t o) as [t1 r2]. cbn [fst snd] in *. subst r2.
  destruct (IH s1 t1 H1) as [H5 H6]; auto.
  destruct (run f s1 ops) as [s2 rs], (run g t1 ops) as [t2 rs']. cbn [fst snd] in *. subst. auto.
Qed.

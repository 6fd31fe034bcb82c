(** Specification of the list interface: a finite collection of named sequences.
    Independent of the heap model; only the call alphabet [lop]/[lout] is shared. *)
From Verif Require Import Base ListModel.

Section ListSpec.
Variable D : Type.
Variable deq : D -> D -> bool.

(** The live lists by name, each a sequence of (item reference, data). *)
Definition lstate := list (Z * list (Z * D)).

Fixpoint look (l : Z) (a : lstate) : option (list (Z * D)) :=
  match a with
  | [] => None
  | (k, xs) :: r => if k =? l then Some xs else look l r
  end.

Definition replace (l : Z) (xs : list (Z * D)) (a : lstate) : lstate :=
  map (fun e => if fst e =? l then (l, xs) else e) a.

Definition drop (l : Z) (a : lstate) : lstate := filter (fun e => negb (fst e =? l)) a.

Fixpoint total (a : lstate) : Z :=
  match a with [] => 0 | (_, xs) :: r => Z.of_nat (length xs) + total r end.

(** An item reference used in no live list. *)
Definition unused (i : Z) (a : lstate) : Prop := forall l xs d, look l a = Some xs -> ~ In (i, d) xs.

(** [pos f xs i]: [i] is the reference of the first element whose data satisfies [f]. *)
Definition is_first (f : D -> bool) (xs : list (Z * D)) (p : option Z) : Prop :=
  match p with
  | Some i => exists ys d zs, xs = ys ++ (i, d) :: zs /\ f d = true /\ (forall j e, In (j, e) ys -> f e = false)
  | None => forall j e, In (j, e) xs -> f e = false
  end.

Definition sum (f : D -> Z) (xs : list (Z * D)) : Z := fold_right (fun x acc => f (snd x) + acc) 0 xs.

(** [int] accumulation of [f] over [xs] starting from [acc] stays representable. *)
Fixpoint accum_ok (f : D -> Z) (acc : Z) (xs : list (Z * D)) : Prop :=
  match xs with [] => True | x :: r => INT_MIN <= acc + f (snd x) <= INT_MAX /\ accum_ok f (acc + f (snd x)) r end.

Definition data_head (xs : list (Z * D)) : option D := match xs with [] => None | x :: _ => Some (snd x) end.
Definition ref_head (xs : list (Z * D)) : option Z := match xs with [] => None | x :: _ => Some (fst x) end.

(** What the caller must respect: lists are live, items belong to the list named. *)
Definition legal (a : lstate) (op : lop D) : Prop :=
  match op with
  | ONew _ | OVerify _ => True
  | OFree _ l | OSize _ l | OHeadItem _ l | OHead _ l | OTail _ l | ODup _ l | OTraverse _ l | ORev _ l
  | OPrepend l _ | OAppend l _ | ODelete l _ | OSearch l _ | OSearchFunc l _ | OApply l _ => look l a <> None
  | ODeleteItem _ l i => exists xs d, look l a = Some xs /\ In (i, d) xs
  | ONext _ l (Some i) => exists xs d, look l a = Some xs /\ In (i, d) xs
  | ONext _ l None => look l a <> None
  end.

(** The C [int] counters must not overflow (fewer than 2^31 items and lists). *)
Definition fits (a : lstate) (op : lop D) : Prop :=
  match op with
  | ONew _ => Z.of_nat (length a) < INT_MAX
  | OPrepend _ _ | OAppend _ _ => total a < INT_MAX
  | ODup _ l => Z.of_nat (length a) < INT_MAX /\
              forall xs, look l a = Some xs -> total a + Z.of_nat (length xs) <= INT_MAX
  | OApply l f => forall xs, look l a = Some xs -> accum_ok f 0 xs
  | _ => True
  end.

(** One call of the specification: sequences do what sequences do. *)
Inductive lstep (a : lstate) : lop D -> lout D -> lstate -> Prop :=
| s_new l : look l a = None -> lstep a (ONew _) (RPtr _ (Some l)) ((l, []) :: a)
| s_free l xs : look l a = Some xs -> lstep a (OFree _ l) (RUnit _) (drop l a)
| s_size l xs : look l a = Some xs -> lstep a (OSize _ l) (RInt _ (Z.of_nat (length xs))) a
| s_prepend l d xs i : look l a = Some xs -> unused i a ->
    lstep a (OPrepend l d) (RPtr _ (Some i)) (replace l ((i, d) :: xs) a)
| s_append l d xs i : look l a = Some xs -> unused i a ->
    lstep a (OAppend l d) (RPtr _ (Some i)) (replace l (xs ++ [(i, d)]) a)
| s_delete_yes l d ys i e zs : look l a = Some (ys ++ (i, e) :: zs) -> deq e d = true ->
    (forall j e', In (j, e') ys -> deq e' d = false) ->
    lstep a (ODelete l d) (RInt _ 1) (replace l (ys ++ zs) a)
| s_delete_no l d xs : look l a = Some xs -> (forall j e, In (j, e) xs -> deq e d = false) ->
    lstep a (ODelete l d) (RInt _ 0) a
| s_delete_item l ys i d zs : look l a = Some (ys ++ (i, d) :: zs) ->
    lstep a (ODeleteItem _ l i) (RUnit _) (replace l (ys ++ zs) a)
| s_head_item l xs : look l a = Some xs -> lstep a (OHeadItem _ l) (RPtr _ (ref_head xs)) a
| s_head l xs : look l a = Some xs -> lstep a (OHead _ l) (RData (data_head xs)) a
| s_tail l xs : look l a = Some xs -> lstep a (OTail _ l) (RData (data_head (rev xs))) a
| s_search l d xs p : look l a = Some xs -> is_first (fun x => deq x d) xs p ->
    lstep a (OSearch l d) (RPtr _ p) a
| s_search_func l f xs p : look l a = Some xs -> is_first f xs p ->
    lstep a (OSearchFunc l f) (RPtr _ p) a
| s_next_first l xs : look l a = Some xs ->
    lstep a (ONext _ l None) (RNext (match xs with [] => None | (i, d) :: _ => Some (d, Some i) end)) a
| s_next l ys i d zs : look l a = Some (ys ++ (i, d) :: zs) ->
    lstep a (ONext _ l (Some i)) (RNext (match zs with [] => None | (j, e) :: _ => Some (e, Some j) end)) a
| s_dup l xs n ys : look l a = Some xs -> look n a = None -> map snd ys = map snd xs ->
    NoDup (map fst ys) -> (forall i, In i (map fst ys) -> unused i a) ->
    lstep a (ODup _ l) (RPtr _ (Some n)) ((n, ys) :: a)
| s_apply l f xs : look l a = Some xs -> lstep a (OApply l f) (RInt _ (sum f xs)) a
| s_traverse l xs : look l a = Some xs -> lstep a (OTraverse _ l) (RSeq (map snd xs)) a
| s_rev l xs : look l a = Some xs -> lstep a (ORev _ l) (RSeq (rev (map snd xs))) a
| s_verify : lstep a (OVerify _) (RInt _ (match a with [] => 0 | _ => 1 end)) a.

(** Every history [ops] of legal calls behaves as the specification says: each call returns,
    with an output the specification allows, and so on for the rest of the history;
    [P] then holds of the resulting heap and specification state. *)
Fixpoint after (ops : list (lop D)) (h : lheap D) (a : lstate) (P : lheap D -> lstate -> Prop) : Prop :=
  match ops with
  | [] => P h a
  | op :: r => legal a op -> fits a op ->
      exists out h' a', lexec deq op h = Ok (out, h') /\ lstep a op out a' /\ after r h' a' P
  end.

End ListSpec.

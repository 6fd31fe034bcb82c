(** Specification of the handle table: a finite set of live handles with contents. *)
From Verif Require Import Base HandleModel.

(** Number of handles that can be live at once. *)
Definition CAPACITY : Z := 262143.

Section HandleSpec.
Variable D : Type.

(** Live handles with the object stored behind each; and the largest number of
    simultaneously live handles since the table was last (re)initialised. *)
Record hstate := mkHstate { hs_live : list (Z * D); hs_high : Z }.

Fixpoint hlook (h : Z) (l : list (Z * D)) : option D :=
  match l with [] => None | (k, d) :: r => if k =? h then Some d else hlook h r end.
Definition hdrop (h : Z) (l : list (Z * D)) := filter (fun e => negb (fst e =? h)) l.
Definition hset (h : Z) (d : D) (l : list (Z * D)) := map (fun e => if fst e =? h then (h, d) else e) l.
Definition nlive (a : hstate) : Z := Z.of_nat (length (hs_live a)).

Definition hlegal (a : hstate) (op : hop D) : Prop :=
  match op with
  | HAlloc _ | HDestroy _ => True
  | HFree _ h | HLoad _ h | HStore h _ => hlook h (hs_live a) <> None
  end.

(** Allocation succeeds iff there is room, with a handle in 1..CAPACITY that is not live;
    all other contents are untouched. *)
Inductive hstep (a : hstate) : hop D -> hout D -> hstate -> Prop :=
| hs_alloc h d : nlive a < CAPACITY -> hlook h (hs_live a) = None -> 1 <= h <= CAPACITY ->
    hstep a (HAlloc _) (HHandle _ h) (mkHstate ((h, d) :: hs_live a) (Z.max (hs_high a) (nlive a + 1)))
| hs_free h d : hlook h (hs_live a) = Some d ->
    hstep a (HFree _ h) (HUnit _) (mkHstate (hdrop h (hs_live a)) (hs_high a))
| hs_load h d : hlook h (hs_live a) = Some d -> hstep a (HLoad _ h) (HData d) a
| hs_store h d0 d : hlook h (hs_live a) = Some d0 ->
    hstep a (HStore h d) (HUnit _) (mkHstate (hset h d (hs_live a)) (hs_high a))
| hs_destroy : hstep a (HDestroy _) (HUnit _) (mkHstate [] 0).

(** Every history of legal calls follows the specification; an allocation aborts exactly
    when CAPACITY handles are live (the history ends there). *)
Fixpoint hafter (ops : list (hop D)) (t : htab D) (a : hstate) (P : htab D -> hstate -> Prop) : Prop :=
  match ops with
  | [] => P t a
  | op :: r => hlegal a op ->
      (exists out t' a', hexec op t = Ok (out, t') /\ hstep a op out a' /\ hafter r t' a' P) \/
      (op = HAlloc _ /\ nlive a = CAPACITY /\ exists m, hexec op t = Abort m)
  end.

End HandleSpec.

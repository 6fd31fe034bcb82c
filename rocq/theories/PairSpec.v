(** Which sends and receives of a program go together, by the rule of MPI (C104). *)
From Verif Require Import Base HandleSpec HandleExact TypeModel TypeSpec CopyModel CopySpec SysModel CollModel SysCalls SysSpec SysLog SysReach.

(** A nonblocking send or receive: the communicator, for a receive the source, its buffer, its tag, the count and the datatype. *)
Record act := mkAct { x_side : side; x_comm : Z; x_src : Z; x_buf : Z; x_tag : Z; x_count : Z; x_type : Z; x_ts : typestruct; x_ext : Z }.
(** Both on one communicator, one is a send, the other a receive that takes any tag or this one. *)
Definition fit (x y : act) : bool :=
  if x_comm x =? x_comm y then
    match x_side x, x_side y with
    | Snd, Rcv => (x_tag y =? MPI_ANY_TAG) || (x_tag y =? x_tag x)
    | Rcv, Snd => (x_tag x =? MPI_ANY_TAG) || (x_tag x =? x_tag y)
    | _, _ => false
    end
  else false.

(** Operations are known by their position in the program.  The state: the pairs (send, receive) made so far, and the positions of those
    that wait, oldest first.  An operation goes with the oldest one that waits and fits, and waits if there is none. *)
Fixpoint pick (f : nat -> bool) (w : list nat) : option (nat * list nat) :=
  match w with
  | [] => None
  | j :: w => if f j then Some (j, w) else match pick f w with Some (i, r) => Some (i, j :: r) | None => None end
  end.
Definition fits_at (prog : list act) (x : act) (j : nat) : bool := match nth_error prog j with Some y => fit x y | None => false end.
Definition pair_of (x : act) (i j : nat) : nat * nat := match x_side x with Snd => (i, j) | Rcv => (j, i) end.
Definition meet (prog : list act) (st : list (nat * nat) * list nat) (i : nat) : list (nat * nat) * list nat :=
  match nth_error prog i with
  | None => st
  | Some x => match pick (fits_at prog x) (snd st) with
              | Some (j, w) => (fst st ++ [pair_of x i j], w)
              | None => (fst st, snd st ++ [i])
              end
  end.
Definition meetings (prog : list act) : list (nat * nat) * list nat := fold_left (meet prog) (seq 0 (length prog)) ([], []).
Definition couples (prog : list act) : list (nat * nat) := fst (meetings prog).
Definition left_over (prog : list act) : list nat := snd (meetings prog).

(** The call. *)
Definition act_call (x : act) : call :=
  match x_side x with
  | Snd => KIsend (x_buf x) (x_count x) (x_type x) 0 (x_tag x) (x_comm x)
  | Rcv => KIrecv (x_buf x) (x_count x) (x_type x) (x_src x) (x_tag x) (x_comm x)
  end.
Definition area (c : cfg) (x : act) : list region := layout c (x_buf x) (x_count x) (x_ext x) (typemap (x_ts x)).

(** The operation whose count and datatype say where the data of the send [i] lie when it meets the receive [j]: the send itself if the
    receive waited, but the receive if the send did (send.c 70, recv.c 81: copy_data2 is given the receive's count and datatype twice). *)
Definition described (i j : nat) (x y : act) : act := if (j <? i)%nat then x else y.
Definition taken (c : cfg) (i j : nat) (x y : act) : list region :=
  let d := described i j x y in layout c (x_buf x) (x_count d) (x_ext d) (typemap (x_ts d)).
(** The data of a pair can be moved: datatypes that exist, enough elements, buffers that exist and do not overlap. *)
Record pair_ok (c : cfg) (a : astate) (m : mem) (i j : nat) (x y : act) : Prop := {
  po_type : type_at c a (x_type (described i j x y)) = Some (x_ts (described i j x y));
  po_rtype : type_at c a (x_type y) = Some (x_ts y);
  po_xfer : transfer c (x_count (described i j x y)) (x_ts (described i j x y)) (x_ext (described i j x y)) (x_count y) (x_ts y) (x_ext y);
  po_agree : type_checking c = true -> types_agree (x_count (described i j x y)) (x_ts (described i j x y)) (x_count y) (x_ts y);
  po_fits : offsets_fit (x_count (described i j x y)) (x_ext (described i j x y)) (typemap (x_ts (described i j x y)));
  po_rfits : offsets_fit (x_count y) (x_ext y) (typemap (x_ts y));
  po_bufs : buffers_ok m (taken c i j x y) (area c y)
}.
(** A program that can be run: the communicators exist, receives are from rank 0 or MPI_ANY_SOURCE, the data of every pair can be moved, and
    none of the operations goes with one that waited before.  The buffers of different pairs may overlap. *)
Record acts_ok (c : cfg) (a : astate) (m0 : mem) (prog : list act) : Prop := {
  ao_comm : forall x, In x prog -> exists k, comm_at a (x_comm x) = Some k;
  ao_source : forall x, In x prog -> x_side x = Rcv -> x_src x = 0 \/ x_src x = MPI_ANY_SOURCE;
  ao_pair : forall i j x y, In (i, j) (couples prog) -> nth_error prog i = Some x -> nth_error prog j = Some y -> pair_ok c a m0 i j x y;
  ao_alone : forall x k p, In x prog -> comm_at a (x_comm x) = Some k -> In p (line (other (x_side x)) k) -> goes_with (x_side x) (x_tag x) (p_tag p) = false
}.

(** The pairs move their data one after the other, each from what the memory holds then. *)
Fixpoint in_turn (c : cfg) (prog : list act) (ps : list (nat * nat)) (m m' : mem) : Prop :=
  match ps with
  | [] => m' = m
  | (i, j) :: ps => exists x y m1, nth_error prog i = Some x /\ nth_error prog j = Some y /\
                      same_domain m m1 /\ copied m m1 (taken c i j x y) (area c y) /\ in_turn c prog ps m1 m'
  end.
(** A receive buffer is in the way of no other buffer, and the two of a pair mean the same data. *)
Record separate (c : cfg) (prog : list act) : Prop := {
  sp_same : forall i j x y, In (i, j) (couples prog) -> nth_error prog i = Some x -> nth_error prog j = Some y ->
              taken c i j x y = area c x /\ map snd (area c x) = map snd (area c y);
  sp_apart : forall i j x y, nth_error prog i = Some x -> nth_error prog j = Some y -> i <> j -> x_side y = Rcv -> all_apart (area c x) (area c y)
}.
(** Every receive that has met a send holds what was in the send's buffer, and no other byte has changed. *)
Definition moved (c : cfg) (prog : list act) (m0 m1 : mem) : Prop :=
  (forall i j x y, In (i, j) (couples prog) -> nth_error prog i = Some x -> nth_error prog j = Some y ->
     bytes m1 (area c y) = bytes m0 (area c x)) /\
  (forall z, (forall i j y r, In (i, j) (couples prog) -> nth_error prog j = Some y -> In r (area c y) -> ~ inside r z) -> m1 z = m0 z).
(** What waits on communicator [cm], [k] before and [k1] after, in order: what waited before, and the operations left over. *)
Definition waits_for (prog : list act) (hs : list Z) (cm : Z) (sd : side) (i : nat) (p : pend) : Prop :=
  exists x, nth_error prog i = Some x /\ x_comm x = cm /\ x_side x = sd /\ nth_error hs i = Some (p_req p) /\
    p_buf p = x_buf x /\ p_tag p = x_tag x /\ p_count p = x_count x /\ p_type p = x_type x.
Definition on_side (prog : list act) (cm : Z) (sd : side) (i : nat) : bool :=
  match nth_error prog i with Some x => (x_comm x =? cm) && same_side (x_side x) sd | None => false end.
Definition queues_hold (prog : list act) (hs : list Z) (cm : Z) (k k1 : acomm) : Prop :=
  k_uid k1 = k_uid k /\
  forall sd, exists P, line sd k1 = line sd k ++ P /\ Forall2 (waits_for prog hs cm sd) (filter (on_side prog cm sd) (left_over prog)) P.
(** What the request of operation [i] reports: nothing yet; that a send is done; the sender and the tag of the message. *)
Definition reports (prog : list act) (i : nat) (q : areq) : Prop :=
  (In i (left_over prog) /\ report q = None) \/
  (exists j, In (i, j) (couples prog) /\ report q = Some (Write None None)) \/
  (exists j y, In (j, i) (couples prog) /\ nth_error prog j = Some y /\ report q = Some (Write (Some 0) (Some (x_tag y)))).
(** The rule of MPI, for pairs (send, receive) of positions: an operation is in one pair at most; a pair fits; two that are left over do not
    fit; and nobody is overtaken - if [j] has met [i] but would have fitted an earlier [i'] of the same side, then [i'] had met somebody before. *)
Definition together (M : list (nat * nat)) (i j : nat) : Prop := In (i, j) M \/ In (j, i) M.
Record obeys (prog : list act) (M : list (nat * nat)) : Prop := {
  ob_once : NoDup (map fst M ++ map snd M);
  ob_fit : forall i j, In (i, j) M -> exists x y, nth_error prog i = Some x /\ nth_error prog j = Some y /\ x_comm y = x_comm x /\ x_side x = Snd /\ x_side y = Rcv /\
             (x_tag y = MPI_ANY_TAG \/ x_tag y = x_tag x);
  ob_rest : forall i j x y, nth_error prog i = Some x -> nth_error prog j = Some y -> (forall p, ~ together M i p) -> (forall p, ~ together M j p) -> fit x y = false;
  ob_over : forall i j i' x' y, together M i j -> (i' < i)%nat -> nth_error prog i' = Some x' -> nth_error prog j = Some y -> fit x' y = true ->
              exists j', together M i' j' /\ (Nat.max i' j' < Nat.max i j)%nat
}.
(** The pairs in the order in which they are made: when the later of the two is started. *)
Definition sooner (p q : nat * nat) : Prop := (Nat.max (fst p) (snd p) < Nat.max (fst q) (snd q))%nat.

(** That the pairing of sends and receives does not depend on how the two are interleaved (C112). *)
From Verif Require Import Base HandleSpec HandleExact TypeModel TypeSpec CopyModel CopySpec SysModel CollModel SysCalls SysSpec SysLog SysReach PairSpec.

(** Operations of one side on one communicator, and the place of operation [i] among those of its kind. *)
Definition kindred (x y : act) : bool := (x_comm x =? x_comm y) && same_side (x_side x) (x_side y).
Definition place (prog : list act) (x : act) (i : nat) : nat := length (filter (kindred x) (firstn i prog)).
(** Two programs that start the same sends in the same order and the same receives in the same order on every communicator. *)
Definition same_lines (prog prog' : list act) : Prop := forall x, filter (kindred x) prog = filter (kindred x) prog'.
(** Operation [i] of one program is operation [i'] of the other. *)
Definition same_op (prog prog' : list act) (i i' : nat) : Prop :=
  exists x, nth_error prog i = Some x /\ nth_error prog' i' = Some x /\ place prog x i = place prog' x i'.

(** A pairing that nobody has reason to leave: an operation is in one pair at most, a pair fits, and a send and a receive that fit are together, or the
    send is with an earlier receive, or the receive is with an earlier send.  This speaks of the order of the sends and of that of the receives,
    and not of which came first, a send or a receive. *)
Record stable (prog : list act) (M : list (nat * nat)) : Prop := {
  sb_once : NoDup (map fst M) /\ NoDup (map snd M);
  sb_fit : forall i j, In (i, j) M -> exists x y, nth_error prog i = Some x /\ nth_error prog j = Some y /\ x_side x = Snd /\ x_side y = Rcv /\ fit x y = true;
  sb_rest : forall i j x y, nth_error prog i = Some x -> nth_error prog j = Some y -> x_side x = Snd -> x_side y = Rcv -> fit x y = true ->
              In (i, j) M \/ (exists j1, (j1 < j)%nat /\ In (i, j1) M) \/ (exists i1, (i1 < i)%nat /\ In (i1, j) M)
}.
(** The same messages and receives wait, in the same order; only their requests are different numbers. *)
Definition no_request (p : pend) : Z * Z * Z * Z := (p_buf p, p_tag p, p_count p, p_type p).
Definition same_queues (k k' : acomm) : Prop := k_uid k = k_uid k' /\ forall sd, map no_request (line sd k) = map no_request (line sd k').
(** A program whose operations can be started in another order: as C104 asks, the data of a pair can be moved whichever comes first, the send and the receive
    of a pair say the same about the send's buffer, and no receive buffer overlaps another buffer. *)
Record movable (c : cfg) (a : astate) (m : mem) (prog : list act) : Prop := {
  mv_comm : forall x, In x prog -> exists k, comm_at a (x_comm x) = Some k;
  mv_source : forall x, In x prog -> x_side x = Rcv -> x_src x = 0 \/ x_src x = MPI_ANY_SOURCE;
  mv_alone : forall x k p, In x prog -> comm_at a (x_comm x) = Some k -> In p (line (other (x_side x)) k) -> goes_with (x_side x) (x_tag x) (p_tag p) = false;
  mv_pair : forall i j x y, In (i, j) (couples prog) -> nth_error prog i = Some x -> nth_error prog j = Some y ->
              pair_ok c a m 0 1 x y /\ pair_ok c a m 1 0 x y /\
              layout c (x_buf x) (x_count y) (x_ext y) (typemap (x_ts y)) = area c x /\ map snd (area c x) = map snd (area c y);
  mv_apart : forall i j x y, nth_error prog i = Some x -> nth_error prog j = Some y -> i <> j -> x_side y = Rcv -> all_apart (area c x) (area c y)
}.

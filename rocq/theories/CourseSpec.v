(** Programs of sends, receives, probes, waits and tests: when they go on and when they stop (C108). *)
From Verif Require Import Base HandleSpec HandleExact TypeModel TypeSpec CopyModel CopySpec SysModel CollModel SysCalls SysSpec SysLog SysReach PairSpec.

(** A program.  Operations are numbered in the order in which they are started; a number [i] in a call is the program's request variable for
    operation [i].  [Post]: MPI_Isend or MPI_Irecv; [Ready]: MPI_Irsend; [Block]: MPI_Send, MPI_Ssend, MPI_Rsend or MPI_Recv; [Both]: MPI_Sendrecv,
    whose receive [y] is started before its send [x]; [Await], [Poll], [Drop]: MPI_Wait, MPI_Test, MPI_Request_free; [AwaitAll]: MPI_Waitall;
    [PollAll]: MPI_Testall, MPI_Testsome, MPI_Waitsome; [AnyOf]: MPI_Waitany, MPI_Testany; [Look]: MPI_Probe, MPI_Iprobe for what the receive [y]
    could take ([wt]: wait for it); [Own]: what the program does to its memory itself between the calls; [Aside]: any other call, which starts no operation
    and releases no request (a collective one, MPI_Pack, a question about a datatype, ...), with what it does to the memory and answers. *)
Inductive mode := Plain | Sync | Rdy.
Inductive kind := TestAll | TestSome (ix : list Z) | WaitSome (ix : list Z).
Inductive item :=
| Post (x : act) | Ready (x : act) | Block (md : mode) (x : act) (st : sarg) | Both (x y : act) (st : sarg)
| Await (i : nat) (st : sarg) | Poll (i : nat) (st : sarg) | Drop (i : nat)
| AwaitAll (l : list nat) (sts : sargs) | PollAll (kd : kind) (l : list nat) (sts : sargs) | AnyOf (wt : bool) (l : list nat) (ix : Z) (st : sarg)
| Look (wt : bool) (y : act) (st : sarg) | Own (f : mem -> mem) | Aside (k : call) (R : mem -> mem -> out -> Prop).
(** The operations a call starts. *)
Definition starts (it : item) : list act :=
  match it with
  | Post x | Ready x | Block _ x _ => [x]
  | Both x y _ => [y; x]
  | _ => []
  end.
Definition started (p : list item) : list act := flat_map starts p.
(** What is asked of the arguments: statuses that can be written, sends where the call sends, no request twice in an array, a probe on one of the
    communicators [cms]; the program itself writes only where there is memory; and another call does, whenever it comes, what it is said to do. *)
Definition sts_ok (n : nat) (sts : sargs) : Prop := match sts with SSIgnore => (n <= 1)%nat | SSAt l => (n <= length l)%nat end.
(** A state later in the program: the datatypes and communicators of [a] are there, and there is memory where there was. *)
Record later (c : cfg) (a : astate) (cms : list Z) (a' : astate) : Prop := {
  la_type : forall h t, type_at c a h = Some t -> type_at c a' h = Some t;
  la_comm : forall cm, In cm cms -> exists k, comm_at a' cm = Some k;
  la_mem : same_domain (a_mem a) (a_mem a')
}.
Definition aside_ok (c : cfg) (tj : Z -> tjunk) (a : astate) (cms : list Z) (k : call) (R : mem -> mem -> out -> Prop) : Prop :=
  forall a', later c a cms a' -> mem_ok (a_mem a') -> legal c tj k a' /\
    exists Q m', spec c tj k a' = Ret Q (with_mem a' m') /\ same_domain (a_mem a') m' /\ forall o, Q o -> R (a_mem a') m' o.
(** Such calls, what they do to the memory and what they answer: questions about a datatype (type.c 425-489, pack.c 171-184, getcount.c 33-49),
    MPI_Pack and MPI_Unpack (pack.c 37-146), and collective calls that do nothing or move one message (collective.c 18-504). *)
Inductive told (c : cfg) (a : astate) (cms : list Z) : call -> (mem -> mem -> out -> Prop) -> Prop :=
| told_size h t : type_at c a h = Some t -> wf_ts c t -> map_size c (typemap t) <= INT_MAX ->
    told c a cms (KTypeSize h) (fun m m' o => m' = m /\ o = VInt (map_size c (typemap t)))
| told_extent h t ext : type_at c a h = Some t -> typed c t ext -> told c a cms (KTypeExtent h) (fun m m' o => m' = m /\ o = VInt (to_u64 ext))
| told_elements h t st : type_at c a h = Some t -> is_int (st_count st * ts_count t) -> told c a cms (KGetElements st h) (fun m m' o => m' = m /\ o = VInt (st_count st * ts_count t))
| told_pack_size n h t ext cm : type_at c a h = Some t -> typed c t ext -> In cm cms -> 0 <= n -> n * map_size c (typemap t) < TWO64 ->
    told c a cms (KPackSize n h cm) (fun m m' o => m' = m /\ o = VInt (n * map_size c (typemap t)))
| told_pack inbuf n h t ext outbuf outsize position cm : type_at c a h = Some t -> typed c t ext -> In cm cms ->
    let U := layout c inbuf n ext (typemap t) in pack_ok (a_mem a) U outbuf outsize position -> position + total_size U <= outsize ->
    told c a cms (KPack inbuf n h outbuf outsize position cm)
      (fun m m' o => o = VInt (position + total_size U) /\ bytes m' [(outbuf + position, total_size U)] = bytes m U /\ forall z, ~ inside (outbuf + position, total_size U) z -> m' z = m z)
| told_unpack inbuf insize position outbuf n h t ext cm : type_at c a h = Some t -> typed c t ext -> In cm cms ->
    let U := layout c outbuf n ext (typemap t) in pack_ok (a_mem a) U inbuf insize position -> pairwise_apart U -> position + total_size U <= insize ->
    told c a cms (KUnpack inbuf insize position outbuf n h cm)
      (fun m m' o => o = VInt (position + total_size U) /\ bytes m' U = bytes m [(inbuf + position, total_size U)] /\ forall z, (forall r, In r U -> ~ inside r z) -> m' z = m z)
| told_nothing k : coll_plan c a k = Some Nothing -> told c a cms (KColl k) (fun m m' o => m' = m /\ o = VUnit)
| told_move k src n sty st es dst n' dty dt ed : coll_plan c a k = Some (Move src n sty dst n' dty) -> type_at c a sty = Some st -> type_at c a dty = Some dt ->
    transfer c n st es n' dt ed -> (type_checking c = true -> types_agree n st n' dt) -> offsets_fit n es (typemap st) -> offsets_fit n' ed (typemap dt) ->
    let S := layout c src n es (typemap st) in let D := layout c dst n' ed (typemap dt) in buffers_ok (a_mem a) S D ->
    told c a cms (KColl k) (fun m m' o => o = VUnit /\ copied m m' S D).
Definition item_ok (c : cfg) (tj : Z -> tjunk) (a : astate) (cms : list Z) (it : item) : Prop :=
  match it with
  | Post _ | Drop _ => True
  | Ready x => x_side x = Snd
  | Block md x st => st <> SBad /\ (md = Plain \/ x_side x = Snd)
  | Both x y st => st <> SBad /\ x_side x = Snd /\ x_side y = Rcv /\ x_comm y = x_comm x
  | Await _ st | Poll _ st => st <> SBad
  | AwaitAll l sts | PollAll _ l sts => NoDup l /\ sts_ok (length l) sts
  | AnyOf _ l _ st => NoDup l /\ st <> SBad
  | Look _ y st => st <> SBad /\ x_side y = Rcv /\ (x_src y = 0 \/ x_src y = MPI_ANY_SOURCE) /\ In (x_comm y) cms
  | Own f => forall m, same_domain m (f m)
  | Aside k R => aside_ok c tj a cms k R
  end.

(** The state in which the program begins: on its communicators [cms] the operations [old] wait, in this order on each, and their requests are
    [hs].  The program may use them.  (The source of a receive that waits does not matter any more.) *)
Record standing (a : astate) (cms : list Z) (old : list act) (hs : list Z) : Prop := {
  sg_len : length hs = length old;
  sg_comm : forall x, In x old -> In (x_comm x) cms;
  sg_wait : forall cm, In cm cms -> exists k, comm_at a cm = Some k /\ forall sd, Forall2 (waits_for old hs cm sd) (filter (on_side old cm sd) (seq 0 (length old))) (line sd k)
}.
(** The operations can be carried out: the communicators are among [cms], receives are from rank 0 or MPI_ANY_SOURCE, the data of every pair can be moved. *)
Record course_ok (c : cfg) (a : astate) (m : mem) (cms : list Z) (prog : list act) : Prop := {
  co_comm : forall x, In x prog -> In (x_comm x) cms;
  co_source : forall x, In x prog -> x_side x = Rcv -> x_src x = 0 \/ x_src x = MPI_ANY_SOURCE;
  co_pair : forall i j x y, In (i, j) (couples prog) -> nth_error prog i = Some x -> nth_error prog j = Some y -> pair_ok c a m i j x y
}.
(** What the handles meant at the start, without what waited. *)
Definition cleared (a : astate) (cms hs : list Z) (x : Z) : option aobj :=
  if existsb (Z.eqb x) hs then None
  else if existsb (Z.eqb x) cms then match a_obj a x with Some (AComm k) => Some (AComm (mkAcomm (k_uid k) [] [])) | o => o end
  else a_obj a x.

(** Has operation [i] met its partner when [n] operations have been started? *)
Definition has_met (prog : list act) (n i : nat) : bool := existsb (fun q => Nat.eqb i (fst q) || Nat.eqb i (snd q))%bool (couples (firstn n prog)).
(** The oldest send that waits then and fits the receive [y]. *)
Definition on_offer (prog : list act) (n : nat) (y : act) : option nat := find (fits_at prog y) (left_over (firstn n prog)).
(** Requests are used after their operations have been started; a request is released when the operation has met its partner. *)
Definition named (prog : list act) (n : nat) (it : item) : bool :=
  match it with
  | Await i _ | Poll i _ => (i <? n)%nat
  | Drop i => has_met prog n i
  | AwaitAll l _ | PollAll _ l _ | AnyOf _ l _ _ => forallb (fun i => i <? n)%nat l
  | _ => true
  end.
(** Does the call return?  [n] operations have been started before. *)
Definition returns (prog : list act) (n : nat) (it : item) : bool :=
  match it with
  | Ready _ | Block _ _ _ => has_met prog (S n) n
  | Both _ _ _ => has_met prog (S (S n)) (S n) && has_met prog (S (S n)) n
  | Await i _ => has_met prog n i
  | AwaitAll l _ => forallb (has_met prog n) l
  | AnyOf true l _ _ => existsb (has_met prog n) l
  | Look true y _ => match on_offer prog n y with Some _ => true | None => false end
  | _ => true
  end.
(** The operations whose request the call releases. *)
Definition ends (prog : list act) (n : nat) (it : item) : list nat :=
  match it with
  | Block _ _ _ => [n]
  | Both _ _ _ => [S n; n]
  | Await i _ | Drop i => [i]
  | Poll i _ => if has_met prog n i then [i] else []
  | AwaitAll l _ => l
  | PollAll _ l _ => filter (has_met prog n) l
  | AnyOf _ l _ _ => match find (has_met prog n) l with Some i => [i] | None => [] end
  | _ => []
  end.
(** The same for a program. *)
Fixpoint all_named (prog : list act) (n : nat) (p : list item) : bool :=
  match p with [] => true | it :: p => named prog n it && all_named prog (n + length (starts it)) p end.
Fixpoint flows (prog : list act) (n : nat) (p : list item) : bool :=
  match p with [] => true | it :: p => returns prog n it && flows prog (n + length (starts it)) p end.
Fixpoint seen (prog : list act) (n : nat) (dn : list nat) (p : list item) : list nat :=
  match p with [] => dn | it :: p => seen prog (n + length (starts it)) (ends prog n it ++ dn) p end.

(** The program's request variables. *)
Definition var (hs : list Z) (i : nat) : Z := nth i hs MPI_REQUEST_NULL.
Fixpoint forget (i : nat) (hs : list Z) : list Z :=
  match hs, i with
  | [], _ => []
  | _ :: hs, O => MPI_REQUEST_NULL :: hs
  | h :: hs, S i => h :: forget i hs
  end.
Fixpoint forgets (l : list nat) (hs : list Z) : list Z := match l with [] => hs | i :: l => forgets l (forget i hs) end.
(** The calls (send.c 110-250, recv.c 123-143, req.c 19-291, probe.c 21-89). *)
Definition block_call (md : mode) (x : act) (st : sarg) : call :=
  match x_side x, md with
  | Snd, Plain => KSend (x_buf x) (x_count x) (x_type x) 0 (x_tag x) (x_comm x)
  | Snd, Sync => KSsend (x_buf x) (x_count x) (x_type x) 0 (x_tag x) (x_comm x)
  | Snd, Rdy => KRsend (x_buf x) (x_count x) (x_type x) 0 (x_tag x) (x_comm x)
  | Rcv, _ => KRecv (x_buf x) (x_count x) (x_type x) (x_src x) (x_tag x) (x_comm x) st
  end.
Definition item_call (hs : list Z) (m : mem) (it : item) : call :=
  match it with
  | Post x => act_call x
  | Ready x => KIrsend (x_buf x) (x_count x) (x_type x) 0 (x_tag x) (x_comm x)
  | Block md x st => block_call md x st
  | Both x y st => KSendrecv (x_buf x) (x_count x) (x_type x) 0 (x_tag x) (x_buf y) (x_count y) (x_type y) (x_src y) (x_tag y) (x_comm x) st
  | Await i st => KWait (var hs i) st
  | Poll i st => KTest (var hs i) st
  | Drop i => KRequestFree (var hs i)
  | AwaitAll l sts => KWaitall (Z.of_nat (length l)) (map (var hs) l) sts
  | PollAll TestAll l sts => KTestall (Z.of_nat (length l)) (map (var hs) l) sts
  | PollAll (TestSome ix) l sts => KTestsome (Z.of_nat (length l)) (map (var hs) l) ix sts
  | PollAll (WaitSome ix) l sts => KWaitsome (Z.of_nat (length l)) (map (var hs) l) ix sts
  | AnyOf true l ix st => KWaitany (Z.of_nat (length l)) (map (var hs) l) ix st
  | AnyOf false l ix st => KTestany (Z.of_nat (length l)) (map (var hs) l) ix st
  | Look true y st => KProbe (x_src y) (x_tag y) (x_comm y) st
  | Look false y st => KIprobe (x_src y) (x_tag y) (x_comm y) st
  | Own f => KUser (f m)
  | Aside k _ => k
  end.

(** What is written to a status for operation [i]: nothing for a send, the sender and the tag of the message for a receive; and what is written
    if its request is MPI_REQUEST_NULL ([dn]: the operations whose request has been released). *)
Definition tells (prog : list act) (i : nat) (v : write) : Prop :=
  (exists j, In (i, j) (couples prog) /\ v = Write None None) \/
  (exists j y, In (j, i) (couples prog) /\ nth_error prog j = Some y /\ v = Write (Some 0) (Some (x_tag y))).
Definition tells_or_null (prog : list act) (dn : list nat) (i : nat) (v : write) : Prop :=
  (In i dn /\ v = Write (Some MPI_ANY_SOURCE) (Some MPI_ANY_TAG)) \/ (~ In i dn /\ tells prog i v).
Definition tells_if_met (prog : list act) (n : nat) (dn : list nat) (i : nat) (v : write) : Prop :=
  if has_met prog n i then tells_or_null prog dn i v else v = NoWrite.
(** What the call answers: [new] are the requests of the operations it starts, [hs] and [hs'] the request variables before and after, [m] and [m'] the memory. *)
Definition answers (prog : list act) (n : nat) (dn : list nat) (hs : list Z) (m m' : mem) (it : item) (o : out) (new hs' : list Z) : Prop :=
  match it with
  | Post _ | Ready _ => exists h, o = VInt h /\ new = [h]
  | Block _ x st =>
      new = [MPI_REQUEST_NULL] /\
      match x_side x with
      | Snd => o = VUnit
      | Rcv => exists v st', tells prog n v /\ wrote st v st' /\ o = VStatus (with_count st' (x_count x))
      end
  | Both _ _ st => new = [MPI_REQUEST_NULL; MPI_REQUEST_NULL] /\ exists v st', tells prog n v /\ wrote st v st' /\ o = VStatus st'
  | Await i st => new = [] /\ exists v st', tells_or_null prog dn i v /\ wrote st v st' /\ o = VWait MPI_REQUEST_NULL st'
  | Poll i st =>
      new = [] /\
      if has_met prog n i then exists v st', tells_or_null prog dn i v /\ wrote st v st' /\ o = VTest MPI_REQUEST_NULL 1 st'
      else o = VTest (var hs i) 0 st
  | Drop i => new = [] /\ o = VInt MPI_REQUEST_NULL
  | AwaitAll l sts =>
      new = [] /\ exists ws sts', Forall2 (tells_or_null prog dn) l ws /\ wrote_all sts ws sts' /\ o = VAll (map (fun _ => MPI_REQUEST_NULL) l) 1 sts'
  | PollAll kd l sts =>
      new = [] /\ exists ws sts', Forall2 (tells_if_met prog n dn) l ws /\ wrote_all sts ws sts' /\
        o = match kd with
            | TestAll => VAll (map (var hs') l) (if forallb (has_met prog n) l then 1 else 0) sts'
            | TestSome ix | WaitSome ix => VSome (map (var hs') l) (Z.of_nat (length (filter (has_met prog n) l))) ix sts'
            end
  | AnyOf _ l ix st =>
      new = [] /\
      match find (has_met prog n) l with
      | Some i => exists v st', tells_or_null prog dn i v /\ wrote st v st' /\ o = VAny (map (var hs') l) ix 1 st'
      | None => o = VAny (map (var hs) l) ix 0 st
      end
  | Look wt y st =>
      new = [] /\
      match on_offer prog n y with
      | Some j => exists x st', nth_error prog j = Some x /\ wrote st (Write (Some 0) (Some (x_tag x))) st' /\ o = (if wt then VStatus st' else VProbe 1 st')
      | None => o = VProbe 0 st
      end
  | Own _ => new = [] /\ o = VUnit
  | Aside _ R => new = [] /\ R m m' o
  end.
(** What becomes of the memory: the pairs that the call completes move their data; and so for a program. *)
Definition new_pairs (prog : list act) (n k : nat) : list (nat * nat) := skipn (length (couples (firstn n prog))) (couples (firstn k prog)).
Definition becomes (c : cfg) (prog : list act) (n : nat) (it : item) (m m' : mem) : Prop :=
  match it with
  | Own f => m' = f m
  | Aside _ R => exists o, R m m' o
  | _ => in_turn c prog (new_pairs prog n (n + length (starts it))) m m'
  end.
Fixpoint evolves (c : cfg) (prog : list act) (n : nat) (p : list item) (m m' : mem) : Prop :=
  match p with
  | [] => m' = m
  | it :: p => exists m1, becomes c prog n it m m1 /\ evolves c prog (n + length (starts it)) p m1 m'
  end.
Definition own (it : item) : bool := match it with Own _ | Aside _ _ => true | _ => false end.
(** The program runs: every call is given the program's request variables, succeeds and answers as it should; then the variables of the
    operations whose request it has released are MPI_REQUEST_NULL. *)
Inductive goes (c : cfg) (tj : Z -> tjunk) (prog : list act) : nat -> list nat -> list Z -> list item -> sys -> astate -> list Z -> sys -> astate -> Prop :=
| go_end n dn hs s a : goes c tj prog n dn hs [] s a hs s a
| go_on n dn hs it p s a o new s1 a1 hs' s' a' :
    does c tj s a (item_call hs (s_mem s) it) o s1 a1 ->
    length new = length (starts it) ->
    answers prog n dn hs (s_mem s) (s_mem s1) it o new (forgets (ends prog n it) (hs ++ new)) ->
    becomes c prog n it (s_mem s) (s_mem s1) ->
    goes c tj prog (n + length (starts it)) (ends prog n it ++ dn) (forgets (ends prog n it) (hs ++ new)) p s1 a1 hs' s' a' ->
    goes c tj prog n dn hs (it :: p) s a hs' s' a'.
(** The message of a call that does not return. *)
Definition halt (it : item) : string :=
  match it with
  | Ready _ => "MPI_Irsend: no matching receive found"
  | AwaitAll _ _ => "MPI_Waitall: request not complete, deadlock"
  | AnyOf _ _ _ _ => "MPI_Waitany: no requests complete, deadlock"
  | Look _ _ _ => "MPI_Probe: no existing match, deadlock"
  | _ => "MPI_Wait: request not complete, deadlock"
  end.

(** Specification of the library state: communicators with two queues of messages, requests, datatypes, and the order in
    which handles are handed out.  It is written without reference to handle slots, linked lists or request fields; it
    shares with the model only the calls and their output values, the datatype objects and the typed copy
    [Pcopy_data2] (specified on its own by C48-C51). *)
From Verif Require Import Base HandleSpec HandleExact TypeModel CopyModel SysModel CollModel SysCalls.

(** A posted operation waiting in a queue. *)
Record pend := mkPend { p_id : Z; p_req : Z; p_buf : Z; p_count : Z; p_type : Z; p_tag : Z }.
Inductive side := Snd | Rcv.
(** What a request stands for. *)
Inductive areq :=
| QPending (sd : side) (uid id : Z)                        (** operation [id] posted on communicator [uid], not matched *)
| QSent (id : Z)                                           (** send [id], matched *)
| QReceived (id tag : Z)                                   (** receive [id], matched by a message with this tag *)
| QNullSend | QNullRecv.                                   (** to / from MPI_PROC_NULL *)
(** A communicator: its identity and its two queues, oldest first. *)
Record acomm := mkAcomm { k_uid : Z; k_sends : list pend; k_recvs : list pend }.
Inductive aobj := AComm (k : acomm) | AReq (q : areq) | AType (t : typestruct).

(** History of the message traffic, oldest first. *)
Inductive event := EPost (id : Z) (sd : side) (uid tag : Z) | EMatch (sid rid : Z).

Record astate := mkA {
  a_obj : Z -> option aobj;       (* live handles *)
  a_freed : list Z;               (* freed handles, most recent first *)
  a_top : Z;                      (* largest handle handed out *)
  a_mem : mem;                    (* user memory *)
  a_init : bool;
  a_made : Z;                     (* communicators created so far *)
  a_ntypes : Z;                   (* datatypes created so far *)
  a_heads : Z; a_items : Z;       (* queues and queue entries in existence (also those abandoned by Finalize) *)
  a_clock : Z;                    (* operations posted so far *)
  a_log : list event
}.

Definition a_start (m : mem) : astate := mkA (fun _ => None) [] 0 m false 0 0 0 0 0 [].

Definition set_obj (a : astate) (h : Z) (o : option aobj) : astate :=
  mkA (upd (a_obj a) h o) (a_freed a) (a_top a) (a_mem a) (a_init a) (a_made a) (a_ntypes a) (a_heads a) (a_items a) (a_clock a) (a_log a).
Definition with_handles (a : astate) (fr : list Z) (top : Z) : astate :=
  mkA (a_obj a) fr top (a_mem a) (a_init a) (a_made a) (a_ntypes a) (a_heads a) (a_items a) (a_clock a) (a_log a).
Definition with_mem (a : astate) (m : mem) : astate :=
  mkA (a_obj a) (a_freed a) (a_top a) m (a_init a) (a_made a) (a_ntypes a) (a_heads a) (a_items a) (a_clock a) (a_log a).
Definition with_init (a : astate) (b : bool) : astate :=
  mkA (a_obj a) (a_freed a) (a_top a) (a_mem a) b (a_made a) (a_ntypes a) (a_heads a) (a_items a) (a_clock a) (a_log a).
Definition with_items (a : astate) (n : Z) : astate :=
  mkA (a_obj a) (a_freed a) (a_top a) (a_mem a) (a_init a) (a_made a) (a_ntypes a) (a_heads a) n (a_clock a) (a_log a).
Definition with_heads (a : astate) (made heads : Z) : astate :=
  mkA (a_obj a) (a_freed a) (a_top a) (a_mem a) (a_init a) made (a_ntypes a) heads (a_items a) (a_clock a) (a_log a).
Definition with_ntypes (a : astate) (n : Z) : astate :=
  mkA (a_obj a) (a_freed a) (a_top a) (a_mem a) (a_init a) (a_made a) n (a_heads a) (a_items a) (a_clock a) (a_log a).
Definition logged (a : astate) (es : list event) : astate :=
  mkA (a_obj a) (a_freed a) (a_top a) (a_mem a) (a_init a) (a_made a) (a_ntypes a) (a_heads a) (a_items a) (a_clock a) (a_log a ++ es).
Definition with_clock (a : astate) (n : Z) : astate :=
  mkA (a_obj a) (a_freed a) (a_top a) (a_mem a) (a_init a) (a_made a) (a_ntypes a) (a_heads a) (a_items a) n (a_log a).

(** Outcomes of a specified step. *)
Inductive oc (A : Type) := Ret (x : A) (a : astate) | SAbort (why : string) | SExit (code : Z) (why : string).
Arguments Ret {A} x a. Arguments SAbort {A} why. Arguments SExit {A} code why.
Definition sp (A : Type) := astate -> oc A.
Definition sret {A} (x : A) : sp A := fun a => Ret x a.
Definition sbind {A B} (e : sp A) (f : A -> sp B) : sp B :=
  fun a => match e a with Ret x a => f x a | SAbort w => SAbort w | SExit n w => SExit n w end.
Notation "'then*' x ':=' e 'in' f" := (sbind e (fun x => f))
  (at level 200, x pattern, e at level 100, f at level 200, right associativity).

(** The diagnostics. *)
Definition handles_msg : string := "mpi_allocate_handle: max active handles exceeded".
Definition wait_msg : string := "MPI_Wait: request not complete, deadlock".
Definition bad_arg : string := "".   (* excluded by [legal] below *)

(** A new handle holding [mk h]; abort when all 262143 are in use. *)
Definition s_alloc (mk : Z -> aobj) : sp Z := fun a =>
  match next_handle (a_freed a) (a_top a) with
  | Some (h, fr, top) => Ret h (set_obj (with_handles a fr top) h (Some (mk h)))
  | None => SAbort handles_msg
  end.
Definition s_free (h : Z) : sp unit := fun a =>
  Ret tt (set_obj (with_handles a (h :: a_freed a) (a_top a)) h None).

Section SysSpec.
Variable c : cfg.
Variable tj : Z -> tjunk.

(** The datatype a handle denotes. *)
Definition type_at (a : astate) (h : Z) : option typestruct :=
  if h <? 0 then match predefined c h with Ok t => Some t | _ => None end
  else match a_obj a h with Some (AType t) => Some t | _ => None end.

(** Moving a message.  Used only where [xfer_ok] holds. *)
Definition xfer_res (a : astate) (src scount sty dst dcount dty : Z) : res mem :=
  match type_at a sty, type_at a dty with
  | Some st, Some dt => Pcopy_data2 c (a_mem a) src scount st dst dcount dt
  | _, _ => UB "bad datatype"
  end.
Definition defined {A} (r : res A) : Prop := match r with UB _ | Diverge => False | _ => True end.
Definition s_xfer (src scount sty dst dcount dty : Z) : sp unit := fun a =>
  match xfer_res a src scount sty dst dcount dty with
  | Ok m => Ret tt (with_mem a m)
  | Exit n w => SExit n w
  | Abort w => SAbort w
  | _ => SAbort bad_arg
  end.

(** A receive with tag [want] takes a message with tag [tag]. *)
Definition accepts (want tag : Z) : bool := (want =? MPI_ANY_TAG) || (want =? tag).
(** First element satisfying [f], with what is before and after it. *)
Fixpoint first_such {A} (f : A -> bool) (l : list A) : option (list A * A * list A) :=
  match l with
  | [] => None
  | x :: r => if f x then Some ([], x, r)
              else match first_such f r with Some (b, y, e) => Some (x :: b, y, e) | None => None end
  end.

Definition rank_ok (dest : Z) : bool := (dest =? 0) || (dest =? MPI_PROC_NULL).
Definition source_ok (source : Z) : bool := (source =? 0) || (source =? MPI_ANY_SOURCE) || (source =? MPI_PROC_NULL).
Definition comm_at (a : astate) (h : Z) : option acomm := match a_obj a h with Some (AComm k) => Some k | _ => None end.

(** Standard-mode nonblocking send. *)
Definition s_isend (buf count ty dest tag comm : Z) : sp Z := fun a =>
  if negb (rank_ok dest) then SAbort "MPI_Isend: send to"
  else if dest =? MPI_PROC_NULL then s_alloc (fun _ => AReq QNullSend) a
  else match comm_at a comm with
  | None => SAbort bad_arg
  | Some k =>
      let id := a_clock a in
      match first_such (fun p => accepts (p_tag p) tag) (k_recvs k) with
      | Some (before, p, rest) =>
          (then* h := s_alloc (fun _ => AReq (QSent id)) in
           then* _ := s_xfer buf count ty (p_buf p) (p_count p) (p_type p) in
           fun a =>
             let a := set_obj a (p_req p) (Some (AReq (QReceived (p_id p) tag))) in
             let a := set_obj a comm (Some (AComm (mkAcomm (k_uid k) (k_sends k) (before ++ rest)))) in
             Ret h (with_items (with_clock (logged a [EPost id Snd (k_uid k) tag; EMatch id (p_id p)]) (id + 1)) (a_items a - 1))) a
      | None =>
          (then* h := s_alloc (fun _ => AReq (QPending Snd (k_uid k) id)) in
           fun a =>
             let a := set_obj a comm (Some (AComm (mkAcomm (k_uid k) (k_sends k ++ [mkPend id h buf count ty tag]) (k_recvs k)))) in
             Ret h (with_items (with_clock (logged a [EPost id Snd (k_uid k) tag]) (id + 1)) (a_items a + 1))) a
      end
  end.

(** Nonblocking receive.  A message that was sent earlier is copied as the receive describes it. *)
Definition s_irecv (buf count ty source tag comm : Z) : sp Z := fun a =>
  if negb (source_ok source) then SAbort "MPI_Irecv: bad source"
  else if source =? MPI_PROC_NULL then s_alloc (fun _ => AReq QNullRecv) a
  else match comm_at a comm with
  | None => SAbort bad_arg
  | Some k =>
      let id := a_clock a in
      match first_such (fun p => accepts tag (p_tag p)) (k_sends k) with
      | Some (before, p, rest) =>
          (then* h := s_alloc (fun _ => AReq (QReceived id (p_tag p))) in
           then* _ := s_xfer (p_buf p) count ty buf count ty in
           fun a =>
             let a := set_obj a (p_req p) (Some (AReq (QSent (p_id p)))) in
             let a := set_obj a comm (Some (AComm (mkAcomm (k_uid k) (before ++ rest) (k_recvs k)))) in
             Ret h (with_items (with_clock (logged a [EPost id Rcv (k_uid k) tag; EMatch (p_id p) id]) (id + 1)) (a_items a - 1))) a
      | None =>
          (then* h := s_alloc (fun _ => AReq (QPending Rcv (k_uid k) id)) in
           fun a =>
             let a := set_obj a comm (Some (AComm (mkAcomm (k_uid k) (k_sends k) (k_recvs k ++ [mkPend id h buf count ty tag])))) in
             Ret h (with_items (with_clock (logged a [EPost id Rcv (k_uid k) tag]) (id + 1)) (a_items a + 1))) a
      end
  end.

(** What is stored in a status: nothing, or a source and a tag ([None]: any value). *)
Inductive write := NoWrite | Write (source tag : option Z).

(** What a completed request reports. *)
Definition report (q : areq) : option write :=
  match q with
  | QPending _ _ _ => None
  | QSent _ | QNullSend => Some (Write None None)
  | QReceived _ tag => Some (Write (Some 0) (Some tag))
  | QNullRecv => Some (Write (Some MPI_PROC_NULL) (Some MPI_ANY_TAG))
  end.

Definition req_at (a : astate) (h : Z) : option areq := match a_obj a h with Some (AReq q) => Some q | _ => None end.
(** The request is null or complete. *)
Definition complete (a : astate) (r : Z) : bool :=
  (r =? MPI_REQUEST_NULL) || match req_at a r with Some q => match report q with Some _ => true | None => false end | None => false end.

Definition s_test (r : Z) : sp (Z * Z * write) := fun a =>
  if r =? MPI_REQUEST_NULL then Ret (MPI_REQUEST_NULL, 1, Write (Some MPI_ANY_SOURCE) (Some MPI_ANY_TAG)) a
  else match req_at a r with
  | None => SAbort bad_arg
  | Some q => match report q with
              | None => Ret (r, 0, NoWrite) a
              | Some w => (then* _ := s_free r in sret (MPI_REQUEST_NULL, 1, w)) a
              end
  end.
Definition s_wait (msg : string) (r : Z) : sp (Z * write) :=
  then* (r, flag, w) := s_test r in
  if flag =? 0 then (fun _ => SAbort msg) else sret (r, w).

Definition s_send (buf count ty dest tag comm : Z) : sp unit :=
  then* r := s_isend buf count ty dest tag comm in then* _ := s_wait wait_msg r in sret tt.
Definition s_irsend (buf count ty dest tag comm : Z) : sp Z :=
  then* r := s_isend buf count ty dest tag comm in
  fun a => if complete a r then Ret r a else SAbort "MPI_Irsend: no matching receive found".
Definition s_recv (buf count ty source tag comm : Z) : sp write :=
  then* r := s_irecv buf count ty source tag comm in then* (_, w) := s_wait wait_msg r in sret w.
Definition s_sendrecv (sbuf scount sty dest stag rbuf rcount rty source rtag comm : Z) : sp write :=
  then* r := s_irecv rbuf rcount rty source rtag comm in
  then* _ := s_send sbuf scount sty dest stag comm in
  then* (_, w) := s_wait wait_msg r in sret w.

Definition s_iprobe (source tag comm : Z) : sp (Z * write) := fun a =>
  if negb ((source =? 0) || (source =? MPI_ANY_SOURCE)) then SAbort "MPI_Irecv: bad source"
  else match comm_at a comm with
  | None => SAbort bad_arg
  | Some k => match first_such (fun p => accepts tag (p_tag p)) (k_sends k) with
              | Some (_, p, _) => Ret (1, Write (Some 0) (Some (p_tag p))) a
              | None => Ret (0, NoWrite) a
              end
  end.
Definition s_probe (source tag comm : Z) : sp write :=
  then* (flag, w) := s_iprobe source tag comm in
  if flag =? 0 then (fun _ => SAbort "MPI_Probe: no existing match, deadlock") else sret w.

(** Request arrays: the first [n] entries of [reqs] are tested in order. *)
Fixpoint s_testany (n : nat) (done reqs : list Z) : sp (list Z * Z * write) :=
  match n, reqs with
  | S n, r :: rest =>
      then* (r, flag, w) := s_test r in
      if flag =? 0 then s_testany n (done ++ [r]) rest else sret (done ++ r :: rest, 1, w)
  | _, _ => sret (done ++ reqs, 0, NoWrite)
  end.
Definition s_waitany (n : nat) (reqs : list Z) : sp (list Z * write) :=
  then* (rs, flag, w) := s_testany n [] reqs in
  if flag =? 0 then (fun _ => SAbort "MPI_Waitany: no requests complete, deadlock") else sret (rs, w).
(** All are tested; the flags and writes are collected. *)
Fixpoint s_tests (n : nat) (reqs : list Z) : sp (list Z * list Z * list write) :=
  match n, reqs with
  | S n, r :: rest =>
      then* (r, flag, w) := s_test r in
      then* (rs, flags, ws) := s_tests n rest in sret (r :: rs, flag :: flags, w :: ws)
  | _, _ => sret (reqs, [], [])
  end.
Definition all_set (flags : list Z) : Z := if forallb (fun f => negb (f =? 0)) flags then 1 else 0.
Definition how_many (flags : list Z) : Z := Z.of_nat (length (filter (fun f => negb (f =? 0)) flags)).
Fixpoint s_waitall (n : nat) (reqs : list Z) : sp (list Z * list write) :=
  match n, reqs with
  | S n, r :: rest =>
      then* (r, w) := s_wait "MPI_Waitall: request not complete, deadlock" r in
      then* (rs, ws) := s_waitall n rest in sret (r :: rs, w :: ws)
  | _, _ => sret (reqs, [])
  end.

Definition s_request_free (r : Z) : sp Z := fun a =>
  if r =? MPI_REQUEST_NULL then Ret MPI_REQUEST_NULL a else (then* _ := s_free r in sret MPI_REQUEST_NULL) a.

(** Communicators. *)
Definition s_comm_new : sp Z := fun a =>
  (then* h := s_alloc (fun _ => AComm (mkAcomm (a_made a) [] [])) in
   fun a => Ret h (with_heads a (a_made a + 1) (a_heads a + 2))) a.
Definition some_left (q : list pend) : option Z := match q with [] => None | _ => Some (Z.of_nat (length q)) end.
(** The result is the value of the variable and the numbers of operations left behind, if any. *)
Definition s_comm_free (h : Z) : sp (Z * option Z * option Z) := fun a =>
  match comm_at a h with
  | None => SAbort bad_arg
  | Some k =>
      (then* _ := s_free h in
       fun a => Ret (MPI_COMM_NULL, some_left (k_sends k), some_left (k_recvs k))
         (with_items (with_heads a (a_made a) (a_heads a - 2))
            (a_items a - Z.of_nat (length (k_sends k)) - Z.of_nat (length (k_recvs k))))) a
  end.
Definition s_startup : sp unit :=
  then* h := s_comm_new in
  if h =? MPI_COMM_WORLD then (fun a => Ret tt (with_init a true)) else (fun _ => SAbort "MPI_Init: conflicting MPI_COMM_WORLD").
Definition s_finalize : sp unit := fun a =>
  Ret tt (mkA (fun _ => None) [] 0 (a_mem a) false (a_made a) (a_ntypes a) (a_heads a) (a_items a) (a_clock a) (a_log a)).

(** Datatypes. *)
Fixpoint types_at (a : astate) (hs : list Z) : option (list typestruct) :=
  match hs with
  | [] => Some []
  | h :: r => match type_at a h, types_at a r with Some t, Some ts => Some (t :: ts) | _, _ => None end
  end.
Definition make_type (a : astate) (k : tcons) : res typestruct :=
  let jk := tj (a_ntypes a) in
  let one old f := match type_at a old with Some t => f t | None => UB "bad datatype" end in
  match k with
  | TStruct count bl ds olds =>
      if (count <? 0) || (Z.of_nat (length olds) <? count) then UB "bad array" else
      match types_at a (firstn (Z.to_nat count) olds) with
      | Some ts => Type_struct c jk count bl ds ts
      | None => UB "bad datatype"
      end
  | TContiguous count old => one old (fun t => Type_contiguous c jk count t)
  | THvector count bl stride old => one old (fun t => Type_hvector c jk count bl stride t)
  | TVector count bl stride old => one old (fun t => Type_vector c jk count bl stride t)
  | THindexed count bl ds old => one old (fun t => Type_hindexed c jk count bl ds t)
  | TIndexed count bl ds old => one old (fun t => Type_indexed c jk count bl ds t)
  | TIndexedBlock count bl ds old => one old (fun t => Type_create_indexed_block c jk count bl ds t)
  end.
Definition s_type_create (k : tcons) : sp Z := fun a =>
  if next_handle (a_freed a) (a_top a) then
    match make_type a k with
    | Ok t => (then* h := s_alloc (fun _ => AType t) in fun a => Ret h (with_ntypes a (a_ntypes a + 1))) a
    | Exit n w => SExit n w
    | Abort w => SAbort w
    | _ => SAbort bad_arg
    end
  else SAbort handles_msg.
Definition committed (t : typestruct) : typestruct :=
  mkTs (ts_count t) (ts_ub t) (ts_lb t) 1 (ts_olb t) (ts_oub t) (ts_pairs t).
Definition s_type_commit (h : Z) : sp unit := fun a =>
  match a_obj a h with
  | Some (AType t) => Ret tt (set_obj a h (Some (AType (committed t))))
  | _ => Ret tt a
  end.
(** The handle variable of the caller keeps its value. *)
Definition s_type_free (h : Z) : sp Z := then* _ := s_free h in sret h.
Definition s_query (h : Z) (q : typestruct -> res Z) : sp Z := fun a =>
  match type_at a h with
  | Some t => match q t with Ok n => Ret n a | Exit n w => SExit n w | Abort w => SAbort w | _ => SAbort bad_arg end
  | None => SAbort bad_arg
  end.

(** What a collective over one process has to do: nothing, end the program, or move one message. *)
Inductive plan := Nothing | Refuse (why : string) | Move (src scount sty dst dcount dty : Z).
Definition at_root (root : Z) (why : string) (p : option plan) : option plan :=
  if root =? MPI_ROOT then Some Nothing else if root =? 0 then p else Some (Refuse why).
Definition in_place (buf : Z) (p : option plan) : option plan := if buf =? MPI_IN_PLACE then Some Nothing else p.
(** The buffer moved by the first displacement, in units of the extent (reduced to 32 bits, see C57). *)
Definition displaced (a : astate) (ty buf : Z) (displs : list Z) : option Z :=
  match type_at a ty, displs with
  | Some t, d :: _ => match Type_extent c t with Ok e => Some (to_u64 (buf + to_s32 (d * e))) | _ => None end
  | _, _ => None
  end.
Definition moved (src : option Z) (counts : list Z) (sty : Z) (dst : option Z) (dcounts : list Z) (dty : Z) : option plan :=
  match src, counts, dst, dcounts with
  | Some src, n :: _, Some dst, k :: _ => Some (Move src n sty dst k dty)
  | _, _, _, _ => None
  end.
Definition coll_plan (a : astate) (k : coll) : option plan :=
  match k with
  | CBarrier => Some Nothing
  | CBcast _ _ _ root => at_root root "MPI_Bcast: bad root" (Some Nothing)
  | CGather sb sn st rb rn rt root => in_place sb (at_root root "MPI_Gather: bad root" (Some (Move sb sn st rb rn rt)))
  | CGatherv sb sn st rb rns ds rt root =>
      in_place sb (at_root root "MPI_Gatherv: bad root" (moved (Some sb) [sn] st (displaced a rt rb ds) rns rt))
  | CAllgather sb sn st rb rn rt => in_place sb (Some (Move sb sn st rb rn rt))
  | CAllgatherv sb sn st rb rns ds rt => in_place sb (moved (Some sb) [sn] st (displaced a rt rb ds) rns rt)
  | CScatter sb sn st rb rn rt root => in_place rb (at_root root "MPI_Scatter: bad root" (Some (Move sb sn st rb rn rt)))
  | CScatterv sb sns ds st rb rn rt root =>
      in_place rb (at_root root "MPI_Scatterv: bad root" (moved (displaced a st sb ds) sns st (Some rb) [rn] rt))
  | CReduce sb rb n ty _ root => if root =? 0 then Some (Move sb n ty rb n ty) else Some (Refuse "MPI_Reduce: bad root")
  | CAllreduce sb rb n ty _ => in_place sb (Some (Move sb n ty rb n ty))
  | CReduceScatter sb rb ns ty _ => moved (Some sb) ns ty (Some rb) ns ty
  | CScan sb rb n ty _ => Some (Move sb n ty rb n ty)
  | CAlltoall sb sn st rb rn rt => Some (Move sb sn st rb rn rt)
  | CAlltoallv sb sns sds st rb rns rds rt => moved (displaced a st sb sds) sns st (displaced a rt rb rds) rns rt
  | CAlltoallw sb sns (sd :: _) (st :: _) rb rns (rd :: _) (rt :: _) =>
      moved (Some (to_u64 (sb + sd))) sns st (Some (to_u64 (rb + rd))) rns rt
  | CAlltoallw _ _ _ _ _ _ _ _ => None
  end.
Definition plan_res (a : astate) (p : option plan) : res mem :=
  match p with
  | Some Nothing => Ok (a_mem a)
  | Some (Refuse w) => Abort w
  | Some (Move src n st dst k dt) => xfer_res a src n st dst k dt
  | None => UB "bad argument"
  end.
(** A call that only changes memory. *)
Definition s_moves {A} (f : astate -> res (mem * A)) : sp A := fun a =>
  match f a with
  | Ok (m, x) => Ret x (with_mem a m)
  | Exit n w => SExit n w
  | Abort w => SAbort w
  | _ => SAbort bad_arg
  end.
Definition coll_res (k : coll) (a : astate) : res (mem * unit) := do m <- plan_res a (coll_plan a k); Ok (m, tt).
Definition pack_res (inbuf n ty outbuf outsize position : Z) (a : astate) : res (mem * Z) :=
  match type_at a ty with Some t => Pack c (a_mem a) inbuf n t outbuf outsize position | None => UB "bad datatype" end.
Definition unpack_res (inbuf insize position outbuf n ty : Z) (a : astate) : res (mem * Z) :=
  match type_at a ty with Some t => Unpack c (a_mem a) inbuf insize position outbuf n t | None => UB "bad datatype" end.
(** A cartesian communicator: every dimension must be at most one. *)
Definition s_cart (ndims : Z) (dims : list Z) : sp Z :=
  if existsb (fun d => d >? 1) (firstn (Z.to_nat ndims) dims)
  then (fun _ => SAbort "MPI_Cart_create: Greater dimension than no. of procs") else s_comm_new.

(** A status argument before and after a write. *)
Definition wrote (st : sarg) (w : write) (st' : sarg) : Prop :=
  match w with
  | NoWrite => st' = st
  | Write source tag =>
      match st with
      | SAt x => exists y, st' = SAt y /\ (forall v, source = Some v -> st_source y = v) /\ (forall v, tag = Some v -> st_tag y = v) /\
                           st_error y = st_error x /\ st_count y = st_count x
      | _ => st' = st
      end
  end.
(** The same for an array of statuses: entry i receives the i-th write. *)
Definition wrote_all (sts : sargs) (ws : list write) (sts' : sargs) : Prop :=
  match sts with
  | SSIgnore => sts' = SSIgnore
  | SSAt l => exists l', sts' = SSAt l' /\ length l' = length l /\
       forall i x, nth_error l i = Some x ->
         exists y, nth_error l' i = Some y /\ wrote (SAt x) (nth i ws NoWrite) (SAt y)
  end.

(** What may be assumed of a call. *)
Definition room (a : astate) : Prop := a_items a < INT_MAX.
Definition room_comm (a : astate) : Prop := a_heads a + 2 <= INT_MAX /\ a_made a < INT_MAX.
Definition live (a : astate) (h : Z) : Prop := a_obj a h <> None.
Definition known (a : astate) (h : Z) : Prop := h = 0 \/ live a h.

Definition legal_isend (buf count ty dest tag comm : Z) (a : astate) : Prop :=
  known a comm /\
  (dest = 0 -> exists k, comm_at a comm = Some k /\ room a /\
     forall b p e, first_such (fun p => accepts (p_tag p) tag) (k_recvs k) = Some (b, p, e) ->
       defined (xfer_res a buf count ty (p_buf p) (p_count p) (p_type p))).
Definition legal_irecv (buf count ty source tag comm : Z) (a : astate) : Prop :=
  known a comm /\
  (source = 0 \/ source = MPI_ANY_SOURCE -> exists k, comm_at a comm = Some k /\ room a /\
     forall b p e, first_such (fun p => accepts tag (p_tag p)) (k_sends k) = Some (b, p, e) ->
       defined (xfer_res a (p_buf p) count ty buf count ty)).
Definition legal_req (r : Z) (a : astate) : Prop := r = MPI_REQUEST_NULL \/ exists q, req_at a r = Some q.
Definition legal_reqs (count : Z) (reqs : list Z) (a : astate) : Prop :=
  count <= Z.of_nat (length reqs) /\ count <= INT_MAX /\
  (forall r, In r (firstn (Z.to_nat count) reqs) -> legal_req r a) /\
  NoDup (filter (fun r => negb (r =? MPI_REQUEST_NULL)) (firstn (Z.to_nat count) reqs)).
Definition legal_sts (count : Z) (sts : sargs) : Prop :=
  match sts with SSIgnore => count <= 1 | SSAt l => count <= Z.of_nat (length l) end.
Definition legal_query (h : Z) (q : typestruct -> res Z) (a : astate) : Prop :=
  exists t, type_at a h = Some t /\ defined (q t).

Definition elements (n : Z) (t : typestruct) : res Z := chk_int (n * ts_count t).

Definition legal (k : call) (a : astate) : Prop :=
  match k with
  | KInit | KInitThread _ | KCommDup _ => room_comm a
  | KCommCreate _ g => g = MPI_GROUP_NULL \/ g = MPI_GROUP_EMPTY \/ room_comm a
  | KCommSplit _ color _ => color = MPI_UNDEFINED \/ room_comm a
  | KIntercomm l p => (l = MPI_COMM_NULL /\ p = MPI_COMM_NULL) \/ room_comm a
  | KFinalize | KInitialized | KUser _ => True
  | KCommFree h => exists k, comm_at a h = Some k
  | KIsend b n t d g cm | KIrsend b n t d g cm | KSend b n t d g cm | KSsend b n t d g cm | KRsend b n t d g cm =>
      legal_isend b n t d g cm a
  | KIrecv b n t d g cm => legal_irecv b n t d g cm a
  | KRecv b n t d g cm st => legal_irecv b n t d g cm a /\ st <> SBad
  | KSendrecv sb sn sty d sg rb rn rt so rg cm st =>
      st <> SBad /\ legal_irecv rb rn rt so rg cm a /\
      match s_irecv rb rn rt so rg cm a with Ret _ a => legal_isend sb sn sty d sg cm a | _ => True end
  | KTest r st | KWait r st => legal_req r a /\ st <> SBad
  | KTestany n rs _ st | KWaitany n rs _ st => legal_reqs n rs a /\ st <> SBad
  | KTestall n rs sts | KWaitall n rs sts => legal_reqs n rs a /\ legal_sts n sts
  | KTestsome n rs _ sts | KWaitsome n rs _ sts => legal_reqs n rs a /\ legal_sts n sts
  | KRequestFree r => complete a r = true
  | KIprobe so g cm st | KProbe so g cm st =>
      known a cm /\ st <> SBad /\ (so = 0 \/ so = MPI_ANY_SOURCE -> exists k, comm_at a cm = Some k)
  | KTypeCreate k => defined (make_type a k)
  | KTypeCommit h => exists t, type_at a h = Some t
  | KTypeFree h => exists t, a_obj a h = Some (AType t)
  | KTypeSize h => legal_query h (Type_size c) a
  | KTypeExtent h => legal_query h (Type_extent c) a
  | KTypeLb h => legal_query h (fun t => Ok (Type_lb t)) a
  | KTypeUb h => legal_query h (fun t => Ok (Type_ub t)) a
  | KGetElements st h => legal_query h (elements (st_count st)) a
  | KPack ib n t ob sz p cm => known a cm /\ defined (pack_res ib n t ob sz p a)
  | KUnpack ib sz p ob n t cm => known a cm /\ defined (unpack_res ib sz p ob n t a)
  | KPackSize n t cm => known a cm /\ legal_query t (Pack_size c n) a
  | KColl k => defined (coll_res k a)
  | KCartCreate _ n dims _ _ => n <= Z.of_nat (length dims) /\ room_comm a
  end.

Definition smap {A} (f : A -> out -> Prop) (e : sp A) : sp (out -> Prop) := then* x := e in sret (f x).
Definition is {A} (v : A -> out) : A -> out -> Prop := fun x o => o = v x.
Definition unit_out {A} (_ : A) (o : out) : Prop := o = VUnit.
Definition with_count (st : sarg) (n : Z) : sarg :=
  match st with SAt x => SAt (mkStatus (st_source x) (st_tag x) (st_error x) n) | _ => st end.

(** The specified effect of each call: what its outputs must satisfy, and the new state. *)
Definition spec (k : call) : sp (out -> Prop) :=
  match k with
  | KInit => smap unit_out s_startup
  | KInitThread r => smap (fun _ o => o = VInt r) s_startup
  | KFinalize => smap unit_out s_finalize
  | KInitialized => fun a => Ret (fun o => o = VInt (if a_init a then 1 else 0)) a
  | KCommDup _ => smap (is VInt) s_comm_new
  | KCommCreate _ g => smap (is VInt) (if (g =? MPI_GROUP_NULL) || (g =? MPI_GROUP_EMPTY) then sret MPI_COMM_NULL else s_comm_new)
  | KCommSplit _ color _ => smap (is VInt) (if color =? MPI_UNDEFINED then sret MPI_COMM_NULL else s_comm_new)
  | KIntercomm l p => smap (is VInt) (if (l =? MPI_COMM_NULL) && (p =? MPI_COMM_NULL) then sret MPI_COMM_NULL else s_comm_new)
  | KCommFree h => smap (fun x o => let '(v, ws, wr) := x in o = VFree v ws wr) (s_comm_free h)
  | KIsend b n t d g cm => smap (is VInt) (s_isend b n t d g cm)
  | KIrecv b n t d g cm => smap (is VInt) (s_irecv b n t d g cm)
  | KIrsend b n t d g cm => smap (is VInt) (s_irsend b n t d g cm)
  | KSend b n t d g cm | KSsend b n t d g cm | KRsend b n t d g cm => smap unit_out (s_send b n t d g cm)
  | KRecv b n t d g cm st =>
      smap (fun w o => exists st', wrote st w st' /\ o = VStatus (with_count st' n)) (s_recv b n t d g cm)
  | KSendrecv sb sn sty d sg rb rn rt so rg cm st =>
      smap (fun w o => exists st', wrote st w st' /\ o = VStatus st') (s_sendrecv sb sn sty d sg rb rn rt so rg cm)
  | KTest r st => smap (fun x o => let '(r, f, w) := x in exists st', wrote st w st' /\ o = VTest r f st') (s_test r)
  | KWait r st => smap (fun x o => let '(r, w) := x in exists st', wrote st w st' /\ o = VWait r st') (s_wait wait_msg r)
  | KTestany n rs i st =>
      smap (fun x o => let '(rs, f, w) := x in exists st', wrote st w st' /\ o = VAny rs i f st') (s_testany (Z.to_nat n) [] rs)
  | KWaitany n rs i st =>
      smap (fun x o => let '(rs, w) := x in exists st', wrote st w st' /\ o = VAny rs i 1 st') (s_waitany (Z.to_nat n) rs)
  | KTestall n rs sts =>
      smap (fun x o => let '(rs, fs, ws) := x in exists sts', wrote_all sts ws sts' /\ o = VAll rs (all_set fs) sts')
        (s_tests (Z.to_nat n) rs)
  | KWaitall n rs sts =>
      smap (fun x o => let '(rs, ws) := x in exists sts', wrote_all sts ws sts' /\ o = VAll rs 1 sts') (s_waitall (Z.to_nat n) rs)
  | KTestsome n rs ix sts | KWaitsome n rs ix sts =>
      smap (fun x o => let '(rs, fs, ws) := x in exists sts', wrote_all sts ws sts' /\ o = VSome rs (how_many fs) ix sts')
        (s_tests (Z.to_nat n) rs)
  | KRequestFree r => smap (is VInt) (s_request_free r)
  | KIprobe so g cm st => smap (fun x o => let '(f, w) := x in exists st', wrote st w st' /\ o = VProbe f st') (s_iprobe so g cm)
  | KProbe so g cm st => smap (fun w o => exists st', wrote st w st' /\ o = VStatus st') (s_probe so g cm)
  | KTypeCreate k => smap (is VInt) (s_type_create k)
  | KTypeCommit h => smap unit_out (s_type_commit h)
  | KTypeFree h => smap (is VInt) (s_type_free h)
  | KTypeSize h => smap (is VInt) (s_query h (Type_size c))
  | KTypeExtent h => smap (is VInt) (s_query h (Type_extent c))
  | KTypeLb h => smap (is VInt) (s_query h (fun t => Ok (Type_lb t)))
  | KTypeUb h => smap (is VInt) (s_query h (fun t => Ok (Type_ub t)))
  | KGetElements st h => smap (is VInt) (s_query h (elements (st_count st)))
  | KPack ib n t ob sz p _ => smap (is VInt) (s_moves (pack_res ib n t ob sz p))
  | KUnpack ib sz p ob n t _ => smap (is VInt) (s_moves (unpack_res ib sz p ob n t))
  | KPackSize n t _ => smap (is VInt) (s_query t (Pack_size c n))
  | KColl k => smap unit_out (s_moves (coll_res k))
  | KCartCreate _ n dims _ _ => smap (is VInt) (s_cart n dims)
  | KUser m => fun a => Ret (fun o => o = VUnit) (with_mem a m)
  end.

(** Every history of legal calls acts as specified: each call returns, aborts or exits as the specification says, with the
    specified outputs and memory; [P] holds where the history ends normally. *)
Fixpoint after (calls : list call) (s : sys) (a : astate) (P : sys -> astate -> Prop) : Prop :=
  match calls with
  | [] => P s a
  | k :: r => legal k a ->
      match exec c k s, spec k a with
      | Ok (o, s'), Ret Q a' => Q o /\ s_mem s' = a_mem a' /\ after r s' a' P
      | Abort w, SAbort w' => w = w'
      | Exit n w, SExit n' w' => n = n' /\ w = w'
      | _, _ => False
      end
  end.

(** The concrete state [s] does from now on whatever the specification says of [a]. *)
Definition behaves (s : sys) (a : astate) : Prop := forall calls, after calls s a (fun _ _ => True).

End SysSpec.

(** Model of the library state and of send.c, recv.c, req.c, probe.c, getcount.c, comm.c, the life cycle in mpi.c and the
    handle-level datatype calls of type.c.

    Every MPI function modelled here returns MPI_SUCCESS whenever it returns, so the return code is not represented.
    Output arguments are results.  A variable passed by address (a request, a status) is passed by value and its new value
    is a result: the caller's variables are assumed not to overlap the message buffers or each other.
    INFO, DEBUG and CHECKS code is compiled out (the default). *)
From Verif Require Import Base ListModel HandleModel TypeModel CopyModel.

(** mpi.h 10. *)
Definition MPI_COMM_WORLD : Z := 1.
(** mpi.h 11. *)
Definition MPI_COMM_NULL : Z := 0.
(** mpi.h 160. *)
Definition MPI_REQUEST_NULL : Z := 0.
(** mpi.h 74. *)
Definition MPI_DATATYPE_NULL : Z := 0.
(** mpi.h 154. *)
Definition MPI_ANY_TAG : Z := -1.
(** mpi.h 156. *)
Definition MPI_ANY_SOURCE : Z := -1.
(** mpi.h 157. *)
Definition MPI_PROC_NULL : Z := -2.
(** mpi.h 158. *)
Definition MPI_ROOT : Z := -3.
(** mpi.h 60. *)
Definition MPI_UNDEFINED : Z := -1.
(** mpi.h 18. *)
Definition MPI_GROUP_NULL : Z := 0.
(** mpi.h 17. *)
Definition MPI_GROUP_EMPTY : Z := -1.
(** mpiP.h 76. *)
Definition MPI_GROUP_ONE : Z := 1.

(** handles.c 31-38: the address of the data of an item, as the pair of block and index. *)
Definition slot : Type := (Z * Z)%type.

(** mpiP.h 82-89: Comm (the two lists and the serial number). *)
Record comm_obj := mkComm { c_send : Z; c_recv : Z; c_num : Z }.
(** mpiP.h 93-103: Req.  [r_type] is a datatype handle, [r_item] the pListitem. *)
Record req_obj := mkReq {
  r_item : option Z; r_buf : Z; r_source : Z; r_tag : Z; r_complete : Z; r_count : Z; r_type : Z
}.
(** handles.c 31-38: the union in each slot.  [OType n] holds the address of datatype object [n].
    Reading a slot as another member than the one last written is treated as undefined, except that a slot just
    handed out by mpi_alloc_handle may be written field by field ([as_req]); [ORaw] is anything else. *)
Inductive obj := OComm (x : comm_obj) | OReq (r : req_obj) | OType (n : Z) | ORaw.

(** The whole library state, plus user memory.  [s_types]: the malloc'ed datatype objects.
    [s_init]: mpi.c 7.  [s_num]: the static counter in comm.c 17.
    [s_time] counts allocations and selects the junk found in fresh storage. *)
Record sys := mkSys {
  s_tab : htab obj; s_lists : lheap slot; s_types : Z -> option typestruct; s_tnext : Z;
  s_mem : mem; s_init : Z; s_num : Z;
  s_time : Z; s_rjunk : Z -> req_obj; s_tjunk : Z -> tjunk
}.
(** A change of the handle table (handles.c 68-74). *)
Definition set_tab s x := mkSys x (s_lists s) (s_types s) (s_tnext s) (s_mem s) (s_init s) (s_num s) (s_time s) (s_rjunk s) (s_tjunk s).
(** A change of the lists (list.c 21-22 and the heap). *)
Definition set_lists s x := mkSys (s_tab s) x (s_types s) (s_tnext s) (s_mem s) (s_init s) (s_num s) (s_time s) (s_rjunk s) (s_tjunk s).
(** A malloc, free or change of a datatype object (type.c 311, 817, 802). *)
Definition set_types s x n := mkSys (s_tab s) (s_lists s) x n (s_mem s) (s_init s) (s_num s) (s_time s) (s_rjunk s) (s_tjunk s).
(** A change of user memory (copy.c 85). *)
Definition set_mem s x := mkSys (s_tab s) (s_lists s) (s_types s) (s_tnext s) x (s_init s) (s_num s) (s_time s) (s_rjunk s) (s_tjunk s).
(** mpi.c 7: a store to initialized. *)
Definition set_init s x := mkSys (s_tab s) (s_lists s) (s_types s) (s_tnext s) (s_mem s) x (s_num s) (s_time s) (s_rjunk s) (s_tjunk s).
(** comm.c 17, 24: the static counter num. *)
Definition set_num s x := mkSys (s_tab s) (s_lists s) (s_types s) (s_tnext s) (s_mem s) (s_init s) x (s_time s) (s_rjunk s) (s_tjunk s).
(** One allocation more; chooses the next junk (e.g. type.c 311). *)
Definition tick s := mkSys (s_tab s) (s_lists s) (s_types s) (s_tnext s) (s_mem s) (s_init s) (s_num s) (s_time s + 1) (s_rjunk s) (s_tjunk s).

(** Functions that read and change the state (the static variables of handles.c 68-74, list.c 21-22, mpi.c 7, comm.c 17, and memory). *)
Definition M (A : Type) : Type := sys -> res (A * sys).
(** Returning a value, e.g. handles.c 256, changes nothing. *)
Definition ret {A} (a : A) : M A := fun s => Ok (a, s).
(** One statement after another, e.g. comm.c 19-26. *)
Definition mbind {A B} (e : M A) (f : A -> M B) : M B := fun s => do (a, s) <- e s; f a s.
Notation "'let*' x ':=' e 'in' f" := (mbind e (fun x => f))
  (at level 200, x pattern, e at level 100, f at level 200, right associativity).
(** A computation that neither reads nor changes the state, e.g. type.c 204. *)
Definition pure {A} (r : res A) : M A := fun s => do a <- r; Ok (a, s).
(** A computation that only reads the state, e.g. list.c 194. *)
Definition gets {A} (f : sys -> res A) : M A := fun s => do a <- f s; Ok (a, s).

(** handles.c 247-266: mpi_handle_to_ptr on the state. *)
Definition handle_ptr (h : Z) : M (option slot) := fun s =>
  do (p, t) <- handle_to_ptr h (s_tab s); Ok (p, set_tab s t).
(** Using the pointer that mpi_handle_to_ptr gave, e.g. req.c 37; handle 0 gives NULL (handles.c 255-256). *)
Definition slot_of (p : option slot) : res slot :=
  match p with Some q => Ok q | None => UB "NULL handle" end.
(** handles.c 270-309: mpi_free_handle on the state. *)
Definition release (h : Z) : M unit := fun s => do t <- free_handle h (s_tab s); Ok (tt, set_tab s t).
(** Reading the union of an item (handles.c 31-38). *)
Definition read_slot (p : slot) : M obj := gets (fun s => h_read (s_tab s) p).
(** Writing the union of an item (handles.c 31-38). *)
Definition write_slot (p : slot) (o : obj) : M unit := fun s => do t <- h_write (s_tab s) p o; Ok (tt, set_tab s t).

(** A Comm read through a pointer, e.g. send.c 65, recv.c 75: NULL or another object is undefined. *)
Definition get_comm (p : option slot) : M comm_obj :=
  let* p := pure (slot_of p) in
  let* o := read_slot p in
  match o with OComm x => ret x | _ => pure (UB "not a communicator") end.
(** A Req read through a pointer, e.g. req.c 37: another object is undefined. *)
Definition get_req (p : slot) : M req_obj :=
  let* o := read_slot p in
  match o with OReq r => ret r | _ => pure (UB "not a request") end.
(** Stores to members of a Req, e.g. recv.c 63-64. *)
Definition upd_req (p : slot) (f : req_obj -> req_obj) : M unit :=
  let* r := get_req p in write_slot p (OReq (f r)).
(** The members a fresh Req (handles.c 31-38) holds: what an earlier request left there, or junk. *)
Definition as_req (s : sys) (o : obj) : req_obj := match o with OReq r => r | _ => s_rjunk s (s_time s) end.
(** handles.c 178-225: mpi_alloc_handle on the state. *)
Definition alloc_slot : M (Z * slot) := fun s =>
  do (h, p, t) <- alloc_handle (s_tab s); Ok ((h, p), tick (set_tab s t)).
(** handles.c 178-225: mpi_alloc_handle for a request: the fields keep what an earlier request left there, or hold junk. *)
Definition alloc_req : M (Z * slot) :=
  let* (h, p) := alloc_slot in
  let* o := read_slot p in
  let* r := gets (fun s => Ok (as_req s o)) in
  let* _ := write_slot p (OReq r) in
  ret (h, p).

(** list.c 123-141: AP_list_new on the state. *)
Definition l_new : M Z := fun s => do (l, h) <- list_new (s_lists s); Ok (l, set_lists s h).
(** list.c 154-181: AP_list_free on the state. *)
Definition l_free (l : Z) : M unit := fun s => do h <- list_free l (s_lists s); Ok (tt, set_lists s h).
(** list.c 192-195: AP_list_size on the state. *)
Definition l_size (l : Z) : M Z := gets (fun s => list_size l (s_lists s)).
(** list.c 241-263: AP_list_append on the state. *)
Definition l_append (l : Z) (p : slot) : M Z := fun s => do (i, h) <- list_append l p (s_lists s); Ok (i, set_lists s h).
(** list.c 291-318: AP_list_delete_item on the state. *)
Definition l_delete (l : Z) (i : option Z) : M unit := fun s => do h <- list_delete_item l i (s_lists s); Ok (tt, set_lists s h).
(** list.c 104-107: AP_listitem_data on the state. *)
Definition l_data (i : option Z) : M slot := gets (fun s => listitem_data (s_lists s) i).
(** send.c 13-14, recv.c 15-16, probe.c 6-7: the Req the match functions look at. *)
Definition slot_req (s : sys) (p : slot) : res req_obj :=
  do o <- h_read (s_tab s) p; match o with OReq r => Ok r | _ => UB "not a request" end.
(** list.c 446-463: AP_list_search_func with a predicate on the request an item points to (send.c 11-15, recv.c 13-17). *)
Definition l_search (l : Z) (f : req_obj -> bool) : M (option Z) :=
  gets (fun s => list_search_func l (fun p => do r <- slot_req s p; Ok (f r)) (s_lists s)).

(** mpiP.h 95: the member listitem. *)
Definition w_item x r := mkReq x (r_buf r) (r_source r) (r_tag r) (r_complete r) (r_count r) (r_type r).
(** mpiP.h 97: the member buf. *)
Definition w_buf x r := mkReq (r_item r) x (r_source r) (r_tag r) (r_complete r) (r_count r) (r_type r).
(** mpiP.h 98: the member source. *)
Definition w_source x r := mkReq (r_item r) (r_buf r) x (r_tag r) (r_complete r) (r_count r) (r_type r).
(** mpiP.h 99: the member tag. *)
Definition w_tag x r := mkReq (r_item r) (r_buf r) (r_source r) x (r_complete r) (r_count r) (r_type r).
(** mpiP.h 100: the member complete. *)
Definition w_complete x r := mkReq (r_item r) (r_buf r) (r_source r) (r_tag r) x (r_count r) (r_type r).
(** mpiP.h 101: the member count. *)
Definition w_rcount x r := mkReq (r_item r) (r_buf r) (r_source r) (r_tag r) (r_complete r) x (r_type r).
(** mpiP.h 102: the member type. *)
Definition w_rtype x r := mkReq (r_item r) (r_buf r) (r_source r) (r_tag r) (r_complete r) (r_count r) x.

Section SysModel.
Variable c : cfg.

(** type.c 33-39: mpi_handle_to_datatype followed by the dereference; [Some n] also names the heap object. *)
Definition get_type (handle : Z) : M (option Z * typestruct) :=
  if handle <? 0 then let* t := pure (predefined c handle) in ret (None, t)
  else
    let* p := handle_ptr handle in
    let* p := pure (slot_of p) in
    let* o := read_slot p in
    match o with
    | OType n => let* t := gets (fun s => match s_types s n with Some t => Ok t | None => UB "dangling datatype" end) in
                 ret (Some n, t)
    | _ => pure (UB "not a datatype")
    end.

(** copy.c 30-37: copy_data2. *)
Definition copy_data2 (source src_count src_type dest dest_count dest_type : Z) : M unit :=
  let* st := get_type src_type in
  let* dt := get_type dest_type in
  fun s => do m <- Pcopy_data2 c (s_mem s) source src_count (snd st) dest dest_count (snd dt);
           Ok (tt, set_mem s m).

(** send.c 11-15, recv.c 13-17 (and probe.c 4-8): mpi_match_recv, mpi_match_send. *)
Definition match_recv (tag : Z) (r : req_obj) : bool := (r_tag r =? MPI_ANY_TAG) || (r_tag r =? tag).
(** recv.c 13-17, probe.c 4-8: mpi_match_send. *)
Definition match_send (tag : Z) (r : req_obj) : bool := (tag =? MPI_ANY_TAG) || (tag =? r_tag r).

(** send.c 36-95: MPI_Isend; the result is the request. *)
Definition MPI_Isend (buf count datatype dest tag comm : Z) : M Z :=
  let* mycomm := handle_ptr comm in
  if negb (dest =? 0) && negb (dest =? MPI_PROC_NULL) then pure (Abort "MPI_Isend: send to") else
  let* (request, sreq) := alloc_req in
  if dest =? MPI_PROC_NULL then
    let* _ := upd_req sreq (w_complete 1) in ret request
  else
    let* cm := get_comm mycomm in
    let* m := l_search (c_recv cm) (match_recv tag) in
    match m with
    | Some _ =>
        let* rreq := l_data m in
        let* _ := l_delete (c_recv cm) m in
        let* r := get_req rreq in
        let* _ := copy_data2 buf count datatype (r_buf r) (r_count r) (r_type r) in
        let* _ := upd_req rreq (w_complete 1) in
        let* _ := upd_req rreq (w_source 0) in
        let* _ := upd_req rreq (w_tag tag) in
        let* _ := upd_req sreq (w_complete 1) in
        ret request
    | None =>
        let* _ := upd_req sreq (w_buf buf) in
        let* _ := upd_req sreq (w_tag tag) in
        let* _ := upd_req sreq (w_complete 0) in
        let* i := l_append (c_send cm) sreq in
        let* _ := upd_req sreq (w_item (Some i)) in
        ret request
    end.

(** recv.c 40-106: MPI_Irecv. *)
Definition MPI_Irecv (buf count datatype source tag comm : Z) : M Z :=
  let* mycomm := handle_ptr comm in
  if negb (source =? 0) && negb (source =? MPI_ANY_SOURCE) && negb (source =? MPI_PROC_NULL)
  then pure (Abort "MPI_Irecv: bad source") else
  let* (request, rreq) := alloc_req in
  let* _ := upd_req rreq (w_rtype datatype) in
  let* _ := upd_req rreq (w_rcount count) in
  if source =? MPI_PROC_NULL then
    let* _ := upd_req rreq (w_complete 1) in
    let* _ := upd_req rreq (w_source MPI_PROC_NULL) in
    let* _ := upd_req rreq (w_tag MPI_ANY_TAG) in
    ret request
  else
    let* cm := get_comm mycomm in
    let* m := l_search (c_send cm) (match_send tag) in
    match m with
    | Some _ =>
        let* sreq := l_data m in
        let* _ := l_delete (c_send cm) m in
        let* sr := get_req sreq in
        let* _ := copy_data2 (r_buf sr) count datatype buf count datatype in
        let* _ := upd_req rreq (w_complete 1) in
        let* _ := upd_req rreq (w_source 0) in
        let* sr := get_req sreq in
        let* _ := upd_req rreq (w_tag (r_tag sr)) in
        let* _ := upd_req sreq (w_complete 1) in
        ret request
    | None =>
        let* _ := upd_req rreq (w_buf buf) in
        let* _ := upd_req rreq (w_tag tag) in
        let* _ := upd_req rreq (w_complete 0) in
        let* i := l_append (c_recv cm) rreq in
        let* _ := upd_req rreq (w_item (Some i)) in
        ret request
    end.

(** mpi.h 183-191: MPI_Status.  A status argument is MPI_STATUS_IGNORE, a status variable, or an address that is neither
    (writing through it is undefined). *)
Record status := mkStatus { st_source : Z; st_tag : Z; st_error : Z; st_count : Z }.
(** A status argument, e.g. of req.c 19; see above. *)
Inductive sarg := SIgnore | SAt (st : status) | SBad.
(** req.c 41-45: storing source and tag unless the argument is MPI_STATUS_IGNORE. *)
Definition set_status (st : sarg) (source tag : Z) : res sarg :=
  match st with
  | SIgnore => Ok SIgnore
  | SAt x => Ok (SAt (mkStatus source tag (st_error x) (st_count x)))
  | SBad => UB "bad status pointer"
  end.

(** req.c 19-52: MPI_Test; results are the request variable, the flag and the status. *)
Definition MPI_Test (request : Z) (st : sarg) : M (Z * Z * sarg) :=
  if request =? MPI_REQUEST_NULL then
    let* st := pure (set_status st MPI_ANY_SOURCE MPI_ANY_TAG) in ret (request, 1, st)
  else
    let* p := handle_ptr request in
    let* p := pure (slot_of p) in
    let* r := get_req p in
    let flag := r_complete r in
    if negb (flag =? 0) then
      let* st := pure (set_status st (r_source r) (r_tag r)) in
      let* _ := release request in
      ret (MPI_REQUEST_NULL, flag, st)
    else ret (request, flag, st).

(** req.c 64-77: MPI_Wait. *)
Definition MPI_Wait (request : Z) (st : sarg) : M (Z * sarg) :=
  let* (request, flag, st) := MPI_Test request st in
  if flag =? 0 then pure (Abort "MPI_Wait: request not complete, deadlock") else ret (request, st).

(** send.c 110-126, 143-147, 163-167: MPI_Send, MPI_Ssend, MPI_Rsend.  The local status holds junk at first. *)
Definition junk_status : status := mkStatus 0 0 0 0.
(** send.c 110-126: MPI_Send. *)
Definition MPI_Send (buf count datatype dest tag comm : Z) : M unit :=
  let* request := MPI_Isend buf count datatype dest tag comm in
  let* _ := MPI_Wait request (SAt junk_status) in
  ret tt.
(** send.c 143-147: MPI_Ssend. *)
Definition MPI_Ssend (buf count datatype dest tag comm : Z) : M unit := MPI_Send buf count datatype dest tag comm.
(** send.c 163-167: MPI_Rsend. *)
Definition MPI_Rsend (buf count datatype dest tag comm : Z) : M unit := MPI_Send buf count datatype dest tag comm.

(** send.c 188-211: MPI_Irsend. *)
Definition MPI_Irsend (buf count datatype dest tag comm : Z) : M Z :=
  let* request := MPI_Isend buf count datatype dest tag comm in
  let* p := handle_ptr request in
  let* p := pure (slot_of p) in
  let* r := get_req p in
  if r_complete r =? 0 then pure (Abort "MPI_Irsend: no matching receive found") else ret request.

(** recv.c 123-141: MPI_Recv. *)
Definition set_count (st : sarg) (n : Z) : res sarg :=
  match st with
  | SIgnore => Ok SIgnore
  | SAt x => Ok (SAt (mkStatus (st_source x) (st_tag x) (st_error x) n))
  | SBad => UB "bad status pointer"
  end.
(** recv.c 123-141: MPI_Recv. *)
Definition MPI_Recv (buf count datatype source tag comm : Z) (st : sarg) : M sarg :=
  let* request := MPI_Irecv buf count datatype source tag comm in
  let* (_, st) := MPI_Wait request st in
  pure (set_count st count).

(** send.c 233-250: MPI_Sendrecv. *)
Definition MPI_Sendrecv (sendbuf sendcount sendtype dest sendtag recvbuf recvcount recvtype source recvtag comm : Z)
    (st : sarg) : M sarg :=
  let* request := MPI_Irecv recvbuf recvcount recvtype source recvtag comm in
  let* _ := MPI_Send sendbuf sendcount sendtype dest sendtag comm in
  let* (_, st) := MPI_Wait request st in
  ret st.

(** probe.c 21-60: MPI_Iprobe. *)
Definition MPI_Iprobe (source tag comm : Z) (st : sarg) : M (Z * sarg) :=
  let* mycomm := handle_ptr comm in
  if negb (source =? 0) && negb (source =? MPI_ANY_SOURCE) then pure (Abort "MPI_Irecv: bad source") else
  let* cm := get_comm mycomm in
  let* m := l_search (c_send cm) (match_send tag) in
  match m with
  | None => ret (0, st)
  | Some _ =>
      let* sreq := l_data m in
      match st with
      | SIgnore => ret (1, st)
      | _ => let* r := get_req sreq in
             let* st := pure (set_status st 0 (r_tag r)) in ret (1, st)
      end
  end.

(** probe.c 75-89: MPI_Probe. *)
Definition MPI_Probe (source tag comm : Z) (st : sarg) : M sarg :=
  let* (flag, st) := MPI_Iprobe source tag comm st in
  if flag =? 0 then pure (Abort "MPI_Probe: no existing match, deadlock") else ret st.

(** getcount.c 19-23: MPI_Get_count; 37-42: MPI_Get_elements. *)
Definition MPI_Get_count (st : status) (datatype : Z) : Z := st_count st.
(** getcount.c 37-42: MPI_Get_elements. *)
Definition MPI_Get_elements (st : status) (datatype : Z) : M Z :=
  let* t := get_type datatype in pure (chk_int (st_count st * ts_count (snd t))).

(** Status array argument (req.c 193-194): MPI_STATUSES_IGNORE (mpi.h 194) or an array. *)
Inductive sargs := SSIgnore | SSAt (sts : list status).
(** [&array_of_statuses[i]], e.g. req.c 201: for MPI_STATUSES_IGNORE, NULL for i = 0 only; outside the array it is no status. *)
Definition sts_get (sts : sargs) (i : Z) : sarg :=
  match sts with
  | SSIgnore => if i =? 0 then SIgnore else SBad
  | SSAt l => match arr_get l i with Ok x => SAt x | _ => SBad end
  end.
(** What MPI_Test (req.c 19-52) stored through [&array_of_statuses[i]]. *)
Definition sts_put (sts : sargs) (i : Z) (st : sarg) : sargs :=
  match sts, st with
  | SSAt l, SAt x => SSAt (list_upd l (Z.to_nat i) x)
  | _, _ => sts
  end.
(** One iteration of the array functions, e.g. req.c 201: MPI_Test(&array_of_requests[i],&flag,&array_of_statuses[i]). *)
Definition test_at (reqs : list Z) (sts : sargs) (i : Z) : M (list Z * sargs * Z) :=
  let* r := pure (arr_get reqs i) in
  let* (r, flag, st) := MPI_Test r (sts_get sts i) in
  let* reqs := pure (arr_set reqs i r) in
  ret (reqs, sts_put sts i st, flag).

(** A C for loop over the state, e.g. req.c 199-208. *)
Definition mfor {B} (n : Z) (body : Z -> B -> M B) (b : B) : M B := fun s =>
  for_loop 0 n (fun i bs => body i (fst bs) (snd bs)) (b, s).

(** req.c 126-143: MPI_Testany.  [index] is never written. *)
Fixpoint testany_from (n : nat) (i : Z) (reqs : list Z) (st : sarg) : M (list Z * Z * sarg) :=
  match n with
  | O => ret (reqs, 0, st)
  | S n =>
      let* r := pure (arr_get reqs i) in
      let* (r, flag, st) := MPI_Test r st in
      let* reqs := pure (arr_set reqs i r) in
      if negb (flag =? 0) then ret (reqs, flag, st) else testany_from n (i + 1) reqs st
  end.
(** req.c 126-143: MPI_Testany. *)
Definition MPI_Testany (count : Z) (reqs : list Z) (index : Z) (st : sarg) : M (list Z * Z * Z * sarg) :=
  let* (reqs, flag, st) := testany_from (Z.to_nat count) 0 reqs st in ret (reqs, index, flag, st).
(** req.c 93-110: MPI_Waitany. *)
Definition MPI_Waitany (count : Z) (reqs : list Z) (index : Z) (st : sarg) : M (list Z * Z * sarg) :=
  let* (reqs, index, flag, st) := MPI_Testany count reqs index st in
  if flag =? 0 then pure (Abort "MPI_Waitany: no requests complete, deadlock") else ret (reqs, index, st).

(** req.c 158-175: MPI_Testall.  The loop condition tests the pointer [flag], which is not NULL. *)
Definition MPI_Testall (count : Z) (reqs : list Z) (sts : sargs) : M (list Z * Z * sargs) :=
  let* (reqs, flag, sts) := mfor count (fun i x =>
     let '(reqs, flag, sts) := x in
     let* (reqs, sts, iflag) := test_at reqs sts i in
     ret (reqs, (if iflag =? 0 then 0 else flag), sts)) (reqs, 1, sts) in
  ret (reqs, flag, sts).

(** req.c 193-211: MPI_Waitall. *)
Definition MPI_Waitall (count : Z) (reqs : list Z) (sts : sargs) : M (list Z * sargs) :=
  mfor count (fun i x =>
     let '(reqs, sts) := x in
     let* (reqs, sts, flag) := test_at reqs sts i in
     if flag =? 0 then pure (Abort "MPI_Waitall: request not complete, deadlock") else ret (reqs, sts)) (reqs, sts).

(** req.c 226-244: MPI_Testsome.  [indices] is never written. *)
Definition MPI_Testsome (incount : Z) (reqs : list Z) (indices : list Z) (sts : sargs) : M (list Z * Z * list Z * sargs) :=
  let* (reqs, outcount, sts) := mfor incount (fun i x =>
     let '(reqs, outcount, sts) := x in
     let* (reqs, sts, flag) := test_at reqs sts i in
     if flag =? 0 then ret (reqs, outcount, sts)
     else let* n := pure (chk_int (outcount + 1)) in ret (reqs, n, sts)) (reqs, 0, sts) in
  ret (reqs, outcount, indices, sts).
(** req.c 259-272: MPI_Waitsome.  [!outcount] tests the pointer, which is not NULL, so it never aborts. *)
Definition MPI_Waitsome (incount : Z) (reqs : list Z) (indices : list Z) (sts : sargs) : M (list Z * Z * list Z * sargs) :=
  MPI_Testsome incount reqs indices sts.

(** req.c 285-290: MPI_Request_free. *)
Definition MPI_Request_free (req : Z) : M Z :=
  let* _ := release req in ret MPI_REQUEST_NULL.

(** comm.c 13-27: mpi_comm_new. *)
Definition comm_new : M Z :=
  let* (chandle, cptr) := alloc_slot in
  let* sl := l_new in
  let* rl := l_new in
  let* num := gets (fun s => Ok (s_num s)) in
  let* next := pure (chk_int (num + 1)) in
  let* _ := write_slot cptr (OComm (mkComm sl rl num)) in
  fun s => Ok (chandle, set_num s next).

(** comm.c 50-78: MPI_Comm_free.  The results are the new value of the variable and the numbers in the two warnings on
    stderr (pending sends, pending receives), if printed. *)
Definition warning (size : Z) : option Z := if negb (size =? 0) then Some size else None.
(** comm.c 50-78: MPI_Comm_free; also the lists freed. *)
Definition MPI_Comm_free (comm : Z) : M (Z * option Z * option Z) :=
  let* mycomm := handle_ptr comm in
  let* cm := get_comm mycomm in
  let* ns := l_size (c_send cm) in
  let* _ := l_free (c_send cm) in
  let* nr := l_size (c_recv cm) in
  let* _ := l_free (c_recv cm) in
  let* _ := release comm in
  ret (MPI_COMM_NULL, warning ns, warning nr).

(** comm.c 93-116: MPI_Comm_size, MPI_Comm_rank. *)
Definition MPI_Comm_size (comm : Z) : Z := 1.
(** comm.c 111-116: MPI_Comm_rank. *)
Definition MPI_Comm_rank (comm : Z) : Z := 0.
(** comm.c 132-142: MPI_Comm_dup. *)
Definition MPI_Comm_dup (comm : Z) : M Z := comm_new.
(** comm.c 157-165: MPI_Comm_create. *)
Definition MPI_Comm_create (comm group : Z) : M Z :=
  if (group =? MPI_GROUP_NULL) || (group =? MPI_GROUP_EMPTY) then ret MPI_COMM_NULL else comm_new.
(** comm.c 182-190: MPI_Comm_split. *)
Definition MPI_Comm_split (comm color key : Z) : M Z :=
  if color =? MPI_UNDEFINED then ret MPI_COMM_NULL else comm_new.
(** comm.c 205-213: MPI_Comm_group. *)
Definition MPI_Comm_group (comm : Z) : Z := if comm =? MPI_COMM_NULL then MPI_GROUP_NULL else MPI_GROUP_ONE.
(** comm.c 229-239: MPI_Intercomm_create. *)
Definition MPI_Intercomm_create (local_comm local_leader peer_comm remote_leader tag : Z) : M Z :=
  if (local_comm =? MPI_COMM_NULL) && (peer_comm =? MPI_COMM_NULL) then ret MPI_COMM_NULL
  else MPI_Comm_dup MPI_COMM_WORLD.

(** mpi.c 164-189: MPI_Init (LP64: the sizeof test passes; the Fortran call-back only stores three addresses). *)
Definition MPI_Init : M unit :=
  let* my_comm_world := comm_new in
  if negb (my_comm_world =? MPI_COMM_WORLD) then pure (Abort "MPI_Init: conflicting MPI_COMM_WORLD") else
  fun s => Ok (tt, set_init s 1).
(** mpi.c 158-162: MPI_Init_thread; the result is [provided]. *)
Definition MPI_Init_thread (required : Z) : M Z :=
  let* _ := MPI_Init in ret required.
(** mpi.c 211-218: MPI_Finalize. *)
Definition MPI_Finalize : M unit := fun s =>
  let s := set_init s 0 in Ok (tt, set_tab s (destroy_handles (s_tab s))).
(** mpi.c 299-304: MPI_Initialized. *)
Definition MPI_Initialized : M Z := gets (fun s => Ok (s_init s)).
(** mpi.c 232-236: MPI_Abort. *)
Definition MPI_Abort (comm errorcode : Z) : M unit := pure (Exit errorcode "MPI_Abort").

(** type.c 403-419, 454-462, 494-520, 548-557, 585-593, 623-631, 656-664: the datatype constructors with handles as arguments. *)
Inductive tcons :=
| TStruct (count : Z) (blocklens displacements oldtypes : list Z)
| TContiguous (count old : Z)
| THvector (count blocklen stride old : Z)
| TVector (count blocklen stride old : Z)
| THindexed (count : Z) (blocklens displacements : list Z) (old : Z)
| TIndexed (count : Z) (blocklens displacements : list Z) (old : Z)
| TIndexedBlock (count blocklen : Z) (displacements : list Z) (old : Z).

(** type.c 410-413: the loop translating the handles. *)
Definition get_types (count : Z) (hs : list Z) : M (list typestruct) :=
  let* _ := pure (vla count) in
  mfor count (fun i acc => let* h := pure (arr_get hs i) in let* t := get_type h in ret (acc ++ [snd t])) [].

(** Storing the new object: type.c 312 (malloc in Type_struct) and the handle slot. *)
Definition new_type (p : slot) (make : tjunk -> res typestruct) : M unit := fun s =>
  do t <- make (s_tjunk s (s_tnext s));
  let s' := set_types s (upd (s_types s) (s_tnext s) (Some t)) (s_tnext s + 1) in
  write_slot p (OType (s_tnext s)) s'.

(** type.c 403-419, 454-462, 494-520, 548-557, 585-593, 623-631, 656-664: the public constructors. *)
Definition MPI_Type_create (k : tcons) : M Z :=
  match k with
  | TStruct count bl ds olds =>
      let* ts := get_types count olds in
      let* (h, p) := alloc_slot in
      let* _ := new_type p (fun jk => Type_struct c jk count bl ds ts) in ret h
  | TContiguous count old =>
      let* t := get_type old in let* (h, p) := alloc_slot in
      let* _ := new_type p (fun jk => Type_contiguous c jk count (snd t)) in ret h
  | THvector count bl stride old =>
      let* t := get_type old in let* (h, p) := alloc_slot in
      let* _ := new_type p (fun jk => Type_hvector c jk count bl stride (snd t)) in ret h
  | TVector count bl stride old =>
      let* t := get_type old in let* (h, p) := alloc_slot in
      let* _ := new_type p (fun jk => Type_vector c jk count bl stride (snd t)) in ret h
  | THindexed count bl ds old =>
      let* t := get_type old in let* (h, p) := alloc_slot in
      let* _ := new_type p (fun jk => Type_hindexed c jk count bl ds (snd t)) in ret h
  | TIndexed count bl ds old =>
      let* t := get_type old in let* (h, p) := alloc_slot in
      let* _ := new_type p (fun jk => Type_indexed c jk count bl ds (snd t)) in ret h
  | TIndexedBlock count bl ds old =>
      let* t := get_type old in let* (h, p) := alloc_slot in
      let* _ := new_type p (fun jk => Type_create_indexed_block c jk count bl ds (snd t)) in ret h
  end.

(** type.c 799-805: MPI_Type_commit.  Every predefined type is committed already, so the store changes nothing there. *)
Definition MPI_Type_commit (h : Z) : M unit :=
  let* t := get_type h in
  match fst t with
  | None => ret tt
  | Some n => fun s => Ok (tt, set_types s (upd (s_types s) n (Some (Type_commit (snd t)))) (s_tnext s))
  end.

(** type.c 814-823: MPI_Type_free.  The assignment to [type_ptr] changes a local variable only: the caller's
    handle variable keeps its value, which is the result.  free() of a static object is undefined. *)
Definition MPI_Type_free (h : Z) : M Z :=
  let* t := get_type h in
  match fst t with
  | None => pure (UB "free of a static object")
  | Some n =>
      let* _ := (fun s => Ok (tt, set_types s (upd (s_types s) n None) (s_tnext s))) in
      let* _ := release h in ret h
  end.

(** type.c 707-711, 728-733, 750-755, 213-222: queries. *)
Definition MPI_Type_size (h : Z) : M Z := let* t := get_type h in pure (Type_size c (snd t)).
(** type.c 216-221: MPI_Type_extent. *)
Definition MPI_Type_extent (h : Z) : M Z := let* t := get_type h in pure (Type_extent c (snd t)).
(** type.c 728-733: MPI_Type_lb. *)
Definition MPI_Type_lb (h : Z) : M Z := let* t := get_type h in ret (Type_lb (snd t)).
(** type.c 750-755: MPI_Type_ub. *)
Definition MPI_Type_ub (h : Z) : M Z := let* t := get_type h in ret (Type_ub (snd t)).

End SysModel.

(** Program start: static storage is zero (handles.c 68-74, list.c 21-22, mpi.c 7, comm.c 17); the contents of storage handed
    out later are arbitrary. *)
Definition sys_start (hj : Z -> Z -> hitem obj) (lj : Z -> item slot) (rj : Z -> req_obj) (tj : Z -> tjunk) (m : mem) : sys :=
  mkSys (htab_init hj) (lheap_init lj) (fun _ => None) 0 m 0 0 0 rj tj.

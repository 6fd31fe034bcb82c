(** The calls as compiled with INFO, DEBUG or HANDLE_INFO defined, which makes them print what they do.

    A call gives its result and what it printed.  The preprocessor symbols are parameters.  INFO and HANDLE_INFO print to stderr,
    DEBUG to stdout; the two streams are not told apart here, and fflush is left out.  What a call printed before it ended the
    program is not kept.  With INFO, probe.c 31-35 names the variables count and datatype, which MPI_Iprobe does not have, so
    probe.c does not compile then; the other files do. *)
From Verif Require Import Base ListModel HandleModel TypeModel CopyModel SysModel FortModel PrintModel.

(** *(int * )buf in send.c 79, recv.c 90: four bytes, little endian.  Outside memory this is undefined, and in ISO C ([strict]) at a
    misaligned address too. *)
Definition load_int (strict : bool) (m : mem) (a : Z) : res Z :=
  if strict && negb (a mod 4 =? 0) then UB "misaligned int" else do v <- load 4 m a; Ok (to_s32 v).

Section Traced.
Variable c : cfg.
Variable strict : bool.
(** #ifdef INFO (comm.c 136, recv.c 50, 101, 128, send.c 45, 90, 116) and #ifdef DEBUG (recv.c 88, send.c 77). *)
Variables info debug : bool.

(** #ifdef ... #endif around something that prints, e.g. send.c 45-49. *)
Definition when (on : bool) (e : M (list shown)) : M (list shown) := if on then e else ret [].

(** send.c 47-48, recv.c 52-53: the first line. *)
Definition say_call (name : string) (mycomm : option slot) (tag count datatype : Z) : M (list shown) :=
  let* cm := get_comm mycomm in
  pure (printf strict [Lit name; Lit ": Comm="; PctD; Lit "  tag="; PctD; Lit "  count="; PctD; Lit " type="; PctD; Lit "\n"]
                      [AInt (c_num cm); AInt tag; AInt count; AInt datatype]).
(** send.c 78-79, recv.c 89-90: the line for a completed message. *)
Definition say_done (what : string) (buf : Z) (rreq : slot) : M (list shown) :=
  let* v := gets (fun s => load_int strict (s_mem s) buf) in
  let* r := get_req rreq in
  pure (printf strict [Lit "Completion("; Lit what; Lit ") value="; PctD; Lit " tag="; PctD; Lit "\n"] [AInt v; AInt (r_tag r)]).

(** send.c 36-95: MPI_Isend. *)
Definition tr_Isend (buf count datatype dest tag comm : Z) : M (Z * list shown) :=
  let* mycomm := handle_ptr comm in
  let* o := when info (say_call "MPI_Isend" mycomm tag count datatype) in
  if negb (dest =? 0) && negb (dest =? MPI_PROC_NULL) then pure (Abort "MPI_Isend: send to") else
  let* (request, sreq) := alloc_req in
  if dest =? MPI_PROC_NULL then
    let* _ := upd_req sreq (w_complete 1) in ret (request, o)
  else
    let* cm := get_comm mycomm in
    let* m := l_search (c_recv cm) (match_recv tag) in
    match m with
    | Some _ =>
        let* rreq := l_data m in
        let* _ := l_delete (c_recv cm) m in
        let* r := get_req rreq in
        let* _ := copy_data2 c buf count datatype (r_buf r) (r_count r) (r_type r) in
        let* _ := upd_req rreq (w_complete 1) in
        let* _ := upd_req rreq (w_source 0) in
        let* _ := upd_req rreq (w_tag tag) in
        let* _ := upd_req sreq (w_complete 1) in
        let* o' := when debug (say_done "send" buf rreq) in
        ret (request, o ++ o')
    | None =>
        let* _ := upd_req sreq (w_buf buf) in
        let* _ := upd_req sreq (w_tag tag) in
        let* _ := upd_req sreq (w_complete 0) in
        let* i := l_append (c_send cm) sreq in
        let* _ := upd_req sreq (w_item (Some i)) in
        let* o' := when info (let* cm := get_comm mycomm in gets (print_list strict (c_send cm) "sendlist for comm " (c_num cm))) in
        ret (request, o ++ o')
    end.

(** recv.c 40-106: MPI_Irecv. *)
Definition tr_Irecv (buf count datatype source tag comm : Z) : M (Z * list shown) :=
  let* mycomm := handle_ptr comm in
  let* o := when info (say_call "MPI_Irecv" mycomm tag count datatype) in
  if negb (source =? 0) && negb (source =? MPI_ANY_SOURCE) && negb (source =? MPI_PROC_NULL)
  then pure (Abort "MPI_Irecv: bad source") else
  let* (request, rreq) := alloc_req in
  let* _ := upd_req rreq (w_rtype datatype) in
  let* _ := upd_req rreq (w_rcount count) in
  if source =? MPI_PROC_NULL then
    let* _ := upd_req rreq (w_complete 1) in
    let* _ := upd_req rreq (w_source MPI_PROC_NULL) in
    let* _ := upd_req rreq (w_tag MPI_ANY_TAG) in
    ret (request, o)
  else
    let* cm := get_comm mycomm in
    let* m := l_search (c_send cm) (match_send tag) in
    match m with
    | Some _ =>
        let* sreq := l_data m in
        let* _ := l_delete (c_send cm) m in
        let* sr := get_req sreq in
        let* _ := copy_data2 c (r_buf sr) count datatype buf count datatype in
        let* _ := upd_req rreq (w_complete 1) in
        let* _ := upd_req rreq (w_source 0) in
        let* sr := get_req sreq in
        let* _ := upd_req rreq (w_tag (r_tag sr)) in
        let* _ := upd_req sreq (w_complete 1) in
        let* o' := when debug (say_done "recv" buf rreq) in
        ret (request, o ++ o')
    | None =>
        let* _ := upd_req rreq (w_buf buf) in
        let* _ := upd_req rreq (w_tag tag) in
        let* _ := upd_req rreq (w_complete 0) in
        let* i := l_append (c_recv cm) rreq in
        let* _ := upd_req rreq (w_item (Some i)) in
        let* o' := when info (let* cm := get_comm mycomm in gets (print_list strict (c_recv cm) "recvlist for comm " (c_num cm))) in
        ret (request, o ++ o')
    end.

(** send.c 110-126: MPI_Send. *)
Definition tr_Send (buf count datatype dest tag comm : Z) : M (unit * list shown) :=
  let* o := when info (pure (printf strict [Lit "MPI_Send: "] [])) in
  let* (request, o') := tr_Isend buf count datatype dest tag comm in
  let* _ := MPI_Wait request (SAt junk_status) in
  ret (tt, o ++ o').

(** recv.c 123-141: MPI_Recv. *)
Definition tr_Recv (buf count datatype source tag comm : Z) (st : sarg) : M (sarg * list shown) :=
  let* o := when info (pure (printf strict [Lit "MPI_Recv: "] [])) in
  let* (request, o') := tr_Irecv buf count datatype source tag comm in
  let* (_, st) := MPI_Wait request st in
  let* st := pure (set_count st count) in
  ret (st, o ++ o').

(** send.c 188-211: MPI_Irsend. *)
Definition tr_Irsend (buf count datatype dest tag comm : Z) : M (Z * list shown) :=
  let* (request, o) := tr_Isend buf count datatype dest tag comm in
  let* p := handle_ptr request in
  let* p := pure (slot_of p) in
  let* r := get_req p in
  if r_complete r =? 0 then pure (Abort "MPI_Irsend: no matching receive found") else ret (request, o).

(** send.c 233-250: MPI_Sendrecv. *)
Definition tr_Sendrecv (sendbuf sendcount sendtype dest sendtag recvbuf recvcount recvtype source recvtag comm : Z)
    (st : sarg) : M (sarg * list shown) :=
  let* (request, o) := tr_Irecv recvbuf recvcount recvtype source recvtag comm in
  let* (_, o') := tr_Send sendbuf sendcount sendtype dest sendtag comm in
  let* (_, st) := MPI_Wait request st in
  ret (st, o ++ o').

(** comm.c 132-142: MPI_Comm_dup. *)
Definition tr_Comm_dup (comm : Z) : M (Z * list shown) :=
  let* newcomm := comm_new in
  let* o := when info (pure (printf strict [Lit "MPI_Comm_dup: new comm handle="; PctD; Lit "\n"] [AInt newcomm])) in
  ret (newcomm, o).
End Traced.

(** handles.c 178-225: mpi_alloc_handle with HANDLE_INFO (219-223) when [on]; nblocks*BLOCK_ITEMS is an int. *)
Definition tr_alloc_handle {D : Type} (strict on : bool) (t : htab D) : res (Z * (Z * Z) * list shown * htab D) :=
  do t <- (if ht_need_init t then init_handles t else Ok t);
  match ht_nextfree t with
  | Some new =>
      do it <- h_get t new;
      let t := set_nextfree t (hi_next it) in
      do t <- h_put t new (mkHitem (hi_handle it) None (hi_data it));
      Ok (hi_handle it, new, [], t)
  | None =>
      if ht_nblocks t =? MAX_BLOCKS then Abort "mpi_allocate_handle: max active handles exceeded"
      else
        let n := ht_nblocks t in
        do f <- init_block n (ht_item t);
        let nf := hi_next (f n 0) in
        let t := mkHtab (clear_next f n 0) (n + 1) (ht_need_init t) nf in
        do o <- (if on then do k <- chk_int (ht_nblocks t * BLOCK_ITEMS);
                            printf strict [Lit "mpi_alloc_handle: allocation "; PctD; Lit " blocks ("; PctD; Lit " handles)\n"] [AInt (ht_nblocks t); AInt k]
                 else Ok []);
        Ok (hi_handle (f n 0), (n, 0), o, t)
  end.

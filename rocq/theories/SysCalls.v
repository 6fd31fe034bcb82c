(** The calls a program can make, and running one of them on the model. *)
From Verif Require Import Base ListModel HandleModel TypeModel CopyModel SysModel CollModel.

Section SysCalls.
Variable c : cfg.

(** The calls a program can make, for histories: the routines declared in mpi.h 255-439.  [KUser m]: the program itself changes memory. *)
Inductive call :=
| KInit | KInitThread (required : Z) | KFinalize | KInitialized
| KCommDup (comm : Z) | KCommCreate (comm group : Z) | KCommSplit (comm color key : Z)
| KIntercomm (local_comm peer_comm : Z) | KCommFree (comm : Z)
| KIsend (buf count ty dest tag comm : Z) | KIrecv (buf count ty source tag comm : Z)
| KIrsend (buf count ty dest tag comm : Z)
| KSend (buf count ty dest tag comm : Z) | KSsend (buf count ty dest tag comm : Z) | KRsend (buf count ty dest tag comm : Z)
| KRecv (buf count ty source tag comm : Z) (st : sarg)
| KSendrecv (sbuf scount sty dest stag rbuf rcount rty source rtag comm : Z) (st : sarg)
| KTest (req : Z) (st : sarg) | KWait (req : Z) (st : sarg)
| KTestany (count : Z) (reqs : list Z) (index : Z) (st : sarg) | KWaitany (count : Z) (reqs : list Z) (index : Z) (st : sarg)
| KTestall (count : Z) (reqs : list Z) (sts : sargs) | KWaitall (count : Z) (reqs : list Z) (sts : sargs)
| KTestsome (count : Z) (reqs indices : list Z) (sts : sargs) | KWaitsome (count : Z) (reqs indices : list Z) (sts : sargs)
| KRequestFree (req : Z)
| KIprobe (source tag comm : Z) (st : sarg) | KProbe (source tag comm : Z) (st : sarg)
| KTypeCreate (k : tcons) | KTypeCommit (h : Z) | KTypeFree (h : Z)
| KTypeSize (h : Z) | KTypeExtent (h : Z) | KTypeLb (h : Z) | KTypeUb (h : Z) | KGetElements (st : status) (h : Z)
| KPack (inbuf count ty outbuf outsize position comm : Z) | KUnpack (inbuf insize position outbuf count ty comm : Z)
| KPackSize (count ty comm : Z)
| KColl (k : coll)
| KCartCreate (comm ndims : Z) (dims periods : list Z) (reorder : Z)
| KUser (m : mem).

(** What a call gives back (through its pointer arguments, e.g. req.c 30, 48): nothing, a number (a handle, a flag), or the listed
    output arguments. *)
Inductive out :=
| VUnit | VInt (n : Z) | VStatus (st : sarg) | VFree (comm : Z) (warn_sends warn_recvs : option Z)
| VTest (req flag : Z) (st : sarg) | VWait (req : Z) (st : sarg) | VProbe (flag : Z) (st : sarg)
| VAny (reqs : list Z) (index flag : Z) (st : sarg)
| VAll (reqs : list Z) (flag : Z) (sts : sargs)
| VSome (reqs : list Z) (outcount : Z) (indices : list Z) (sts : sargs).

(** Naming the result of a call, e.g. of mpi.c 164-189; changes nothing. *)
Definition mmap {A B} (f : A -> B) (e : M A) : M B := let* a := e in ret (f a).

(** One call: the routines cited in SysModel.v and CollModel.v (e.g. mpi.c 164-189 for [KInit]). *)
Definition exec (k : call) : M out :=
  match k with
  | KInit => mmap (fun _ => VUnit) MPI_Init
  | KInitThread r => mmap VInt (MPI_Init_thread r)
  | KFinalize => mmap (fun _ => VUnit) MPI_Finalize
  | KInitialized => mmap VInt MPI_Initialized
  | KCommDup cm => mmap VInt (MPI_Comm_dup cm)
  | KCommCreate cm g => mmap VInt (MPI_Comm_create cm g)
  | KCommSplit cm co ke => mmap VInt (MPI_Comm_split cm co ke)
  | KIntercomm l p => mmap VInt (MPI_Intercomm_create l 0 p 0 0)
  | KCommFree cm => mmap (fun x => let '(cm, ws, wr) := x in VFree cm ws wr) (MPI_Comm_free cm)
  | KIsend b n t d g cm => mmap VInt (MPI_Isend c b n t d g cm)
  | KIrecv b n t d g cm => mmap VInt (MPI_Irecv c b n t d g cm)
  | KIrsend b n t d g cm => mmap VInt (MPI_Irsend c b n t d g cm)
  | KSend b n t d g cm => mmap (fun _ => VUnit) (MPI_Send c b n t d g cm)
  | KSsend b n t d g cm => mmap (fun _ => VUnit) (MPI_Ssend c b n t d g cm)
  | KRsend b n t d g cm => mmap (fun _ => VUnit) (MPI_Rsend c b n t d g cm)
  | KRecv b n t d g cm st => mmap VStatus (MPI_Recv c b n t d g cm st)
  | KSendrecv sb sn sty d sg rb rn rt so rg cm st => mmap VStatus (MPI_Sendrecv c sb sn sty d sg rb rn rt so rg cm st)
  | KTest r st => mmap (fun x => let '(r, f, st) := x in VTest r f st) (MPI_Test r st)
  | KWait r st => mmap (fun x => let '(r, st) := x in VWait r st) (MPI_Wait r st)
  | KTestany n rs i st => mmap (fun x => let '(rs, i, f, st) := x in VAny rs i f st) (MPI_Testany n rs i st)
  | KWaitany n rs i st => mmap (fun x => let '(rs, i, st) := x in VAny rs i 1 st) (MPI_Waitany n rs i st)
  | KTestall n rs sts => mmap (fun x => let '(rs, f, sts) := x in VAll rs f sts) (MPI_Testall n rs sts)
  | KWaitall n rs sts => mmap (fun x => let '(rs, sts) := x in VAll rs 1 sts) (MPI_Waitall n rs sts)
  | KTestsome n rs ix sts => mmap (fun x => let '(rs, o, ix, sts) := x in VSome rs o ix sts) (MPI_Testsome n rs ix sts)
  | KWaitsome n rs ix sts => mmap (fun x => let '(rs, o, ix, sts) := x in VSome rs o ix sts) (MPI_Waitsome n rs ix sts)
  | KRequestFree r => mmap VInt (MPI_Request_free r)
  | KIprobe so g cm st => mmap (fun x => let '(f, st) := x in VProbe f st) (MPI_Iprobe so g cm st)
  | KProbe so g cm st => mmap VStatus (MPI_Probe so g cm st)
  | KTypeCreate k => mmap VInt (MPI_Type_create c k)
  | KTypeCommit h => mmap (fun _ => VUnit) (MPI_Type_commit c h)
  | KTypeFree h => mmap VInt (MPI_Type_free c h)
  | KTypeSize h => mmap VInt (MPI_Type_size c h)
  | KTypeExtent h => mmap VInt (MPI_Type_extent c h)
  | KTypeLb h => mmap VInt (MPI_Type_lb c h)
  | KTypeUb h => mmap VInt (MPI_Type_ub c h)
  | KGetElements st h => mmap VInt (MPI_Get_elements c st h)
  | KPack ib n t ob sz p cm => mmap VInt (MPI_Pack c ib n t ob sz p cm)
  | KUnpack ib sz p ob n t cm => mmap VInt (MPI_Unpack c ib sz p ob n t cm)
  | KPackSize n t cm => mmap VInt (MPI_Pack_size c n t cm)
  | KColl k => mmap (fun _ => VUnit) (MPI_coll c k)
  | KCartCreate cm n dims per re => mmap VInt (MPI_Cart_create cm n dims per re)
  | KUser m => fun s => Ok (VUnit, set_mem s m)
  end.

End SysCalls.

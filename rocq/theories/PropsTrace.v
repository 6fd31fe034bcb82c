(** C103: compiling with INFO, DEBUG or HANDLE_INFO changes nothing but what is printed. *)
From Verif Require Import Base HandleModel TypeModel CopyModel SysModel CollModel SysCalls SysSpec SysLog SysReach SysEx PrintModel PrintSpec TraceModel TraceSpec TraceFacts.

(** The full property: for every state a program can reach and every call that is defined there, the traced call does what the plain
    one does, and the text is as in TraceSpec.  It fails: DEBUG reads an int at the buffer of a message that may be shorter, and
    INFO reads the communicator also where the plain call does not (both below).  The theorems ask for a communicator that exists,
    and with DEBUG, when the call meets its partner, for a readable int at its own buffer. *)
Theorem C103_isend_traced_partial :
  forall (c : cfg) (tj : Z -> tjunk) (strict info debug : bool) (s : sys) (a : astate) (b n t d g cm : Z) (k : acomm),
    reach c tj s a -> comm_at a cm = Some k -> legal_isend c b n t d g cm a ->
    (debug = true -> d = 0 -> ~ none_goes Snd g k -> readable strict (s_mem s) b) ->
    traced (fun _ s' o => post_text Snd info debug k b n t d g s' o) (tr_Isend c strict info debug b n t d g cm s) (MPI_Isend c b n t d g cm s).
Proof. exact C103_isend_lemma. Qed.
Print Assumptions C103_isend_traced_partial.
Theorem C103_irecv_traced_partial :
  forall (c : cfg) (tj : Z -> tjunk) (strict info debug : bool) (s : sys) (a : astate) (b n t d g cm : Z) (k : acomm),
    reach c tj s a -> comm_at a cm = Some k -> legal_irecv c b n t d g cm a ->
    (debug = true -> d <> MPI_PROC_NULL -> ~ none_goes Rcv g k -> readable strict (s_mem s) b) ->
    traced (fun _ s' o => post_text Rcv info debug k b n t d g s' o) (tr_Irecv c strict info debug b n t d g cm s) (MPI_Irecv c b n t d g cm s).
Proof. exact C103_irecv_lemma. Qed.
Print Assumptions C103_irecv_traced_partial.
Theorem C103_irsend_traced_partial :
  forall (c : cfg) (tj : Z -> tjunk) (strict info debug : bool) (s : sys) (a : astate) (b n t d g cm : Z) (k : acomm),
    reach c tj s a -> comm_at a cm = Some k -> legal_isend c b n t d g cm a ->
    (debug = true -> d = 0 -> ~ none_goes Snd g k -> readable strict (s_mem s) b) ->
    traced (fun _ s' o => post_text Snd info debug k b n t d g s' o) (tr_Irsend c strict info debug b n t d g cm s) (MPI_Irsend c b n t d g cm s).
Proof. exact C103_irsend_lemma. Qed.
Print Assumptions C103_irsend_traced_partial.
Theorem C103_send_traced_partial :
  forall (c : cfg) (tj : Z -> tjunk) (strict info debug : bool) (s : sys) (a : astate) (b n t d g cm : Z) (k : acomm),
    reach c tj s a -> comm_at a cm = Some k -> legal_isend c b n t d g cm a ->
    (debug = true -> d = 0 -> ~ none_goes Snd g k -> readable strict (s_mem s) b) ->
    traced (fun _ s' o => exists o', o = pre_text info "MPI_Send: " ++ o' /\ post_text Snd info debug k b n t d g s' o')
      (tr_Send c strict info debug b n t d g cm s) (MPI_Send c b n t d g cm s).
Proof. exact C103_send_lemma. Qed.
Print Assumptions C103_send_traced_partial.
Theorem C103_recv_traced_partial :
  forall (c : cfg) (tj : Z -> tjunk) (strict info debug : bool) (s : sys) (a : astate) (b n t d g cm : Z) (st : sarg) (k : acomm),
    reach c tj s a -> comm_at a cm = Some k -> legal_irecv c b n t d g cm a ->
    (debug = true -> d <> MPI_PROC_NULL -> ~ none_goes Rcv g k -> readable strict (s_mem s) b) ->
    traced (fun _ s' o => exists o', o = pre_text info "MPI_Recv: " ++ o' /\ post_text Rcv info debug k b n t d g s' o')
      (tr_Recv c strict info debug b n t d g cm st s) (MPI_Recv c b n t d g cm st s).
Proof. exact C103_recv_lemma. Qed.
Print Assumptions C103_recv_traced_partial.
(** MPI_Sendrecv prints what its receive and then its send print; the send sees the queues as the receive left them. *)
Theorem C103_sendrecv_traced_partial :
  forall (c : cfg) (tj : Z -> tjunk) (strict info debug : bool) (s : sys) (a : astate) (sb sn sty d sg rb rn rt so rg cm : Z) (st : sarg) (k : acomm),
    reach c tj s a -> comm_at a cm = Some k -> legal c tj (KSendrecv sb sn sty d sg rb rn rt so rg cm st) a ->
    (debug = true -> readable strict (s_mem s) sb /\ readable strict (s_mem s) rb) ->
    traced (fun _ s' o => exists o1 o2 h s1 a1 k1, o = o1 ++ pre_text info "MPI_Send: " ++ o2 /\
        does c tj s a (KIrecv rb rn rt so rg cm) (VInt h) s1 a1 /\ post_text Rcv info debug k rb rn rt so rg s1 o1 /\
        comm_at a1 cm = Some k1 /\ k_uid k1 = k_uid k /\ post_text Snd info debug k1 sb sn sty d sg s' o2)
      (tr_Sendrecv c strict info debug sb sn sty d sg rb rn rt so rg cm st s) (MPI_Sendrecv c sb sn sty d sg rb rn rt so rg cm st s).
Proof. exact C103_sendrecv_lemma. Qed.
Print Assumptions C103_sendrecv_traced_partial.

(** MPI_Comm_dup shows the new handle; nothing is asked for. *)
Theorem C103_comm_dup_traced :
  forall (strict info : bool) (cm : Z) (s : sys),
    traced (fun h _ o => o = if info then [Text "MPI_Comm_dup: new comm handle="; Num h; Text "\n"] else []) (tr_Comm_dup strict info cm s) (MPI_Comm_dup cm s).
Proof. exact C103_dup_lemma. Qed.
Print Assumptions C103_comm_dup_traced.
(** With HANDLE_INFO a new block of handles is reported when it is made (the first one, made with the table, is not), with the number
    of blocks and of handles there now are. *)
Theorem C103_new_blocks_reported :
  forall (D : Type) (strict on : bool) (t : htab D), 0 <= ht_nblocks t <= MAX_BLOCKS ->
  match alloc_handle t with
  | Ok (h, p, t') => exists o, tr_alloc_handle strict on t = Ok (h, p, o, t') /\
      o = if on && negb (ht_nblocks t' =? (if ht_need_init t then 1 else ht_nblocks t))
          then [Text "mpi_alloc_handle: allocation "; Num (ht_nblocks t'); Text " blocks ("; Num (ht_nblocks t' * 256); Text " handles)\n"] else []
  | Abort w => tr_alloc_handle strict on t = Abort w
  | Exit n w => tr_alloc_handle strict on t = Exit n w
  | UB w => tr_alloc_handle strict on t = UB w
  | Diverge => tr_alloc_handle strict on t = Diverge
  end.
Proof. exact C103_blocks_lemma. Qed.
Print Assumptions C103_new_blocks_reported.

(** Two receives wait; a send meets the second, another has to wait. *)
Definition h_tr : list call := [KInit; KIrecv 100 2 INTT 0 7 1; KIrecv 200 2 INTT 0 5 1; KIsend 300 2 INTT 0 6 1].
Example C103_ex :
  reach default_cfg ex_tj (ex_s h_tr) (ex_a h_tr) /\ legal_isend default_cfg 400 2 INTT 0 5 1 (ex_a h_tr) /\
  (do (x, s) <- tr_Isend default_cfg true true true 400 2 INTT 0 5 1 (ex_s h_tr); Ok x) =
    Ok (5, call_text "MPI_Isend" 0 5 2 INTT ++ [Text "Completion("; Text "send"; Text ") value="; Num 100595696; Text " tag="; Num 5; Text "\n"]) /\
  (do (x, s) <- tr_Send default_cfg true true true 400 2 INTT 0 7 1 (ex_s h_tr); Ok (snd x)) =
    Ok ([Text "MPI_Send: "] ++ call_text "MPI_Isend" 0 7 2 INTT ++ [Text "Completion("; Text "send"; Text ") value="; Num 100595696; Text " tag="; Num 7; Text "\n"]) /\
  (do (x, s) <- tr_Isend default_cfg true true true 400 2 INTT 0 4 1 (ex_s h_tr); Ok x) =
    Ok (5, call_text "MPI_Isend" 0 4 2 INTT ++ [Text "sendlist for comm "; Text " "; Num 0; Text ": "; Num 6; Text "  "; Num 4; Text "  "; Text "\n"]) /\
  (do (x, s) <- tr_Irecv default_cfg true true true 400 2 INTT (-1) (-1) 1 (ex_s h_tr); Ok x) =
    Ok (5, call_text "MPI_Irecv" 0 (-1) 2 INTT ++ [Text "Completion("; Text "recv"; Text ") value="; Num 1229077300; Text " tag="; Num 6; Text "\n"]) /\
  (do (x, s) <- tr_Comm_dup true true 1 (ex_s h_tr); Ok x) = Ok (5, [Text "MPI_Comm_dup: new comm handle="; Num 5; Text "\n"]).
Proof.
  split; [apply ex_reach; vm_compute; reflexivity|]. split; [apply isendb_ok; vm_compute; reflexivity|].
  do 4 (split; [vm_compute; reflexivity|]). vm_compute; reflexivity.
Qed.
(** The 257th handle is in a new block. *)
Definition full_block : htab unit := mkHtab (fun _ _ => mkHitem 0 None tt) 1 false None.
Example C103_blocks_ex :
  (do (h, p, o, t) <- tr_alloc_handle true true full_block; Ok (h, o)) =
    Ok (256, [Text "mpi_alloc_handle: allocation "; Num 2; Text " blocks ("; Num 512; Text " handles)\n"]).
Proof. vm_compute; reflexivity. Qed.

(** A message of one byte in the last byte of memory: the plain send delivers it, the one compiled with DEBUG reads past the end. *)
Definition CHART : Z := -1.   (* MPI_CHAR *)
Definition h_tr1 : list call := [KInit; KIrecv 100 1 CHART 0 5 1].
Theorem C103_debug_refuted :
  reach default_cfg ex_tj (ex_s h_tr1) (ex_a h_tr1) /\ legal_isend default_cfg 999 1 CHART 0 5 1 (ex_a h_tr1) /\
  (do (h, s) <- MPI_Isend default_cfg 999 1 CHART 0 5 1 (ex_s h_tr1); Ok h) = Ok 3 /\
  tr_Isend default_cfg false false true 999 1 CHART 0 5 1 (ex_s h_tr1) = UB "read outside allocated memory".
Proof.
  split; [apply ex_reach; vm_compute; reflexivity|]. split; [apply isendb_ok; vm_compute; reflexivity|]. split; vm_compute; reflexivity.
Qed.
Print Assumptions C103_debug_refuted.
(** A send to MPI_PROC_NULL on MPI_COMM_NULL: the plain call does not look at the communicator, the one compiled with INFO does. *)
Theorem C103_info_refuted :
  reach default_cfg ex_tj (ex_s h_tr1) (ex_a h_tr1) /\ legal_isend default_cfg 300 1 INTT MPI_PROC_NULL 5 MPI_COMM_NULL (ex_a h_tr1) /\
  (do (h, s) <- MPI_Isend default_cfg 300 1 INTT MPI_PROC_NULL 5 MPI_COMM_NULL (ex_s h_tr1); Ok h) = Ok 3 /\
  tr_Isend default_cfg false true false 300 1 INTT MPI_PROC_NULL 5 MPI_COMM_NULL (ex_s h_tr1) = UB "NULL handle".
Proof.
  split; [apply ex_reach; vm_compute; reflexivity|]. split; [apply isendb_ok; vm_compute; reflexivity|]. split; vm_compute; reflexivity.
Qed.
Print Assumptions C103_info_refuted.

(** Accounting of handles: which handles a call opens and closes, read off the call and its result (C81). *)
From Verif Require Import Base TypeModel CopyModel SysModel CollModel SysCalls SysSpec SysReach.

(** The entries of a request array that were not null before and are null afterwards. *)
Definition gone (before after : list Z) : list Z :=
  map fst (filter (fun p => negb (fst p =? MPI_REQUEST_NULL) && (snd p =? MPI_REQUEST_NULL)) (combine before after)).
Definition unless_null (h : Z) : list Z := if h =? 0 then [] else [h].

(** The handles a call gave out. *)
Definition opened (k : call) (o : out) : list Z :=
  match k, o with
  | KInit, _ | KInitThread _, _ => [MPI_COMM_WORLD]
  | KIsend _ _ _ _ _ _, VInt h | KIrecv _ _ _ _ _ _, VInt h | KIrsend _ _ _ _ _ _, VInt h | KTypeCreate _, VInt h => [h]
  | KCommDup _, VInt h | KCommCreate _ _, VInt h | KCommSplit _ _ _, VInt h | KIntercomm _ _, VInt h | KCartCreate _ _ _ _ _, VInt h => unless_null h
  | _, _ => []
  end.
(** The handles a call took back. *)
Definition closed (k : call) (o : out) : list Z :=
  match k, o with
  | KTest r _, VTest r' _ _ | KWait r _, VWait r' _ => gone [r] [r']
  | KTestany n rs _ _, VAny rs' _ _ _ | KWaitany n rs _ _, VAny rs' _ _ _ | KTestall n rs _, VAll rs' _ _ | KWaitall n rs _, VAll rs' _ _
  | KTestsome n rs _ _, VSome rs' _ _ _ | KWaitsome n rs _ _, VSome rs' _ _ _ => gone (firstn (Z.to_nat n) rs) rs'
  | KRequestFree r, _ => unless_null r
  | KTypeFree h, _ | KCommFree h, _ => [h]
  | _, _ => []
  end.

(** The handles a program holds after one more call; MPI_Finalize closes all. *)
Definition held (hs : list Z) (x : call * out) : list Z :=
  match x with
  | (KFinalize, _) => []
  | (k, o) => filter (fun h => negb (existsb (Z.eqb h) (closed k o))) hs ++ opened k o
  end.

Section Leads.
Variable c : cfg.
Variable tj : Z -> tjunk.
(** The legal calls of [l], with their results, lead from one state to the other. *)
Inductive leads : sys -> astate -> list (call * out) -> sys -> astate -> Prop :=
| leads_nil s a : leads s a [] s a
| leads_cons s a k o s1 a1 l s2 a2 : does c tj s a k o s1 a1 -> leads s1 a1 l s2 a2 -> leads s a ((k, o) :: l) s2 a2.
End Leads.

(** Storage the queues need for one object: an entry for each waiting operation, and two lists for each communicator. *)
Definition entries (o : option aobj) : Z :=
  match o with Some (AComm k) => Z.of_nat (length (k_sends k)) + Z.of_nat (length (k_recvs k)) | _ => 0 end.
Definition queues (o : option aobj) : Z := match o with Some (AComm _) => 2 | _ => 0 end.
Definition total (f : option aobj -> Z) (a : astate) (hs : list Z) : Z := fold_right (fun h n => f (a_obj a h) + n) 0 hs.

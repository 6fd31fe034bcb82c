(** Reachable states, and the words used in the statements about them. *)
From Verif Require Import Base HandleSpec HandleExact TypeModel CopyModel SysModel CollModel SysCalls SysSpec SysLog.

(** The library is in state [s] after some history of legal calls from program start, and [a] is what the specification
    says about that history.  (The contents of fresh storage and of memory at the start are arbitrary.) *)
Inductive reach (c : cfg) (tj : Z -> tjunk) : sys -> astate -> Prop :=
| reach_start hj lj rj m : reach c tj (sys_start hj lj rj tj m) (a_start m)
| reach_call s a k o s' Q a' :
    reach c tj s a -> legal c tj k a -> exec c k s = Ok (o, s') -> spec c tj k a = Ret Q a' -> reach c tj s' a'.

(** The legal call [k] returns [o] and leads from [s] to [s'], and the specification goes from [a] to [a']. *)
Definition does (c : cfg) (tj : Z -> tjunk) (s : sys) (a : astate) (k : call) (o : out) (s' : sys) (a' : astate) : Prop :=
  legal c tj k a /\ exec c k s = Ok (o, s') /\ reach c tj s' a' /\ exists Q, spec c tj k a = Ret Q a' /\ Q o.

(** [a'] is the specification state after some further legal calls. *)
Inductive later (c : cfg) (tj : Z -> tjunk) : astate -> astate -> Prop :=
| later_refl a : later c tj a a
| later_call a b k Q b' : later c tj a b -> legal c tj k b -> spec c tj k b = Ret Q b' -> later c tj a b'.

(** A handle can still be handed out. *)
Definition has_handle (a : astate) : Prop := next_handle (a_freed a) (a_top a) <> None.
(** Two handles can still be handed out. *)
Definition has_two (a : astate) : Prop :=
  exists h fr top, next_handle (a_freed a) (a_top a) = Some (h, fr, top) /\ next_handle fr top <> None.

(** [p] is the earliest operation waiting on the other side that goes with an operation of side [sd] with tag [tag]. *)
Definition earliest (sd : side) (tag : Z) (k : acomm) (before : list pend) (p : pend) (rest : list pend) : Prop :=
  line (other sd) k = before ++ p :: rest /\ goes_with sd tag (p_tag p) = true /\ (forall q, In q before -> goes_with sd tag (p_tag q) = false).
Definition none_goes (sd : side) (tag : Z) (k : acomm) : Prop := forall q, In q (line (other sd) k) -> goes_with sd tag (p_tag q) = false.

(** What a matched operation's request says. *)
Definition done_req (sd : side) (id tag : Z) : areq := match sd with Snd => QSent id | Rcv => QReceived id tag end.
Definition match_ev (sd : side) (own oth : Z) : event := match sd with Snd => EMatch own oth | Rcv => EMatch oth own end.
Definition msg_tag (sd : side) (own oth : Z) : Z := match sd with Snd => own | Rcv => oth end.
Definition set_line (sd : side) (k : acomm) (q : list pend) : acomm :=
  match sd with Snd => mkAcomm (k_uid k) q (k_recvs k) | Rcv => mkAcomm (k_uid k) (k_sends k) q end.

(** The operation described by [p] was queued behind the others, and nothing else happened. *)
Record queued (sd : side) (a : astate) (cm : Z) (k : acomm) (p : pend) (a' : astate) : Prop := {
  qd_fresh : 1 <= p_req p /\ a_obj a (p_req p) = None;
  qd_req : req_at a' (p_req p) = Some (QPending sd (k_uid k) (p_id p));
  qd_comm : comm_at a' cm = Some (set_line sd k (line sd k ++ [p]));
  qd_log : a_log a' = a_log a ++ [EPost (p_id p) sd (k_uid k) (p_tag p)];
  qd_mem : a_mem a' = a_mem a;
  qd_rest : forall x, x <> p_req p -> x <> cm -> a_obj a' x = a_obj a x
}.
(** Operation [id] of side [sd], request [h], was matched at once with [p]; the data went to memory [m]; nothing else happened. *)
Record paired (sd : side) (a : astate) (cm : Z) (k : acomm) (id h tag : Z) (before : list pend) (p : pend) (rest : list pend)
    (m : mem) (a' : astate) : Prop := {
  pr_fresh : 1 <= h /\ a_obj a h = None;
  pr_req : req_at a' h = Some (done_req sd id (msg_tag sd tag (p_tag p)));
  pr_partner : req_at a' (p_req p) = Some (done_req (other sd) (p_id p) (msg_tag sd tag (p_tag p)));
  pr_comm : comm_at a' cm = Some (set_line (other sd) k (before ++ rest));
  pr_log : a_log a' = a_log a ++ [EPost id sd (k_uid k) tag; match_ev sd id (p_id p)];
  pr_mem : a_mem a' = m;
  pr_rest : forall x, x <> h -> x <> cm -> x <> p_req p -> a_obj a' x = a_obj a x
}.
(** The same for a blocking call, which leaves no request of its own. *)
Record absorbed (sd : side) (a : astate) (cm : Z) (k : acomm) (id tag : Z) (before : list pend) (p : pend) (rest : list pend)
    (m : mem) (a' : astate) : Prop := {
  ab_partner : req_at a' (p_req p) = Some (done_req (other sd) (p_id p) (msg_tag sd tag (p_tag p)));
  ab_comm : comm_at a' cm = Some (set_line (other sd) k (before ++ rest));
  ab_log : a_log a' = a_log a ++ [EPost id sd (k_uid k) tag; match_ev sd id (p_id p)];
  ab_memory : a_mem a' = m;
  ab_rest : forall x, x <> cm -> x <> p_req p -> a_obj a' x = a_obj a x
}.

(** No object, buffer byte or message was touched. *)
Definition unchanged (a a' : astate) : Prop :=
  (forall x, a_obj a' x = a_obj a x) /\ a_mem a' = a_mem a /\ a_log a' = a_log a.
(** Exactly handle [h] was released. *)
Definition released (h : Z) (a a' : astate) : Prop :=
  a_obj a' h = None /\ (forall x, x <> h -> a_obj a' x = a_obj a x) /\ a_mem a' = a_mem a /\ a_log a' = a_log a /\
  a_freed a' = h :: a_freed a.
(** Exactly handle [h], until now unused, was added. *)
Definition added (h : Z) (o : aobj) (a a' : astate) : Prop :=
  1 <= h /\ a_obj a h = None /\ a_obj a' h = Some o /\ (forall x, x <> h -> a_obj a' x = a_obj a x) /\
  a_mem a' = a_mem a /\ a_log a' = a_log a.
(** The handles in [hs] were released and nothing else. *)
Definition released_all (hs : list Z) (a a' : astate) : Prop :=
  (forall h, In h hs -> a_obj a' h = None) /\ (forall x, ~ In x hs -> a_obj a' x = a_obj a x) /\
  a_mem a' = a_mem a /\ a_log a' = a_log a.

(** The operation of a request has been matched, or was to or from MPI_PROC_NULL. *)
Definition finished (a : astate) (q : areq) : Prop :=
  match op_id q with Some id => matched (a_log a) id | None => True end.

(** The communicator a call names. *)
Definition comm_of (k : call) : option Z :=
  match k with
  | KIsend _ _ _ _ _ cm | KIrecv _ _ _ _ _ cm | KIrsend _ _ _ _ _ cm | KSend _ _ _ _ _ cm | KSsend _ _ _ _ _ cm | KRsend _ _ _ _ _ cm
  | KRecv _ _ _ _ _ cm _ | KSendrecv _ _ _ _ _ _ _ _ _ _ cm _ | KIprobe _ _ cm _ | KProbe _ _ cm _ | KCommFree cm => Some cm
  | _ => None
  end.
(** The requests a call names. *)
Definition reqs_of (k : call) : list Z :=
  match k with
  | KTest r _ | KWait r _ | KRequestFree r => [r]
  | KTestany n rs _ _ | KWaitany n rs _ _ | KTestall n rs _ | KWaitall n rs _ | KTestsome n rs _ _ | KWaitsome n rs _ _ => firstn (Z.to_nat n) rs
  | _ => []
  end.
(** The datatypes a call changes. *)
Definition types_of (k : call) : list Z := match k with KTypeCommit h | KTypeFree h => [h] | _ => [] end.

(** Arrays of requests: the status of one entry, its flag, and what becomes of the entry. *)
Definition status_of (a : astate) (r : Z) : write :=
  if r =? MPI_REQUEST_NULL then Write (Some MPI_ANY_SOURCE) (Some MPI_ANY_TAG)
  else match req_at a r with Some q => match report q with Some w => w | None => NoWrite end | None => NoWrite end.
Definition flag_of (a : astate) (r : Z) : Z := if complete a r then 1 else 0.
Definition left_of (a : astate) (r : Z) : Z := if complete a r then MPI_REQUEST_NULL else r.
(** The handles of the complete requests among [rs]. *)
Definition complete_of (a : astate) (rs : list Z) : list Z := filter (fun r => negb (r =? MPI_REQUEST_NULL) && complete a r) rs.
(** The entry is null, or its operation has been matched (or was to or from MPI_PROC_NULL). *)
Definition ready (a : astate) (r : Z) : Prop := r = MPI_REQUEST_NULL \/ exists q, req_at a r = Some q /\ finished a q.
(** As [reach], with the calls made so far, oldest first. *)
Inductive reach_by (c : cfg) (tj : Z -> tjunk) : list call -> sys -> astate -> Prop :=
| reach_by_start hj lj rj m : reach_by c tj [] (sys_start hj lj rj tj m) (a_start m)
| reach_by_call ks s a k o s' Q a' :
    reach_by c tj ks s a -> legal c tj k a -> exec c k s = Ok (o, s') -> spec c tj k a = Ret Q a' -> reach_by c tj (ks ++ [k]) s' a'.
(** Whether the last MPI_Init is still in force after these calls. *)
Definition inited (ks : list call) : bool :=
  fold_left (fun b k => match k with KInit | KInitThread _ => true | KFinalize => false | _ => b end) ks false.

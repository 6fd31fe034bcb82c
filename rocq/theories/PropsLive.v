(** Property theorems about what a program holds: C81 (handles) and C82 (queue storage). *)
From Verif Require Import Base HandleModel HandleSpec HandleExact TypeModel CopyModel CopyEx ListModel SysModel CollModel SysCalls SysSpec SysReach SysEx LiveSpec LiveFacts StoreFacts.

(** C81: a call changes which handles are in use exactly by what its arguments and results show: it opens the handles it returns, which
    were not in use, and closes those it reports as null or was asked to free, which were.  Nothing is leaked, nothing closed twice. *)
Theorem C81_accounting :
  forall (c : cfg) (tj : Z -> tjunk) (s : sys) (a : astate) (k : call) (o : out) (s' : sys) (a' : astate),
    reach c tj s a -> does c tj s a k o s' a' -> k <> KFinalize ->
    (forall h, In h (opened k o) -> a_obj a h = None) /\ (forall h, In h (closed k o) -> a_obj a h <> None) /\
    NoDup (opened k o) /\ NoDup (closed k o) /\
    (forall h, a_obj a' h <> None <-> (a_obj a h <> None /\ ~ In h (closed k o)) \/ In h (opened k o)).
Proof. exact C81_call_lemma. Qed.
Print Assumptions C81_accounting.
(** After any history from program start the handles in use are exactly those opened and not closed since, and there is a handle for the
    next object exactly if there are fewer than 262143 (the size of the table) of them. *)
Theorem C81_history :
  forall (c : cfg) (tj : Z -> tjunk) hj lj rj (m : mem) (l : list (call * out)) (s : sys) (a : astate),
    leads c tj (sys_start hj lj rj tj m) (a_start m) l s a ->
    let hs := fold_left held l [] in
    NoDup hs /\ (forall h, In h hs <-> a_obj a h <> None) /\ (has_handle a <-> Z.of_nat (length hs) < CAPACITY).
Proof. exact C81_history_lemma. Qed.
Print Assumptions C81_history.
(** Two pending receives, one satisfied by a blocking send, a duplicate made and freed, a waitany that closes one request. *)
Definition live_calls : list call :=
  [KInit; KIrecv 600 1 INTT 0 7 1; KIrecv 604 1 INTT 0 8 1; KCommDup 1; KSend 100 1 INTT 0 8 1; KTestany 2 [2; 3] 55 SIgnore; KCommFree 4; KTypeCreate (TContiguous 3 INTT)].
Example C81_ex :
  leads default_cfg ex_tj ex_start (a_start ex_mem) (combine live_calls (ex_o live_calls)) (ex_s live_calls) (ex_a live_calls) /\
  ex_o live_calls = [VUnit; VInt 2; VInt 3; VInt 4; VUnit; VAny [2; 0] 55 1 SIgnore; VFree 0 None None; VInt 4] /\
  fold_left held (combine live_calls (ex_o live_calls)) [] = [1; 2; 4].
Proof. split; [apply ex_leads; vm_compute; reflexivity|]. split; vm_compute; reflexivity. Qed.

(** C82, full statement: the counters of the list package always equal what the queues hold - an entry for each waiting operation, two
    lists for each communicator - and after MPI_Finalize they are zero, so that the leak check of the package finds nothing.
    Proved for everything up to MPI_Finalize. *)
Theorem C82_history_partial :
  forall (c : cfg) (tj : Z -> tjunk) hj lj rj (m : mem) (l : list (call * out)) (s : sys) (a : astate),
    leads c tj (sys_start hj lj rj tj m) (a_start m) l s a -> (forall o, ~ In (KFinalize, o) l) ->
    let hs := fold_left held l [] in
    lh_itemcount (s_lists s) = total entries a hs /\ lh_headcount (s_lists s) = total queues a hs /\
    (listitem_verify (s_lists s) = false <-> forall h, comm_at a h = None).
Proof. exact C82_history_lemma. Qed.
Print Assumptions C82_history_partial.
(** Also later, no call but MPI_Finalize changes the difference. *)
Theorem C82_call_partial :
  forall (c : cfg) (tj : Z -> tjunk) (s : sys) (a : astate) (k : call) (o : out) (s' : sys) (a' : astate) (hs hs' : list Z),
    reach c tj s a -> does c tj s a k o s' a' -> k <> KFinalize ->
    NoDup hs -> (forall h, In h hs <-> a_obj a h <> None) -> NoDup hs' -> (forall h, In h hs' <-> a_obj a' h <> None) ->
    lh_itemcount (s_lists s') - total entries a' hs' = lh_itemcount (s_lists s) - total entries a hs /\
    lh_headcount (s_lists s') - total queues a' hs' = lh_headcount (s_lists s) - total queues a hs.
Proof. exact C82_call_lemma. Qed.
Print Assumptions C82_call_partial.
(** MPI_Finalize gives back nothing and forgets everything. *)
Theorem C82_finalize :
  forall (c : cfg) (tj : Z -> tjunk) (s : sys) (a : astate) (o : out) (s' : sys) (a' : astate),
    reach c tj s a -> does c tj s a KFinalize o s' a' ->
    lh_itemcount (s_lists s') = lh_itemcount (s_lists s) /\ lh_headcount (s_lists s') = lh_headcount (s_lists s) /\ (forall h, a_obj a' h = None).
Proof. exact C82_finalize_lemma. Qed.
Print Assumptions C82_finalize.
(** So the shortest program leaves two lists behind, and each further start two more. *)
Theorem C82_finalize_refuted :
  ex_ok [KInit; KFinalize; KInit; KFinalize] = true /\
  lh_headcount (s_lists (ex_s [KInit; KFinalize])) = 2 /\ listitem_verify (s_lists (ex_s [KInit; KFinalize])) = true /\
  lh_headcount (s_lists (ex_s [KInit; KFinalize; KInit; KFinalize])) = 4.
Proof. repeat split; vm_compute; reflexivity. Qed.
Print Assumptions C82_finalize_refuted.
(** The history above: one receive still waits, and one communicator exists. *)
Example C82_ex :
  lh_itemcount (s_lists (ex_s live_calls)) = 1 /\ lh_headcount (s_lists (ex_s live_calls)) = 2 /\
  total entries (ex_a live_calls) [1; 2; 4] = 1 /\ total queues (ex_a live_calls) [1; 2; 4] = 2 /\ (forall o, ~ In (KFinalize, o) (combine live_calls (ex_o live_calls))).
Proof.
  split; [vm_compute; reflexivity|]. split; [vm_compute; reflexivity|]. split; [vm_compute; reflexivity|]. split; [vm_compute; reflexivity|].
  intros o I. apply in_combine_l in I. repeat (destruct I as [I|I]; [discriminate|]). exact I.
Qed.

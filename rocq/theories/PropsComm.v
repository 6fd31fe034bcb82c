(** Property theorems about the life cycle and communicators: C05 and C30. *)
From Verif Require Import Base HandleExact TypeModel CopyModel CopyEx SysModel CollModel SysCalls SysSpec SysLog SysReach SysFacts SysFacts2 SysFacts3 SysFacts5 SysFinal SysEx PropsMatch.

(** C05: MPI_Init succeeds exactly if 1 is the handle that is next in turn, and then makes MPI_COMM_WORLD an empty communicator;
    otherwise it aborts.  [next_handle] is the handle order of C75: freed handles first, most recent first, then a new one.
    (Fewer than 2^31 communicators have been made: [room_comm].) *)
Theorem C05_init :
  forall (c : cfg) (tj : Z -> tjunk) (s : sys) (a : astate), reach c tj s a -> room_comm a ->
    (forall fr top, next_handle (a_freed a) (a_top a) = Some (MPI_COMM_WORLD, fr, top) ->
       exists s' a', does c tj s a KInit VUnit s' a' /\ added MPI_COMM_WORLD (AComm (mkAcomm (a_made a) [] [])) a a' /\ a_init a' = true) /\
    (forall h fr top, next_handle (a_freed a) (a_top a) = Some (h, fr, top) -> h <> MPI_COMM_WORLD ->
       exec c KInit s = Abort "MPI_Init: conflicting MPI_COMM_WORLD") /\
    (next_handle (a_freed a) (a_top a) = None -> exec c KInit s = Abort handles_msg).
Proof. exact (@C05_init_lemma). Qed.
Print Assumptions C05_init.
(** At program start and after MPI_Finalize handle 1 is next. *)
Theorem C05_start :
  forall (m : mem), next_handle (a_freed (a_start m)) (a_top (a_start m)) = Some (MPI_COMM_WORLD, [], 1).
Proof. exact (fun m => eq_refl). Qed.
Print Assumptions C05_start.
Theorem C05_finalize :
  forall (c : cfg) (tj : Z -> tjunk) (s : sys) (a : astate), reach c tj s a ->
    exists s' a', does c tj s a KFinalize VUnit s' a' /\ (forall h, a_obj a' h = None) /\ a_mem a' = a_mem a /\
      next_handle (a_freed a') (a_top a') = Some (MPI_COMM_WORLD, [], 1).
Proof. exact (@C05_finalize_lemma). Qed.
Print Assumptions C05_finalize.
(** MPI_Initialized: [inited ks] looks only at the calls made so far. *)
Theorem C05_initialized :
  forall (c : cfg) (tj : Z -> tjunk) (ks : list call) (s : sys) (a : astate), reach_by c tj ks s a ->
    exec c KInitialized s = Ok (VInt (if inited ks then 1 else 0), s).
Proof. exact (@C05_initialized_lemma). Qed.
Print Assumptions C05_initialized.
(** The earlier wording of C05 ("exactly when no handle is live") is false in both directions: handles may be live, or none may
    be live and the order in which they were freed makes another handle next. *)
Theorem C05_no_live_handle_refuted :
  (exists s a h s' a', reach default_cfg ex_tj s a /\ room_comm a /\ a_obj a h <> None /\ does default_cfg ex_tj s a KInit VUnit s' a') /\
  (exists s a, reach default_cfg ex_tj s a /\ room_comm a /\ (forall h, a_obj a h = None) /\
     exec default_cfg KInit s = Abort "MPI_Init: conflicting MPI_COMM_WORLD").
Proof.
  split.
  - set (ks := [KInit; KCommDup 1; KCommFree 1]). assert (R : reach default_cfg ex_tj (ex_s ks) (ex_a ks)) by (apply ex_reach; vm_compute; reflexivity).
    assert (Rm : room_comm (ex_a ks)) by (apply room_commb_ok; vm_compute; reflexivity).
    destruct (proj1 (C05_init_lemma _ _ R Rm) [] 2) as (s' & a' & D & _); [vm_compute; reflexivity|].
    exists (ex_s ks), (ex_a ks), 2, s', a'. split; auto. split; auto. split; [vm_compute; discriminate|exact D].
  - set (ks := [KInit; KCommDup 1; KCommFree 1; KCommFree 2]). exists (ex_s ks), (ex_a ks).
    split; [apply ex_reach; vm_compute; reflexivity|]. split; [apply room_commb_ok; vm_compute; reflexivity|].
    split; [|vm_compute; reflexivity]. intros h. vm_compute. destruct h as [|[[p|p|]|[p|p|]|]|]; reflexivity.
Qed.
Print Assumptions C05_no_live_handle_refuted.
Example C05_ex : let ks := [KInit; KCommDup 1; KIrecv 100 1 INTT 0 3 2; KFinalize] in
  reach_by default_cfg ex_tj ks (ex_s ks) (ex_a ks) /\ room_comm (ex_a ks) /\ inited ks = false /\ inited (ks ++ [KInit; KCommDup 1]) = true /\
  outs (ex_run (ks ++ [KInitialized; KInit; KInitialized])) = Ok [VUnit; VInt 2; VInt 3; VUnit; VInt 0; VUnit; VInt 1].
Proof.
  cbv zeta. split; [apply ex_by; vm_compute; reflexivity|]. split; [apply room_commb_ok; vm_compute; reflexivity|].
  split; [reflexivity|]. split; [reflexivity|]. vm_compute. reflexivity.
Qed.
(** The other two cases of C05_init: a communicator is alive; all handles are in use. *)
Example C05_ex_conflict : let ks := [KInit] in reach default_cfg ex_tj (ex_s ks) (ex_a ks) /\ room_comm (ex_a ks) /\
  next_handle (a_freed (ex_a ks)) (a_top (ex_a ks)) = Some (2, [], 2).
Proof. cbv zeta. split; [apply ex_reach; vm_compute; reflexivity|]. split; [apply room_commb_ok; vm_compute; reflexivity|]. vm_compute. reflexivity. Qed.

(** C30: MPI_Comm_free.  The variable becomes MPI_COMM_NULL; the warnings give the numbers of operations left; the handle and the
    two queues are released; nothing else changes; an operation left behind is never matched, whatever follows. *)
Theorem C30_comm_free :
  forall (c : cfg) (tj : Z -> tjunk) (s : sys) (a : astate) (h : Z) (k : acomm), reach c tj s a -> comm_at a h = Some k ->
    exists s' a', does c tj s a (KCommFree h) (VFree MPI_COMM_NULL (some_left (k_sends k)) (some_left (k_recvs k))) s' a' /\
      released h a a' /\ a_heads a' = a_heads a - 2 /\
      forall b, later c tj a' b -> forall id sd tag, In (EPost id sd (k_uid k) tag) (a_log a') -> ~ matched (a_log a') id -> ~ matched (a_log b) id.
Proof. exact (@C30_lemma). Qed.
Print Assumptions C30_comm_free.
(** The duplicate has a pending receive; the original too. *)
Example C30_ex : exists k p, reach default_cfg ex_tj (ex_s h_dup) (ex_a h_dup) /\ comm_at (ex_a h_dup) 2 = Some k /\ k_recvs k = [p] /\
  In (EPost (p_id p) Rcv (k_uid k) 7) (a_log (ex_a h_dup)) /\
  outs (ex_run (h_dup ++ [KCommFree 2; KIsend 300 2 INTT 0 7 1; KTest 4 SIgnore])) = Ok [VUnit; VInt 2; VInt 3; VInt 4; VFree 0 None (Some 1); VInt 2; VTest 4 0 SIgnore].
Proof.
  do 2 eexists. split; [apply ex_reach; vm_compute; reflexivity|]. split; [vm_compute; reflexivity|]. split; [reflexivity|].
  split; [vm_compute; auto|vm_compute; reflexivity].
Qed.

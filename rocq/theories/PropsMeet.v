(** Property theorems about the order of messages without wildcards: C91. *)
From Verif Require Import Base HandleExact TypeModel CopyModel CopyEx SysModel CollModel SysCalls SysSpec SysLog SysReach SysFinal SysEx MeetSpec MeetFacts.

(** C91: as long as no receive on a communicator asked for MPI_ANY_TAG, the k-th send with tag [g] meets the k-th receive with
    tag [g], and nothing else, however sends, receives, tags, communicators and other calls are interleaved.  The matches are made
    in that order, too. *)
Theorem C91_kth_send_meets_kth_receive :
  forall (c : cfg) (tj : Z -> tjunk) (s : sys) (a : astate) (uid g : Z), reach c tj s a -> no_wild (a_log a) uid ->
    let l := a_log a in
    meets l (posts l Snd uid g) = combine (posts l Snd uid g) (posts l Rcv uid g) /\
    (forall sid rid, In (EMatch sid rid) l -> In (EPost sid Snd uid g) l ->
       exists k, nth_error (posts l Snd uid g) k = Some sid /\ nth_error (posts l Rcv uid g) k = Some rid) /\
    (forall k sid rid, nth_error (posts l Snd uid g) k = Some sid -> nth_error (posts l Rcv uid g) k = Some rid -> In (EMatch sid rid) l).
Proof. exact (@C91_pairs_lemma). Qed.
Print Assumptions C91_kth_send_meets_kth_receive.

(** What waits in the queues is what one side has posted more than the other. *)
Theorem C91_what_is_left :
  forall (c : cfg) (tj : Z -> tjunk) (s : sys) (a : astate) (h : Z) (k : acomm) (g : Z),
    reach c tj s a -> comm_at a h = Some k -> no_wild (a_log a) (k_uid k) ->
    let l := a_log a in
    left_over (k_sends k) g = skipn (length (posts l Rcv (k_uid k) g)) (posts l Snd (k_uid k) g) /\
    left_over (k_recvs k) g = skipn (length (posts l Snd (k_uid k) g)) (posts l Rcv (k_uid k) g).
Proof. exact (@C91_left_lemma). Qed.
Print Assumptions C91_what_is_left.

(** So everything is complete exactly when for every tag as many sends as receives have been posted. *)
Theorem C91_complete_iff_balanced :
  forall (c : cfg) (tj : Z -> tjunk) (s : sys) (a : astate) (h : Z) (k : acomm),
    reach c tj s a -> comm_at a h = Some k -> no_wild (a_log a) (k_uid k) ->
    ((k_sends k = [] /\ k_recvs k = []) <-> forall g, length (posts (a_log a) Snd (k_uid k) g) = length (posts (a_log a) Rcv (k_uid k) g)).
Proof. exact (@C91_all_lemma). Qed.
Print Assumptions C91_complete_iff_balanced.

(** Two interleavings of the same two receives and three sends with tag 5 and one receive with tag 6, with other calls between: the
    same pairs meet. *)
Definition h_one : list call :=
  [KInit; KIrecv 100 2 INTT 0 5 1; KIsend 200 2 INTT 0 5 1; KIsend 300 2 INTT 0 5 1; KIrecv 400 2 INTT 0 6 1; KIsend 500 2 INTT 0 5 1; KIrecv 600 2 INTT 0 5 1].
Definition h_two : list call :=
  [KInit; KIsend 200 2 INTT 0 5 1; KCommDup 1; KIsend 300 2 INTT 0 5 1; KIsend 500 2 INTT 0 5 1; KIrecv 400 2 INTT 0 6 1; KIrecv 100 2 INTT 0 5 1; KIrecv 600 2 INTT 0 5 1].
Example C91_ex :
  (reach default_cfg ex_tj (ex_s h_one) (ex_a h_one) /\ no_wild (a_log (ex_a h_one)) 0 /\
   posts (a_log (ex_a h_one)) Snd 0 5 = [1; 2; 4] /\ posts (a_log (ex_a h_one)) Rcv 0 5 = [0; 5] /\ meets (a_log (ex_a h_one)) [1; 2; 4] = [(1, 0); (2, 5)] /\
   exists k, comm_at (ex_a h_one) 1 = Some k /\ k_uid k = 0 /\ left_over (k_sends k) 5 = [4] /\ left_over (k_recvs k) 6 = [3]) /\
  (reach default_cfg ex_tj (ex_s h_two) (ex_a h_two) /\ no_wild (a_log (ex_a h_two)) 0 /\
   posts (a_log (ex_a h_two)) Snd 0 5 = [0; 1; 2] /\ posts (a_log (ex_a h_two)) Rcv 0 5 = [4; 5] /\ meets (a_log (ex_a h_two)) [0; 1; 2] = [(0, 4); (1, 5)]).
Proof.
  split.
  - split; [apply ex_reach; vm_compute; reflexivity|]. split; [apply no_wildb_ok; vm_compute; reflexivity|]. do 3 (split; [vm_compute; reflexivity|]).
    eexists. do 3 (split; [vm_compute; reflexivity|]). vm_compute. reflexivity.
  - split; [apply ex_reach; vm_compute; reflexivity|]. split; [apply no_wildb_ok; vm_compute; reflexivity|]. do 2 (split; [vm_compute; reflexivity|]). vm_compute. reflexivity.
Qed.
(** With a wildcard the second send of the tag can meet the first receive of that tag. *)
Definition h_any : list call := [KInit; KIrecv 400 2 INTT 0 (-1) 1; KIrecv 100 2 INTT 0 5 1; KIsend 200 2 INTT 0 5 1; KIsend 300 2 INTT 0 5 1].
Example C91_wildcards_matter : reach default_cfg ex_tj (ex_s h_any) (ex_a h_any) /\ no_wildb (a_log (ex_a h_any)) 0 = false /\
  posts (a_log (ex_a h_any)) Snd 0 5 = [2; 3] /\ posts (a_log (ex_a h_any)) Rcv 0 5 = [1] /\ meets (a_log (ex_a h_any)) [2; 3] = [(2, 0); (3, 1)].
Proof. split; [apply ex_reach; vm_compute; reflexivity|]. do 3 (split; [vm_compute; reflexivity|]). vm_compute. reflexivity. Qed.

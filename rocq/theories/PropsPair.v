(** Property theorems about any program of nonblocking sends and receives, wildcards included: C104. *)
From Coq Require Import Permutation Sorted.
From Verif Require Import Base HandleExact TypeModel TypeSpec CopyModel CopySpec CopyEx SysModel CollModel SysCalls SysSpec SysLog SysReach SysFinal SysEx ExchangeSpec PairSpec PairFacts PropsXfer.

(** C104: any program of nonblocking sends and receives on any communicators, with any tags and MPI_ANY_TAG, any
    counts, datatypes and buffers as long as the data of each pair can be moved.  No call fails; the operations
    [couples] pairs up move their data, one pair after the other, and nothing else changes memory; [left_over] are the ones that wait, in order, behind those that
    waited before on their communicator; every request is new and reports what became of its operation; and nothing else in the library changes.
    [handles_left], [a_items]: the library's limits are not exceeded. *)
Theorem C104_any_program :
  forall (c : cfg) (tj : Z -> tjunk) (s : sys) (a : astate) (prog : list act),
    reach c tj s a -> cfg_ok c -> mem_ok (s_mem s) ->
    acts_ok c a (s_mem s) prog ->
    Z.of_nat (length prog) <= handles_left a -> a_items a + Z.of_nat (length prog) <= INT_MAX ->
    exists hs s1 a1, gives c tj (map act_call prog) s a (map VInt hs) s1 a1 /\
      in_turn c prog (couples prog) (s_mem s) (s_mem s1) /\
      (forall cm k, comm_at a cm = Some k -> exists k1, comm_at a1 cm = Some k1 /\ queues_hold prog hs cm k k1) /\
      NoDup hs /\ length hs = length prog /\
      (forall i h, nth_error hs i = Some h -> a_obj a h = None /\ exists q, req_at a1 h = Some q /\ reports prog i q) /\
      (forall x, ~ In x hs -> comm_at a x = None -> a_obj a1 x = a_obj a x).
Proof. exact (@C104_lemma). Qed.
Print Assumptions C104_any_program.

(** If moreover no receive buffer overlaps another buffer, every receive holds what its send's buffer held at the start, and no other byte changes. *)
Theorem C104_moved :
  forall (c : cfg) (prog : list act) (m m' : mem), separate c prog -> in_turn c prog (couples prog) m m' -> moved c prog m m'.
Proof. exact C104_moved_lemma. Qed.
Print Assumptions C104_moved.

(** [couples] is the pairing the rule of MPI asks for, in the order in which the pairs are made, and every operation is in one pair or left over. *)
Theorem C104_rule :
  forall prog : list act, obeys prog (couples prog) /\ StronglySorted sooner (couples prog) /\
    Permutation (map fst (couples prog) ++ map snd (couples prog) ++ left_over prog) (seq 0 (length prog)).
Proof. exact C104_rule_lemma. Qed.
Print Assumptions C104_rule.

(** The rule leaves no choice: there is only this pairing. *)
Theorem C104_only :
  forall (prog : list act) (M : list (nat * nat)), obeys prog M -> forall i j, In (i, j) M <-> In (i, j) (couples prog).
Proof. exact C104_only_lemma. Qed.
Print Assumptions C104_only.

(** MPI_Waitall for all the requests: if nothing is left over it completes them, the status of every receive tells the sender and the tag of its
    message, and every handle means what it meant before; otherwise the program ends. *)
Theorem C104_completion :
  forall (c : cfg) (tj : Z -> tjunk) (s : sys) (a : astate) (prog : list act) (sts : list status),
    reach c tj s a -> cfg_ok c -> mem_ok (s_mem s) ->
    acts_ok c a (s_mem s) prog ->
    let n := Z.of_nat (length prog) in
    n <= handles_left a -> a_items a + n <= INT_MAX -> n <= Z.of_nat (length sts) ->
    exists hs s1 a1, gives c tj (map act_call prog) s a (map VInt hs) s1 a1 /\ in_turn c prog (couples prog) (s_mem s) (s_mem s1) /\
      (left_over prog = [] ->
         exists sts' s2 a2, does c tj s1 a1 (KWaitall n hs (SSAt sts)) (VAll (map (fun _ => MPI_REQUEST_NULL) hs) 1 (SSAt sts')) s2 a2 /\
           s_mem s2 = s_mem s1 /\ (forall x, a_obj a2 x = a_obj a x) /\
           forall i j x, In (i, j) (couples prog) -> nth_error prog i = Some x -> exists st, nth_error sts' j = Some st /\ st_source st = 0 /\ st_tag st = x_tag x) /\
      (left_over prog <> [] -> exec c (KWaitall n hs (SSAt sts)) s1 = Abort "MPI_Waitall: request not complete, deadlock").
Proof. exact (@C104_waitall_lemma). Qed.
Print Assumptions C104_completion.

(** Eight operations on two communicators, two of them with MPI_ANY_TAG, while a receive with another tag is pending.  The first receive does
    not take the send of the other communicator; the receive of tag 8 overtakes a send of tag 7, which the second MPI_ANY_TAG gets; two are
    left over, with the same tag but on different communicators. *)
Definition h_pending : list call := h_vec ++ [KCommDup 1; KIrecv 50 1 INTT 0 4 1].
Definition w_prog : list act :=
  [mkAct Rcv 1 MPI_ANY_SOURCE 500 MPI_ANY_TAG 2 2 ex_vec 12; mkAct Snd 3 0 200 7 3 INTT int_t 4; mkAct Snd 1 0 100 7 2 2 ex_vec 12;
   mkAct Snd 3 0 300 8 1 2 ex_vec 12; mkAct Rcv 3 0 600 8 1 2 ex_vec 12; mkAct Rcv 3 MPI_ANY_SOURCE 700 MPI_ANY_TAG 3 INTT int_t 4;
   mkAct Rcv 3 0 800 9 1 INTT int_t 4; mkAct Snd 1 0 400 9 3 2 ex_vec 12].
Example C104_rule_ex : couples w_prog = [(2, 0); (3, 4); (1, 5)]%nat /\ left_over w_prog = [6; 7]%nat.
Proof. split; reflexivity. Qed.
Example C104_ex : let s := ex_s h_pending in let a := ex_a h_pending in
  reach default_cfg ex_tj s a /\ cfg_ok default_cfg /\ s_mem s = ex_mem /\ mem_ok ex_mem /\
  comm_at a 1 = Some (mkAcomm 0 [] [mkPend 0 4 50 1 INTT 4]) /\ comm_at a 3 = Some (mkAcomm 1 [] []) /\
  acts_ok default_cfg a ex_mem w_prog /\
  8 <= handles_left a /\ a_items a = 1 /\
  outs (runs default_cfg (map act_call w_prog) s) = Ok [VInt 5; VInt 6; VInt 7; VInt 8; VInt 9; VInt 10; VInt 11; VInt 12].
Proof.
  cbv zeta. split; [apply ex_reach; vm_compute; reflexivity|]. split; [unfold cfg_ok; cbn; lia|]. split; [vm_compute; reflexivity|].
  split; [apply flat_ok; unfold TWO64; lia|].
  assert (K1 : comm_at (ex_a h_pending) 1 = Some (mkAcomm 0 [] [mkPend 0 4 50 1 INTT 4])) by (vm_compute; reflexivity).
  assert (K3 : comm_at (ex_a h_pending) 3 = Some (mkAcomm 1 [] [])) by (vm_compute; reflexivity).
  split; [exact K1|]. split; [exact K3|]. split.
  { assert (V := proj1 ex_vec_typed). assert (C := int_typed). constructor.
    - intros x Hx. cbn [w_prog In] in Hx. repeat (destruct Hx as [<-|Hx]; [cbn [x_comm]; eauto|]). destruct Hx.
    - intros x Hx. cbn [w_prog In] in Hx. repeat (destruct Hx as [<-|Hx]; [cbn [x_src x_side]; auto; discriminate|]). destruct Hx.
    - intros i j x y I X Y. destruct I as [I|[I|[I|[]]]]; injection I as <- <-; injection X as <-; injection Y as <-;
        (constructor; [vm_compute; reflexivity|vm_compute; reflexivity|constructor; try exact V; try exact C; vm_compute; congruence|discriminate|apply fits_ok; vm_compute; reflexivity|apply fits_ok; vm_compute; reflexivity|]);
        (split; [apply flat_live; vm_compute; reflexivity|]); (split; [apply flat_live; vm_compute; reflexivity|]); (split; [apply all_apart_ok|apply pairwise_ok]; vm_compute; reflexivity).
    - intros x k p Hx K Hp. cbn [w_prog In] in Hx.
      repeat (destruct Hx as [<-|Hx]; [cbn [x_comm] in K; rewrite ?K1, ?K3 in K; injection K as <-; cbn [x_side other line k_sends k_recvs In] in Hp; solve [destruct Hp as [<-|[]]; reflexivity|destruct Hp]|]). destruct Hx. }
  split; [vm_compute; discriminate|split; [vm_compute; reflexivity|vm_compute; reflexivity]].
Qed.
Example C104_moved_ex : separate default_cfg w_prog.
Proof.
  constructor.
  - intros i j x y I X Y. destruct I as [I|[I|[I|[]]]]; injection I as <- <-; injection X as <-; injection Y as <-; split; vm_compute; reflexivity.
  - intros i j x y X Y N S.
    do 8 (destruct i as [|i]; [injection X as <-; do 8 (destruct j as [|j]; [injection Y as <-; try discriminate S; try (exfalso; apply N; reflexivity); apply all_apart_ok; vm_compute; reflexivity|]); destruct j; discriminate Y|]).
    destruct i; discriminate X.
Qed.
(** Without the last two nothing is left over; with them MPI_Waitall ends the program. *)
Example C104_completion_ex : let six := firstn 6 w_prog in let s := ex_s h_pending in
  left_over six = [] /\ couples six = couples w_prog /\
  outs (runs default_cfg (map act_call six ++ [KWaitall 6 [5; 6; 7; 8; 9; 10] (SSAt (repeat st0 6))]) s) =
    Ok [VInt 5; VInt 6; VInt 7; VInt 8; VInt 9; VInt 10;
        VAll [0; 0; 0; 0; 0; 0] 1 (SSAt [mkStatus 0 7 13 14; mkStatus 2 7 13 14; mkStatus 2 3 13 14; mkStatus 2 8 13 14; mkStatus 0 8 13 14; mkStatus 0 7 13 14])] /\
  outs (runs default_cfg (map act_call w_prog ++ [KWaitall 8 [5; 6; 7; 8; 9; 10; 11; 12] (SSAt (repeat st0 8))]) s) =
    Abort "MPI_Waitall: request not complete, deadlock".
Proof. cbv zeta. do 2 (split; [reflexivity|]). split; vm_compute; reflexivity. Qed.

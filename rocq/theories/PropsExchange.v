(** Property theorems about whole exchanges of messages: C99. *)
From Coq Require Import Permutation.
From Verif Require Import Base HandleExact TypeModel TypeSpec CopyModel CopySpec CopyEx SysModel CollModel SysCalls SysSpec SysLog SysReach SysFinal SysEx ExchangeSpec ExchangeFacts PropsXfer.

(** C99: any number of messages with different tags is sent and received by nonblocking calls on one communicator, all these calls in
    any order.  No call fails, every message arrives, MPI_Waitall completes all requests; then nothing is left behind in the library
    (every handle means what it meant before), and no other byte has changed.  Other operations may be pending on the communicator as
    long as they do not go with these tags.  [handles_left], [a_items]: the library's limits are not exceeded. *)
Theorem C99_exchange :
  forall (c : cfg) (tj : Z -> tjunk) (s : sys) (a : astate) (cm so : Z) (k : acomm) (ms : list msg) (prog : list (side * msg)) (sts : list status),
    reach c tj s a -> cfg_ok c -> mem_ok (s_mem s) -> comm_at a cm = Some k -> so = 0 \/ so = MPI_ANY_SOURCE ->
    msgs_ok c a (s_mem s) k ms -> Permutation prog (both ms) ->
    let n := Z.of_nat (length prog) in
    n <= handles_left a -> a_items a + n <= INT_MAX -> n <= Z.of_nat (length sts) ->
    exists hs s1 a1, gives c tj (map (post cm so) prog) s a (map VInt hs) s1 a1 /\
      delivered c ms (s_mem s) (s_mem s1) /\ comm_at a1 cm = Some k /\
      exists sts' s2 a2, does c tj s1 a1 (KWaitall n hs (SSAt sts)) (VAll (map (fun _ => MPI_REQUEST_NULL) hs) 1 sts') s2 a2 /\
        s_mem s2 = s_mem s1 /\ forall x, a_obj a2 x = a_obj a x.
Proof. exact (@C99_lemma). Qed.
Print Assumptions C99_exchange.
(** Tags may be equal, too, as long as the messages with one tag are received in the order in which they are sent. *)
Theorem C99_ordered :
  forall (c : cfg) (tj : Z -> tjunk) (s : sys) (a : astate) (cm so : Z) (k : acomm) (ms : list msg) (prog : list (side * msg)) (sts : list status),
    reach c tj s a -> cfg_ok c -> mem_ok (s_mem s) -> comm_at a cm = Some k -> so = 0 \/ so = MPI_ANY_SOURCE ->
    msgs_fit c a (s_mem s) k ms -> in_order ms prog ->
    let n := Z.of_nat (length prog) in
    n <= handles_left a -> a_items a + n <= INT_MAX -> n <= Z.of_nat (length sts) ->
    exists hs s1 a1, gives c tj (map (post cm so) prog) s a (map VInt hs) s1 a1 /\
      delivered c ms (s_mem s) (s_mem s1) /\ comm_at a1 cm = Some k /\
      exists sts' s2 a2, does c tj s1 a1 (KWaitall n hs (SSAt sts)) (VAll (map (fun _ => MPI_REQUEST_NULL) hs) 1 sts') s2 a2 /\
        s_mem s2 = s_mem s1 /\ forall x, a_obj a2 x = a_obj a x.
Proof. exact (@C99_ordered_lemma). Qed.
Print Assumptions C99_ordered.
(** So the order of the calls does not matter: [delivered] leaves nothing open. *)
Theorem C99_one_result :
  forall (c : cfg) (ms : list msg) (m0 m1 m2 : mem), delivered c ms m0 m1 -> delivered c ms m0 m2 -> forall x, m1 x = m2 x.
Proof. exact (@delivered_unique). Qed.
Print Assumptions C99_one_result.

(** Three messages, two of them of a vector type, while a send with another tag is pending; one is received before it is sent. *)
Definition h_before : list call := h_vec ++ [KIsend 50 1 INTT 0 4 1].
Definition x_one : msg := mkMsg 100 500 2 2 ex_vec 12 7.
Definition x_two : msg := mkMsg 200 600 3 INTT int_t 4 5.
Definition x_three : msg := mkMsg 300 700 1 2 ex_vec 12 9.
Definition x_prog : list (side * msg) := [(Snd, x_one); (Rcv, x_two); (Snd, x_three); (Rcv, x_three); (Snd, x_two); (Rcv, x_one)].
Example C99_ex : let s := ex_s h_before in let a := ex_a h_before in let k := mkAcomm 0 [mkPend 0 3 50 1 INTT 4] [] in
  reach default_cfg ex_tj s a /\ cfg_ok default_cfg /\ s_mem s = ex_mem /\ mem_ok ex_mem /\ comm_at a 1 = Some k /\
  msgs_ok default_cfg a ex_mem k [x_one; x_two; x_three] /\ Permutation x_prog (both [x_one; x_two; x_three]) /\
  6 <= handles_left a /\ a_items a = 1 /\
  outs (runs default_cfg (map (post 1 0) x_prog) s) = Ok [VInt 4; VInt 5; VInt 6; VInt 7; VInt 8; VInt 9].
Proof.
  cbv zeta. split; [apply ex_reach; vm_compute; reflexivity|]. split; [unfold cfg_ok; cbn; lia|]. split; [vm_compute; reflexivity|].
  split; [apply flat_ok; unfold TWO64; lia|]. split; [vm_compute; reflexivity|]. split.
  { constructor.
    - intros m [<-|[<-|[<-|[]]]]; (constructor; [vm_compute; reflexivity| |apply fits_ok; vm_compute; reflexivity|apply flat_live; vm_compute; reflexivity|apply flat_live; vm_compute; reflexivity|apply pairwise_ok; vm_compute; reflexivity]);
        (assert (V := proj1 ex_vec_typed); assert (C := int_typed); constructor; try exact V; try exact C; vm_compute; congruence).
    - apply nodupb_ok. vm_compute. reflexivity.
    - intros m [<-|[<-|[<-|[]]]]; discriminate.
    - intros [|] m p; cbn [line other k_sends k_recvs]; [intros _ []|]. intros [<-|[<-|[<-|[]]]] [<-|[]]; reflexivity.
    - intros m m' [<-|[<-|[<-|[]]]] [<-|[<-|[<-|[]]]]; apply all_apart_ok; vm_compute; reflexivity.
    - intros m m' [<-|[<-|[<-|[]]]] [<-|[<-|[<-|[]]]] N; try (exfalso; apply N; reflexivity); apply all_apart_ok; vm_compute; reflexivity. }
  split; [|split; [vm_compute; discriminate|split; [vm_compute; reflexivity|vm_compute; reflexivity]]].
  unfold x_prog, both. cbn [map app].
  apply perm_skip. apply (Permutation_cons_app [_; _; _] [_]). apply (Permutation_cons_app [_] [_; _]). apply (Permutation_cons_app [_; _] []). apply Permutation_refl.
Qed.

(** Two of three messages have the tag 7. *)
Definition x_four : msg := mkMsg 300 700 1 2 ex_vec 12 7.
Definition y_prog : list (side * msg) := [(Snd, x_one); (Rcv, x_two); (Snd, x_four); (Rcv, x_one); (Snd, x_two); (Rcv, x_four)].
Example C99_ordered_ex : let s := ex_s h_before in let a := ex_a h_before in let k := mkAcomm 0 [mkPend 0 3 50 1 INTT 4] [] in
  reach default_cfg ex_tj s a /\ cfg_ok default_cfg /\ s_mem s = ex_mem /\ mem_ok ex_mem /\ comm_at a 1 = Some k /\
  msgs_fit default_cfg a ex_mem k [x_one; x_two; x_four] /\ in_order [x_one; x_two; x_four] y_prog /\
  6 <= handles_left a /\ a_items a = 1 /\
  outs (runs default_cfg (map (post 1 0) y_prog) s) = Ok [VInt 4; VInt 5; VInt 6; VInt 7; VInt 8; VInt 9].
Proof.
  cbv zeta. split; [apply ex_reach; vm_compute; reflexivity|]. split; [unfold cfg_ok; cbn; lia|]. split; [vm_compute; reflexivity|].
  split; [apply flat_ok; unfold TWO64; lia|]. split; [vm_compute; reflexivity|]. split.
  { constructor.
    - intros m [<-|[<-|[<-|[]]]]; (constructor; [vm_compute; reflexivity| |apply fits_ok; vm_compute; reflexivity|apply flat_live; vm_compute; reflexivity|apply flat_live; vm_compute; reflexivity|apply pairwise_ok; vm_compute; reflexivity]);
        (assert (V := proj1 ex_vec_typed); assert (C := int_typed); constructor; try exact V; try exact C; vm_compute; congruence).
    - constructor; [intros [X|[X|[]]]; discriminate X|]. constructor; [intros [X|[]]; discriminate X|]. constructor; [intros []|constructor].
    - intros m [<-|[<-|[<-|[]]]]; discriminate.
    - intros [|] m p; cbn [line other k_sends k_recvs]; [intros _ []|]. intros [<-|[<-|[<-|[]]]] [<-|[]]; reflexivity.
    - intros m m' [<-|[<-|[<-|[]]]] [<-|[<-|[<-|[]]]]; apply all_apart_ok; vm_compute; reflexivity.
    - intros m m' [<-|[<-|[<-|[]]]] [<-|[<-|[<-|[]]]] N; try (exfalso; apply N; reflexivity); apply all_apart_ok; vm_compute; reflexivity. }
  split; [|split; [vm_compute; discriminate|split; [vm_compute; reflexivity|vm_compute; reflexivity]]].
  intros sd t. unfold posted, tagged, y_prog. cbn [filter fst snd same_side andb x_one x_two x_four m_tag].
  destruct (Z.eqb_spec 7 t) as [<-|]; [destruct sd; reflexivity|]. destruct (Z.eqb_spec 5 t) as [<-|]; destruct sd; reflexivity.
Qed.

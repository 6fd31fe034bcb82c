(** Property theorems: the order of sends and receives (C112). *)
From Verif Require Import Base HandleExact TypeModel TypeSpec CopyModel CopySpec CopyEx SysModel CollModel SysCalls SysSpec SysLog SysReach SysFinal SysEx ExchangeSpec PairSpec MixSpec MixFacts PropsXfer PropsPair.

(** C112: two programs of nonblocking sends and receives with the same sends in the same order and the same receives in the same order on each communicator, but
    interleaved in any two ways, with any wildcards: the same send meets the same receive, and the same operations are left over. *)
Theorem C112_pairs :
  forall prog prog' : list act, same_lines prog prog' ->
    forall i j i' j', same_op prog prog' i i' -> same_op prog prog' j j' -> (In (i, j) (couples prog) <-> In (i', j') (couples prog')).
Proof. exact C112_pairs_lemma. Qed.
Print Assumptions C112_pairs.
Theorem C112_left :
  forall prog prog' : list act, same_lines prog prog' -> forall i i', same_op prog prog' i i' -> (In i (left_over prog) <-> In i' (left_over prog')).
Proof. exact C112_left_lemma. Qed.
Print Assumptions C112_left.

(** Every operation of one is an operation of the other, and only one. *)
Theorem C112_same_op :
  forall prog prog' : list act, same_lines prog prog' -> length prog = length prog' /\
    (forall i, (i < length prog)%nat -> exists i', same_op prog prog' i i' /\ forall k, same_op prog prog' i k -> k = i').
Proof. exact C112_op_lemma. Qed.
Print Assumptions C112_same_op.

(** The pairing is the only one that is stable: a send and a receive that fit are together, or the send is with an earlier receive, or the receive with an earlier
    send. *)
Theorem C112_stable :
  forall (prog : list act) (M : list (nat * nat)), (stable prog (couples prog)) /\ (stable prog M -> forall i j, In (i, j) M <-> In (i, j) (couples prog)).
Proof. intros prog M. exact (conj (C112_stable_lemma prog) (C112_only_lemma prog M)). Qed.
Print Assumptions C112_stable.

(** If the two sides of each pair describe the send's buffer alike and no receive buffer overlaps another buffer, both programs run, memory ends the same, the
    same waits on every communicator in the same order, and the requests report the same. *)
Theorem C112_run :
  forall (c : cfg) (tj : Z -> tjunk) (s : sys) (a : astate) (prog prog' : list act),
    reach c tj s a -> cfg_ok c -> mem_ok (s_mem s) -> movable c a (s_mem s) prog -> same_lines prog prog' ->
    Z.of_nat (length prog) <= handles_left a -> a_items a + Z.of_nat (length prog) <= INT_MAX ->
    exists hs s1 a1 hs' s1' a1', gives c tj (map act_call prog) s a (map VInt hs) s1 a1 /\ gives c tj (map act_call prog') s a (map VInt hs') s1' a1' /\
      (forall z, s_mem s1 z = s_mem s1' z) /\
      (forall cm k, comm_at a cm = Some k -> exists k1 k1', comm_at a1 cm = Some k1 /\ comm_at a1' cm = Some k1' /\ same_queues k1 k1') /\
      (forall i i' h h', same_op prog prog' i i' -> nth_error hs i = Some h -> nth_error hs' i' = Some h' ->
         exists q q', req_at a1 h = Some q /\ req_at a1' h' = Some q' /\ report q = report q').
Proof. exact (@C112_run_lemma). Qed.
Print Assumptions C112_run.

(** The eight operations of C104_ex; the same with all sends first, and with all receives first. *)
Definition w_at (i : nat) : act := nth i w_prog (mkAct Snd 0 0 0 0 0 0 int_t 0).
Definition sends_first : list act := map w_at [1; 2; 3; 7; 0; 4; 5; 6]%nat.
Definition recvs_first : list act := map w_at [4; 0; 5; 6; 2; 1; 7; 3]%nat.
Lemma lines_eq prog prog' : (forall cm, In cm (map x_comm (prog ++ prog')) -> forall sd, filter (kindred (mkAct sd cm 0 0 0 0 0 int_t 0)) prog = filter (kindred (mkAct sd cm 0 0 0 0 0 int_t 0)) prog') ->
  same_lines prog prog'.
Proof.
  intros H x. destruct (in_dec Z.eq_dec (x_comm x) (map x_comm (prog ++ prog'))) as [I|N].
  - exact (H (x_comm x) I (x_side x)).
  - assert (E : forall l, incl l (prog ++ prog') -> filter (kindred x) l = []).
    { induction l as [|y l IH]; intros Ic; [reflexivity|]. cbn [filter]. destruct (kindred x y) eqn:K; [|apply IH; intros z Iz; apply Ic; right; exact Iz].
      apply kindred_eq in K. destruct N. rewrite (proj1 K). apply in_map, Ic. left. reflexivity. }
    rewrite !E; [reflexivity|apply incl_appr, incl_refl|apply incl_appl, incl_refl].
Qed.
Example C112_ex :
  same_lines w_prog sends_first /\ same_lines w_prog recvs_first /\
  couples w_prog = [(2, 0); (3, 4); (1, 5)]%nat /\ couples sends_first = [(1, 4); (2, 5); (0, 6)]%nat /\ couples recvs_first = [(4, 1); (5, 2); (7, 0)]%nat /\
  left_over w_prog = [6; 7]%nat /\ left_over sends_first = [3; 7]%nat /\ left_over recvs_first = [3; 6]%nat.
Proof.
  split; [|split].
  - apply lines_eq. intros cm I sd. cbn in I. repeat (destruct I as [<-|I]; [destruct sd; reflexivity|]). destruct I.
  - apply lines_eq. intros cm I sd. cbn in I. repeat (destruct I as [<-|I]; [destruct sd; reflexivity|]). destruct I.
  - repeat split.
Qed.
Example C112_run_ex : let s := ex_s h_pending in let a := ex_a h_pending in
  movable default_cfg a ex_mem w_prog /\
  bytes_at [500; 503; 508; 512; 520; 600; 608; 700; 704; 711; 800] (runs default_cfg (map act_call sends_first) s) =
  bytes_at [500; 503; 508; 512; 520; 600; 608; 700; 704; 711; 800] (runs default_cfg (map act_call recvs_first) s).
Proof.
  cbv zeta. split; [|vm_compute; reflexivity].
  destruct C104_ex as (_ & _ & _ & _ & _ & _ & OK & _). destruct C104_moved_ex as [_ SA].
  assert (V := proj1 ex_vec_typed). assert (C := int_typed). destruct OK as [O1 O2 _ O4]. constructor; auto.
  intros i j x y I X Y. destruct I as [I|[I|[I|[]]]]; injection I as <- <-; injection X as <-; injection Y as <-;
    (split; [|split; [|split; vm_compute; reflexivity]]);
    (constructor; [vm_compute; reflexivity|vm_compute; reflexivity|constructor; try exact V; try exact C; vm_compute; congruence|discriminate|apply fits_ok; vm_compute; reflexivity|apply fits_ok; vm_compute; reflexivity|]);
    (split; [apply flat_live; vm_compute; reflexivity|]); (split; [apply flat_live; vm_compute; reflexivity|]); (split; [apply all_apart_ok|apply pairwise_ok]; vm_compute; reflexivity).
Qed.
(** If the two sides describe the send's buffer differently, the pairs are the same but the data are not (C32): two vectors sent, four ints received. *)
Example C112_layouts_ex :
  let x := mkAct Snd 1 0 100 3 2 2 ex_vec 12 in let y := mkAct Rcv 1 0 500 3 4 INTT int_t 4 in let s := ex_s h_vec in
  same_lines [x; y] [y; x] /\ couples [x; y] = [(0, 1)]%nat /\ couples [y; x] = [(1, 0)]%nat /\
  bytes_at [500; 504; 508; 512] (runs default_cfg (map act_call [x; y]) s) = Ok (map ex_mem [100; 104; 108; 112]) /\
  bytes_at [500; 504; 508; 512] (runs default_cfg (map act_call [y; x]) s) = Ok (map ex_mem [100; 108; 112; 120]).
Proof.
  cbv zeta. split; [|do 2 (split; [reflexivity|]); split; vm_compute; reflexivity].
  apply lines_eq. intros cm I sd. cbn in I. repeat (destruct I as [<-|I]; [destruct sd; reflexivity|]). destruct I.
Qed.

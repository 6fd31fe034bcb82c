(** Property theorems about any program of sends, receives, waits and tests: C108. *)
From Verif Require Import Base HandleExact TypeModel TypeSpec CopyModel CopySpec CopyFinal CopyEx SysModel CollModel SysCalls SysSpec SysLog SysReach SysFinal SysEx ExchangeSpec PairSpec CourseSpec CourseFacts PropsXfer PropsPair.

(** C108: any program of MPI_Isend, MPI_Irsend, MPI_Irecv, MPI_Send, MPI_Ssend, MPI_Rsend, MPI_Recv, MPI_Sendrecv, MPI_Probe, MPI_Iprobe, MPI_Wait, MPI_Test,
    MPI_Request_free, MPI_Waitall, MPI_Testall, MPI_Waitany, MPI_Testany, MPI_Waitsome and MPI_Testsome, on any communicators [cms], with other calls
    (C108_aside) and anything the program does to its own memory in between, from any state: [old] are the operations that wait there already, with the requests [hs0].
    If every call that needs one comes when its operation has a partner ([flows], a property of the program text), the program runs to its end: every
    call succeeds and answers what it should ([goes]), the memory is what the program and the messages make of it ([evolves]), what has no partner waits
    in order, the requests that were released are gone, and if all were, every handle means what it meant before, without what waited: nothing leaks. *)
Theorem C108_goes :
  forall (c : cfg) (tj : Z -> tjunk) (s : sys) (a : astate) (cms : list Z) (old : list act) (hs0 : list Z) (p : list item),
    reach c tj s a -> cfg_ok c -> mem_ok (s_mem s) -> standing a cms old hs0 ->
    let prog := old ++ started p in let n0 := length old in
    course_ok c a (s_mem s) cms prog ->
    Z.of_nat (length (started p)) <= handles_left a -> a_items a + Z.of_nat (length (started p)) <= INT_MAX ->
    Forall (item_ok c tj a cms) p -> all_named prog n0 p = true -> flows prog n0 p = true ->
    let done := seen prog n0 [] p in
    exists hs s1 a1, goes c tj prog n0 [] hs0 p s a hs s1 a1 /\
      evolves c prog n0 p (s_mem s) (s_mem s1) /\
      (forall cm, In cm cms -> exists k k1, comm_at a cm = Some k /\ comm_at a1 cm = Some k1 /\ k_uid k1 = k_uid k /\
         forall sd, Forall2 (waits_for prog hs cm sd) (filter (on_side prog cm sd) (left_over prog)) (line sd k1)) /\
      length hs = length prog /\
      (forall i h, nth_error hs i = Some h -> In i done -> h = MPI_REQUEST_NULL /\ ~ In i (left_over prog)) /\
      (forall i h, nth_error hs i = Some h -> ~ In i done -> cleared a cms hs0 h = None /\ exists q, req_at a1 h = Some q /\ reports prog i q) /\
      (forall x, ~ In x hs -> ~ In x cms -> a_obj a1 x = cleared a cms hs0 x) /\
      ((forall i, (i < length prog)%nat -> In i done) -> forall x, a_obj a1 x = cleared a cms hs0 x).
Proof. exact (@C108_goes_lemma). Qed.
Print Assumptions C108_goes.

(** And if not, it runs up to the first call whose partner is missing, and stops there with that call's message about a deadlock: it does not
    hang, and no other outcome is possible. *)
Theorem C108_stops :
  forall (c : cfg) (tj : Z -> tjunk) (s : sys) (a : astate) (cms : list Z) (old : list act) (hs0 : list Z) (p : list item),
    reach c tj s a -> cfg_ok c -> mem_ok (s_mem s) -> standing a cms old hs0 ->
    let prog := old ++ started p in let n0 := length old in
    course_ok c a (s_mem s) cms prog ->
    Z.of_nat (length (started p)) <= handles_left a -> a_items a + Z.of_nat (length (started p)) <= INT_MAX ->
    Forall (item_ok c tj a cms) p -> all_named prog n0 p = true -> flows prog n0 p = false ->
    exists q it r hs s1 a1, p = q ++ it :: r /\ flows prog n0 q = true /\ goes c tj prog n0 [] hs0 q s a hs s1 a1 /\
      returns prog (n0 + length (started q)) it = false /\ exec c (item_call hs (s_mem s1) it) s1 = Abort (halt it).
Proof. exact (@C108_stops_lemma). Qed.
Print Assumptions C108_stops.

(** If the program writes nothing itself, the memory is what the pairs of C104 make of it, one after the other. *)
Theorem C108_memory :
  forall (c : cfg) (tj : Z -> tjunk) (s : sys) (a : astate) (cms : list Z) (old : list act) (hs0 : list Z) (p : list item) (m m' : mem),
    reach c tj s a -> standing a cms old hs0 -> existsb own p = false ->
    (evolves c (old ++ started p) (length old) p m m' <-> in_turn c (old ++ started p) (couples (old ++ started p)) m m').
Proof. intros c tj s a cms old hs0 p m m'. exact (@C108_memory_lemma c s a cms old hs0 p m m' tj). Qed.
Print Assumptions C108_memory.

(** What waits can always be written down so, for any communicators that exist. *)
Theorem C108_standing :
  forall (a : astate) (cms : list Z), NoDup cms -> (forall cm, In cm cms -> comm_at a cm <> None) ->
    exists old hs, standing a cms old hs /\ forall x, In x old -> x_src x = 0.
Proof. exact C108_standing_lemma. Qed.
Print Assumptions C108_standing.

(** The other calls between them ([Aside]) may be any that start no operation, release no request and do what the program says they do ([aside_ok]).  These do:
    MPI_Type_size, MPI_Type_extent, MPI_Get_elements, MPI_Pack_size, MPI_Pack, MPI_Unpack, and every collective call that does nothing or moves one message. *)
Theorem C108_aside :
  forall (c : cfg) (tj : Z -> tjunk) (a : astate) (cms : list Z) (k : call) (R : mem -> mem -> out -> Prop),
    cfg_ok c -> told c a cms k R -> aside_ok c tj a cms k R.
Proof. intros c tj a cms k R CO. exact (C108_aside_lemma c tj CO a cms k R). Qed.
Print Assumptions C108_aside.

(** The eight operations of C104_ex, now with waits and tests and some of them blocking; operation 0 is the receive that waits. *)
Definition l_op (i : nat) : act := nth i w_prog (mkAct Snd 0 0 0 0 0 0 int_t 0).
Definition l_old : list act := [mkAct Rcv 1 0 50 4 1 INTT int_t 4].
Definition l_all : list act := l_old ++ w_prog.
Definition l_start : list item :=
  [Post (l_op 0); Post (l_op 1); Poll 1 (SAt st0); Block Plain (l_op 2) SIgnore; Await 1 (SAt st0); Post (l_op 3); Block Plain (l_op 4) (SAt st0);
   Await 4 (SAt st0); Block Plain (l_op 5) SIgnore; Poll 2 SIgnore; Await 2 (SAt st0)].
Definition l_prog : list item := l_start ++ [Post (l_op 6); Post (l_op 7); Poll 7 (SAt st0)].
Definition l_wait : list item := l_prog ++ [Await 7 SIgnore].
Definition l_block : list item := l_start ++ [Block Plain (l_op 6) SIgnore; Post (l_op 7)].
(** An item whose arguments are right in any state. *)
Definition fine (cms : list Z) (it : item) : Prop := forall a, item_ok default_cfg ex_tj a cms it.
Lemma l_standing : let a := ex_a h_pending in standing a [1; 3] l_old [4].
Proof.
  cbv zeta.
  assert (K1 : comm_at (ex_a h_pending) 1 = Some (mkAcomm 0 [] [mkPend 0 4 50 1 INTT 4])) by (vm_compute; reflexivity).
  assert (K3 : comm_at (ex_a h_pending) 3 = Some (mkAcomm 1 [] [])) by (vm_compute; reflexivity).
  generalize dependent (ex_a h_pending). intros a K1 K3. constructor.
  - reflexivity.
  - intros x [<-|[]]. left. reflexivity.
  - intros cm [<-|[<-|[]]]; eexists; (split; [eassumption|]); intros [|]; cbn [line k_sends k_recvs]; try constructor; [|constructor].
    exists (mkAct Rcv 1 0 50 4 1 INTT int_t 4). cbn. auto 10.
Qed.
Lemma l_course : forall l, (forall x, In x l -> In x l_all) -> (forall i j, In (i, j) (couples l) -> In (i, j) [(3, 1); (4, 5); (2, 6)]%nat) ->
  (forall i x, nth_error l i = Some x -> nth_error l_all i = Some x) -> course_ok default_cfg (ex_a h_pending) ex_mem [1; 3] l.
Proof.
  intros l Sub Cp At. assert (V := proj1 ex_vec_typed). assert (C := int_typed). constructor.
  - intros x Hx. apply Sub in Hx. cbn [l_all l_old w_prog app In] in Hx. repeat (destruct Hx as [<-|Hx]; [cbn [x_comm In]; auto|]). destruct Hx.
  - intros x Hx. apply Sub in Hx. cbn [l_all l_old w_prog app In] in Hx. repeat (destruct Hx as [<-|Hx]; [cbn [x_src x_side]; auto; discriminate|]). destruct Hx.
  - intros i j x y I X Y. apply Cp in I. apply At in X, Y. destruct I as [I|[I|[I|[]]]]; injection I as <- <-; injection X as <-; injection Y as <-;
      (constructor; [vm_compute; reflexivity|vm_compute; reflexivity|constructor; try exact V; try exact C; vm_compute; congruence|discriminate|apply fits_ok; vm_compute; reflexivity|apply fits_ok; vm_compute; reflexivity|]);
      (split; [apply flat_live; vm_compute; reflexivity|]); (split; [apply flat_live; vm_compute; reflexivity|]); (split; [apply all_apart_ok|apply pairwise_ok]; vm_compute; reflexivity).
Qed.
Example C108_ex : let a := ex_a h_pending in
  reach default_cfg ex_tj (ex_s h_pending) a /\ s_mem (ex_s h_pending) = ex_mem /\ standing a [1; 3] l_old [4] /\ course_ok default_cfg a ex_mem [1; 3] l_all /\
  (started l_prog = w_prog /\ started l_wait = w_prog /\ started l_block = w_prog) /\ Forall (fine [1; 3]) (l_wait ++ l_block) /\
  (all_named l_all 1 l_prog = true /\ all_named l_all 1 l_wait = true /\ all_named l_all 1 l_block = true) /\
  (flows l_all 1 l_prog = true /\ flows l_all 1 l_wait = false /\ flows l_all 1 l_block = false) /\
  seen l_all 1 [] l_prog = [2; 2; 6; 4; 5; 1; 3]%nat /\ left_over l_all = [0; 7; 8]%nat.
Proof.
  cbv zeta. split; [apply ex_reach; vm_compute; reflexivity|]. split; [vm_compute; reflexivity|]. split; [exact l_standing|]. split; [apply l_course; auto; intros i j I; exact I|].
  generalize dependent (ex_a h_pending). intros _. split; [repeat split|]. split; [repeat constructor; discriminate|]. repeat split.
Qed.
Definition l_calls : list call :=
  [act_call (l_op 0); act_call (l_op 1); KTest 5 (SAt st0); block_call Plain (l_op 2) SIgnore; KWait 5 (SAt st0); act_call (l_op 3); block_call Plain (l_op 4) (SAt st0);
   KWait 5 (SAt st0); block_call Plain (l_op 5) SIgnore; KTest 6 SIgnore; KWait 0 (SAt st0)].
Definition l_outs : list out :=
  [VInt 5; VInt 6; VTest 5 0 (SAt st0); VUnit; VWait 0 (SAt (mkStatus 0 7 13 14)); VInt 5; VStatus (SAt (mkStatus 0 8 13 1));
   VWait 0 (SAt (mkStatus 0 8 13 14)); VStatus SIgnore; VTest 0 1 SIgnore; VWait 0 (SAt (mkStatus (-1) (-1) 13 14))].
Example C108_run_ex : let s := ex_s h_pending in
  outs (runs default_cfg (l_calls ++ [act_call (l_op 6); act_call (l_op 7); KTest 6 (SAt st0)]) s) = Ok (l_outs ++ [VInt 6; VInt 5; VTest 6 0 (SAt st0)]) /\
  outs (runs default_cfg (l_calls ++ [act_call (l_op 6); act_call (l_op 7); KTest 6 (SAt st0); KWait 6 SIgnore]) s) =
    Abort "MPI_Wait: request not complete, deadlock" /\
  outs (runs default_cfg (l_calls ++ [block_call Plain (l_op 6) SIgnore]) s) = Abort "MPI_Wait: request not complete, deadlock".
Proof. cbv zeta. split; [|split]; vm_compute; reflexivity. Qed.

(** The first six, then the program changes a byte of its memory and sends to the receive that waited before, and waits for that. *)
Definition poke (z v : Z) (m : mem) : mem := fun x => if x =? z then match m x with Some _ => Some v | None => None end else m x.
Definition o_prog : list item := l_start ++ [Own (poke 60 5); Block Plain (mkAct Snd 1 0 60 4 1 INTT int_t 4) SIgnore; Await 0 (SAt st0)].
Example C108_old_ex : let all := l_old ++ started o_prog in
  course_ok default_cfg (ex_a h_pending) ex_mem [1; 3] all /\ Forall (fine [1; 3]) o_prog /\ all_named all 1 o_prog = true /\ flows all 1 o_prog = true /\
  couples all = [(3, 1); (4, 5); (2, 6); (7, 0)]%nat /\ (forall i, (i < length all)%nat -> In i (seen all 1 [] o_prog)) /\
  cleared (ex_a h_pending) [1; 3] [4] 4 = None /\ cleared (ex_a h_pending) [1; 3] [4] 1 = Some (AComm (mkAcomm 0 [] [])) /\
  let r := runs default_cfg (l_calls ++ [KUser (poke 60 5 (s_mem (ex_s (h_pending ++ l_calls)))); KSend 60 1 INTT 0 4 1; KWait 4 (SAt st0)]) (ex_s h_pending) in
  outs r = Ok (l_outs ++ [VUnit; VUnit; VWait 0 (SAt (mkStatus 0 4 13 14))]) /\ bytes_at [50; 51; 52; 53] r = Ok (Some 5 :: map ex_mem [61; 62; 63]).
Proof.
  cbv zeta. assert (V := proj1 ex_vec_typed). assert (C := int_typed). split; [constructor|].
  - intros x Hx. cbn [o_prog l_start started starts flat_map l_old app In] in Hx. repeat (destruct Hx as [<-|Hx]; [cbn; auto|]). destruct Hx.
  - intros x Hx. cbn [o_prog l_start started starts flat_map l_old app In] in Hx. repeat (destruct Hx as [<-|Hx]; [cbn [l_op nth w_prog x_src x_side]; auto; discriminate|]). destruct Hx.
  - intros i j x y I X Y. change (In (i, j) [(3, 1); (4, 5); (2, 6); (7, 0)]%nat) in I. destruct I as [I|[I|[I|[I|[]]]]]; injection I as <- <-; injection X as <-; injection Y as <-;
      (constructor; [vm_compute; reflexivity|vm_compute; reflexivity|constructor; try exact V; try exact C; vm_compute; congruence|discriminate|apply fits_ok; vm_compute; reflexivity|apply fits_ok; vm_compute; reflexivity|]);
      (split; [apply flat_live; vm_compute; reflexivity|]); (split; [apply flat_live; vm_compute; reflexivity|]); (split; [apply all_apart_ok|apply pairwise_ok]; vm_compute; reflexivity).
  - split; [apply Forall_app; split; [repeat constructor; discriminate|]|].
    { constructor; [|repeat constructor; discriminate]. intros a m z. unfold poke. destruct (z =? 60); [|reflexivity]. destruct (m z); split; intros; congruence. }
    do 3 (split; [reflexivity|]). split; [intros i L; change (In i [0; 7; 2; 2; 6; 4; 5; 1; 3]%nat); cbn [o_prog l_start started starts flat_map l_old app length] in L; cbn [In]; lia|].
    split; [vm_compute; reflexivity|]. split; [vm_compute; reflexivity|]. split; vm_compute; reflexivity.
Qed.

(** A message handed on: the second send takes the first receive's buffer.  The first receive has another datatype than its send. *)
Definition f_prog : list item :=
  [Post (mkAct Rcv 1 0 500 3 4 INTT int_t 4); Block Plain (mkAct Snd 1 0 100 3 2 2 ex_vec 12) SIgnore; Await 0 SIgnore;
   Post (mkAct Snd 1 0 500 6 4 INTT int_t 4); Block Plain (mkAct Rcv 1 MPI_ANY_SOURCE 700 MPI_ANY_TAG 4 INTT int_t 4) (SAt st0); Await 2 SIgnore].
Example C108_hand_on_ex : let s := ex_s h_vec in let a := ex_a h_vec in
  reach default_cfg ex_tj s a /\ s_mem s = ex_mem /\ standing a [1] [] [] /\ course_ok default_cfg a ex_mem [1] (started f_prog) /\ Forall (fine [1]) f_prog /\
  all_named (started f_prog) 0 f_prog = true /\ flows (started f_prog) 0 f_prog = true /\ (forall i, (i < 4)%nat -> In i (seen (started f_prog) 0 [] f_prog)) /\
  existsb own f_prog = false /\ (forall x, cleared a [1] [] x = a_obj a x) /\
  forall m', in_turn default_cfg (started f_prog) (couples (started f_prog)) ex_mem m' ->
    bytes m' [(700, 4); (704, 4); (708, 4); (712, 4)] = bytes ex_mem [(100, 4); (108, 4); (112, 4); (120, 4)].
Proof.
  cbv zeta. split; [apply ex_reach; vm_compute; reflexivity|]. split; [vm_compute; reflexivity|].
  assert (K1 : a_obj (ex_a h_vec) 1 = Some (AComm (mkAcomm 0 [] []))) by (vm_compute; reflexivity).
  split; [|split; [|split; [repeat constructor; discriminate|split; [reflexivity|split; [reflexivity|split; [|split; [reflexivity|split]]]]]]].
  - generalize dependent (ex_a h_vec). intros a K1. constructor; [reflexivity|intros x []|]. intros cm [<-|[]]. exists (mkAcomm 0 [] []). split; [unfold comm_at; rewrite K1; reflexivity|]. intros [|]; constructor.
  - assert (V := proj1 ex_vec_typed). assert (C := int_typed). constructor.
    + intros x Hx. cbn [f_prog started In] in Hx. repeat (destruct Hx as [<-|Hx]; [cbn [x_comm In]; auto|]). destruct Hx.
    + intros x Hx. cbn [f_prog started In] in Hx. repeat (destruct Hx as [<-|Hx]; [cbn [x_src x_side]; auto; discriminate|]). destruct Hx.
    + intros i j x y I X Y. destruct I as [I|[I|[]]]; injection I as <- <-; injection X as <-; injection Y as <-;
        (constructor; [vm_compute; reflexivity|vm_compute; reflexivity|constructor; try exact V; try exact C; vm_compute; congruence|discriminate|apply fits_ok; vm_compute; reflexivity|apply fits_ok; vm_compute; reflexivity|]);
        (split; [apply flat_live; vm_compute; reflexivity|]); (split; [apply flat_live; vm_compute; reflexivity|]); (split; [apply all_apart_ok|apply pairwise_ok]; vm_compute; reflexivity).
  - intros i L. change (In i [2; 3; 0; 1]%nat). cbn [In]. lia.
  - generalize dependent (ex_a h_vec). intros a K1 x. unfold cleared. cbn [existsb orb]. destruct (Z.eqb_spec x 1) as [->|]; [rewrite K1|]; reflexivity.
  - intros m' (x1 & y1 & m1 & X1 & Y1 & _ & C1 & x2 & y2 & m2 & X2 & Y2 & _ & C2 & E).
    injection X1 as <-. injection Y1 as <-. injection X2 as <-. injection Y2 as <-. change (m' = m2) in E. subst m'.
    apply bytes_copied in C1; [|vm_compute; reflexivity]. apply bytes_copied in C2; [|vm_compute; reflexivity]. etransitivity; [exact C2|exact C1].
Qed.
Example C108_hand_on_run_ex :
  bytes_at [700; 701; 702; 703; 704; 708; 712; 715]
    (runs default_cfg [KIrecv 500 4 INTT 0 3 1; KSend 100 2 2 0 3 1; KWait 3 SIgnore; KIsend 500 4 INTT 0 6 1; KRecv 700 4 INTT MPI_ANY_SOURCE MPI_ANY_TAG 1 (SAt st0);
                       KWait 3 SIgnore] (ex_s h_vec)) =
  Ok (map ex_mem [100; 101; 102; 103; 108; 112; 120; 123]).
Proof. vm_compute. reflexivity. Qed.

(** The same eight operations with the other calls: probes, MPI_Irsend, MPI_Waitany, MPI_Testsome, MPI_Request_free, MPI_Waitall, MPI_Testall, MPI_Testany,
    and four ways to go wrong. *)
Definition v_start : list item :=
  [Post (l_op 0); Post (l_op 1); Look false (l_op 4) (SAt st0); Look true (l_op 5) (SAt st0); Ready (l_op 2); AnyOf true [2; 1]%nat 99 (SAt st0); Post (l_op 3);
   PollAll (TestSome [77]) [1; 2; 3; 4]%nat (SSAt (repeat st0 4)); Post (l_op 4); Drop 4; Block Plain (l_op 5) SIgnore; AwaitAll [2; 5; 3]%nat (SSAt (repeat st0 3))].
Definition v_prog : list item := v_start ++ [Post (l_op 6); Post (l_op 7); PollAll TestAll [8; 5]%nat (SSAt (repeat st0 2)); AnyOf false [7; 8]%nat 99 (SAt st0)].
Definition v_ends : list (list item) :=
  [v_prog ++ [AwaitAll [5; 7]%nat (SSAt (repeat st0 2))]; v_prog ++ [AnyOf true [7; 8]%nat 99 SIgnore]; v_prog ++ [Look true (l_op 6) SIgnore];
   v_start ++ [Post (l_op 6); Ready (l_op 7)]; v_start ++ [Post (l_op 6); Block Rdy (l_op 7) SIgnore]].
Example C108_all_ex :
  started v_prog = w_prog /\ Forall (fine [1; 3]) v_prog /\ all_named l_all 1 v_prog = true /\ flows l_all 1 v_prog = true /\
  seen l_all 1 [] v_prog = [5; 2; 5; 3; 6; 4; 1; 3; 1]%nat /\
  Forall (fun p => started p = w_prog /\ Forall (fine [1; 3]) p /\ all_named l_all 1 p = true /\ flows l_all 1 p = false) v_ends.
Proof.
  assert (LK : forall wt i st, st <> SBad -> i = 4%nat \/ i = 5%nat \/ i = 6%nat -> fine [1; 3] (Look wt (l_op i) st)).
  { intros wt i st Ns Hi a. split; [exact Ns|]. destruct Hi as [-> | [-> | ->]]; (split; [reflexivity|]); (split; cbn; auto). }
  assert (ND : forall l : list nat, forallb (fun i => Nat.eqb (count_occ Nat.eq_dec l i) 1) l = true -> NoDup l).
  { intros l E. apply (NoDup_count_occ' Nat.eq_dec). intros i I. apply Nat.eqb_eq. exact (proj1 (forallb_forall _ l) E i I). }
  assert (Vs : Forall (fine [1; 3]) v_start).
  { unfold v_start. repeat (apply Forall_cons; [solve [first [apply LK; [discriminate|auto]|intros a; first [exact I|reflexivity|split; [discriminate|auto]|split; [apply ND; reflexivity|first [discriminate|cbn [sts_ok repeat length]; lia]]]]]|]). constructor. }
  assert (Vp : Forall (fine [1; 3]) v_prog).
  { apply Forall_app. split; [exact Vs|]. repeat (apply Forall_cons; [solve [intros a; first [exact I|split; [apply ND; reflexivity|first [discriminate|cbn [sts_ok repeat length]; lia]]]]|]). constructor. }
  do 4 (split; [first [exact Vp|reflexivity]|]). split; [reflexivity|].
  unfold v_ends. repeat (apply Forall_cons; [split; [reflexivity|]; split; [apply Forall_app; split; [first [exact Vp|exact Vs]|]|split; reflexivity]|]); [..|constructor];
    repeat (apply Forall_cons; [solve [first [apply LK; [discriminate|auto]|intros a; first [exact I|reflexivity|split; [discriminate|auto]|split; [apply ND; reflexivity|first [discriminate|cbn [sts_ok repeat length]; lia]]]]]|]); constructor.
Qed.
Definition v_calls : list call :=
  [act_call (l_op 0); act_call (l_op 1); KIprobe 0 8 3 (SAt st0); KProbe MPI_ANY_SOURCE MPI_ANY_TAG 3 (SAt st0); KIrsend 100 2 2 0 7 1; KWaitany 2 [6; 5] 99 (SAt st0);
   act_call (l_op 3); KTestsome 4 [0; 6; 7; 5] [77] (SSAt (repeat st0 4)); act_call (l_op 4); KRequestFree 5; block_call Plain (l_op 5) SIgnore;
   KWaitall 3 [6; 7; 0] (SSAt (repeat st0 3))].
Definition v_more : list call := [act_call (l_op 6); act_call (l_op 7); KTestall 2 [6; 0] (SSAt (repeat st0 2)); KTestany 2 [7; 6] 99 (SAt st0)].
Example C108_all_run_ex : let s := ex_s h_pending in
  outs (runs default_cfg (v_calls ++ v_more) s) =
    Ok [VInt 5; VInt 6; VProbe 0 (SAt st0); VStatus (SAt (mkStatus 0 7 13 14)); VInt 7; VAny [6; 0] 99 1 (SAt (mkStatus 0 7 13 14)); VInt 5;
        VSome [0; 6; 0; 5] 2 [77] (SSAt [mkStatus (-1) (-1) 13 14; st0; mkStatus 2 3 13 14; st0]); VInt 7; VInt 0; VStatus SIgnore;
        VAll [0; 0; 0] 1 (SSAt [mkStatus 2 7 13 14; mkStatus 0 8 13 14; mkStatus (-1) (-1) 13 14]);
        VInt 7; VInt 6; VAll [6; 0] 0 (SSAt [st0; mkStatus (-1) (-1) 13 14]); VAny [7; 6] 99 0 (SAt st0)] /\
  map (fun r => outs (runs default_cfg (v_calls ++ r) s))
    [v_more ++ [KWaitall 2 [0; 7] (SSAt (repeat st0 2))]; v_more ++ [KWaitany 2 [7; 6] 99 SIgnore]; v_more ++ [KProbe 0 9 3 SIgnore];
     [act_call (l_op 6); KIrsend 400 3 2 0 9 1]; [act_call (l_op 6); KRsend 400 3 2 0 9 1]] =
    map (fun it => Abort (halt it)) [AwaitAll [] SSIgnore; AnyOf true [] 0 SIgnore; Look true (l_op 6) SIgnore; Ready (l_op 7); Block Rdy (l_op 7) SIgnore].
Proof. cbv zeta. split; vm_compute; reflexivity. Qed.
(** The message handed on, with MPI_Sendrecv first. *)
Definition f_both : list item :=
  [Both (mkAct Snd 1 0 100 3 2 2 ex_vec 12) (mkAct Rcv 1 0 500 3 4 INTT int_t 4) SIgnore;
   Post (mkAct Snd 1 0 500 6 4 INTT int_t 4); Block Plain (mkAct Rcv 1 MPI_ANY_SOURCE 700 MPI_ANY_TAG 4 INTT int_t 4) (SAt st0); Await 2 SIgnore].
Example C108_both_ex :
  started f_both = started f_prog /\ Forall (fine [1]) f_both /\ all_named (started f_both) 0 f_both = true /\ flows (started f_both) 0 f_both = true /\
  bytes_at [700; 701; 702; 703; 704; 708; 712; 715]
    (runs default_cfg [KSendrecv 100 2 2 0 3 500 4 INTT 0 3 1 SIgnore; KIsend 500 4 INTT 0 6 1; KRecv 700 4 INTT MPI_ANY_SOURCE MPI_ANY_TAG 1 (SAt st0); KWait 3 SIgnore] (ex_s h_vec)) =
  Ok (map ex_mem [100; 101; 102; 103; 108; 112; 120; 123]).
Proof. split; [reflexivity|]. split; [repeat constructor; discriminate|]. do 2 (split; [reflexivity|]). vm_compute. reflexivity. Qed.

(** Other calls in between: the message is packed while the receive waits, sent, brought on by MPI_Allreduce, and unpacked beside it. *)
Definition g_vec : list region := [(100, 4); (108, 4); (112, 4); (120, 4)].
Definition g_ints (b : Z) : list region := [(b, 4); (b + 4, 4); (b + 8, 4); (b + 12, 4)].
Definition g_same (v : Z) : mem -> mem -> out -> Prop := fun m m' o => m' = m /\ o = VInt v.
Definition g_pack : mem -> mem -> out -> Prop := fun m m' o => o = VInt 21 /\ bytes m' [(805, 16)] = bytes m g_vec /\ forall z, ~ inside (805, 16) z -> m' z = m z.
Definition g_unpack : mem -> mem -> out -> Prop := fun m m' o => o = VInt 21 /\ bytes m' (g_ints 700) = bytes m [(805, 16)] /\ forall z, (forall r, In r (g_ints 700) -> ~ inside r z) -> m' z = m z.
Definition g_prog : list item :=
  [Post (mkAct Rcv 1 0 500 3 4 INTT int_t 4); Aside (KTypeSize 2) (g_same 8); Aside (KTypeExtent 2) (g_same 12); Aside (KPackSize 2 2 1) (g_same 16);
   Aside (KPack 100 2 2 800 40 5 1) g_pack; Aside (KColl CBarrier) (fun m m' o => m' = m /\ o = VUnit);
   Block Plain (mkAct Snd 1 0 100 3 2 2 ex_vec 12) SIgnore; Aside (KGetElements (mkStatus 0 3 13 4) 2) (g_same 8);
   Aside (KColl (CAllreduce 500 600 4 INTT 1)) (fun m m' o => o = VUnit /\ copied m m' (g_ints 500) (g_ints 600)); Aside (KUnpack 800 40 5 700 4 INTT 1) g_unpack; Await 0 (SAt st0)].
Example C108_aside_ex : let s := ex_s h_vec in let a := ex_a h_vec in
  reach default_cfg ex_tj s a /\ s_mem s = ex_mem /\ course_ok default_cfg a ex_mem [1] (started g_prog) /\
  Forall (item_ok default_cfg ex_tj a [1]) g_prog /\ all_named (started g_prog) 0 g_prog = true /\ flows (started g_prog) 0 g_prog = true /\
  forall m', evolves default_cfg (started g_prog) 0 g_prog ex_mem m' -> bytes m' (g_ints 600) = bytes ex_mem g_vec /\ bytes m' (g_ints 700) = bytes ex_mem g_vec.
Proof.
  cbv zeta. split; [apply ex_reach; vm_compute; reflexivity|]. split; [vm_compute; reflexivity|].
  assert (V := proj1 ex_vec_typed). assert (C := int_typed).
  assert (TV : type_at default_cfg (ex_a h_vec) 2 = Some ex_vec) by (vm_compute; reflexivity).
  assert (TI : type_at default_cfg (ex_a h_vec) INTT = Some int_t) by (vm_compute; reflexivity).
  assert (AM : a_mem (ex_a h_vec) = ex_mem) by (vm_compute; reflexivity).
  split; [constructor|split; [|split; [reflexivity|split; [reflexivity|]]]].
  - intros x Hx. cbn in Hx. repeat (destruct Hx as [<-|Hx]; [cbn [x_comm In]; auto|]). destruct Hx.
  - intros x Hx. cbn in Hx. repeat (destruct Hx as [<-|Hx]; [cbn [x_src x_side]; auto; discriminate|]). destruct Hx.
  - intros i j x y I X Y. destruct I as [I|[]]; injection I as <- <-; injection X as <-; injection Y as <-;
      (constructor; [vm_compute; reflexivity|vm_compute; reflexivity|constructor; try exact V; try exact C; vm_compute; congruence|discriminate|apply fits_ok; vm_compute; reflexivity|apply fits_ok; vm_compute; reflexivity|]);
      (split; [apply flat_live; vm_compute; reflexivity|]); (split; [apply flat_live; vm_compute; reflexivity|]); (split; [apply all_apart_ok|apply pairwise_ok]; vm_compute; reflexivity).
  - generalize dependent (ex_a h_vec). intros a TV TI AM.
    assert (G : forall k R, told default_cfg a [1] k R -> item_ok default_cfg ex_tj a [1] (Aside k R)) by (intros k R; apply C108_aside; unfold cfg_ok; cbn; lia).
    apply Forall_cons; [exact I|].
    apply Forall_cons; [apply G; exact (told_size default_cfg a [1] 2 ex_vec TV (proj1 V) ltac:(vm_compute; discriminate))|].
    apply Forall_cons; [apply G; exact (told_extent default_cfg a [1] 2 ex_vec 12 TV V)|].
    apply Forall_cons; [apply G; refine (told_pack_size default_cfg a [1] 2 2 ex_vec 12 1 TV V _ _ _); [left; reflexivity|lia|vm_compute; reflexivity]|].
    apply Forall_cons; [apply G; refine (told_pack default_cfg a [1] 100 2 2 ex_vec 12 800 40 5 1 TV V _ _ _); [left; reflexivity| |vm_compute; discriminate]|].
    { rewrite AM. constructor; [apply flat_ok; unfold TWO64; lia|apply flat_live; vm_compute; reflexivity|apply flat_live; vm_compute; reflexivity|apply all_apart_ok; vm_compute; reflexivity|lia|unfold INT_MAX; lia|vm_compute; congruence]. }
    apply Forall_cons; [apply G; apply told_nothing; reflexivity|].
    apply Forall_cons; [split; [discriminate|right; reflexivity]|].
    apply Forall_cons; [apply G; refine (told_elements default_cfg a [1] 2 ex_vec (mkStatus 0 3 13 4) TV _); vm_compute; split; discriminate|].
    apply Forall_cons; [apply G; refine (told_move default_cfg a [1] _ 500 4 INTT int_t 4 600 4 INTT int_t 4 _ TI TI _ _ _ _ _)|].
    { vm_compute; reflexivity. } { constructor; try exact C; vm_compute; congruence. } { discriminate. } { apply fits_ok; vm_compute; reflexivity. } { apply fits_ok; vm_compute; reflexivity. }
    { rewrite AM. split; [apply flat_live; vm_compute; reflexivity|]. split; [apply flat_live; vm_compute; reflexivity|]. split; [apply all_apart_ok|apply pairwise_ok]; vm_compute; reflexivity. }
    apply Forall_cons; [apply G; refine (told_unpack default_cfg a [1] 800 40 5 700 4 INTT int_t 4 1 TI C _ _ _ _); [left; reflexivity| |apply pairwise_ok; vm_compute; reflexivity|vm_compute; discriminate]|].
    { rewrite AM. constructor; [apply flat_ok; unfold TWO64; lia|apply flat_live; vm_compute; reflexivity|apply flat_live; vm_compute; reflexivity|apply all_apart_ok; vm_compute; reflexivity|lia|unfold INT_MAX; lia|vm_compute; congruence]. }
    apply Forall_cons; [discriminate|constructor].
  - intros m' (m0 & E0 & m1 & (o1 & -> & _) & m2 & (o2 & -> & _) & m3 & (o3 & -> & _) & m4 & (o4 & _ & P & PF) & m5 & (o5 & -> & _) & m6 & E6 & m7 & (o7 & -> & _) & m8 & (o8 & _ & A) & m9 & (o9 & _ & U & UF) & m10 & E10 & E).
    assert (K : forall m m' rs ds, (forall z, (forall d, In d ds -> ~ inside d z) -> m' z = m z) -> all_apart rs ds -> bytes m' rs = bytes m rs).
    { intros ma mb rs ds F AP. apply ExchangeFacts.bytes_same. intros r z I Iz. apply F. intros d Id Jz. exact (AP r d I Id z (conj Iz Jz)). }
    change (m0 = ex_mem) in E0. change (m10 = m9) in E10. change (m' = m10) in E. subst m10 m' m0.
    destruct E6 as (x & y & mm & X & Y & _ & C6 & E6). injection X as <-. injection Y as <-. change (m6 = mm) in E6. subst mm.
    change (copied m4 m6 g_vec (g_ints 500)) in C6.
    assert (F4 : bytes m4 g_vec = bytes ex_mem g_vec) by (apply (K _ _ _ [(805, 16)]); [intros z N; apply PF; apply N; left; reflexivity|apply all_apart_ok; vm_compute; reflexivity]).
    assert (B6 : bytes m6 (g_ints 500) = bytes ex_mem g_vec) by (rewrite <- F4; apply bytes_copied; [vm_compute; reflexivity|exact C6]).
    assert (B8 : bytes m8 (g_ints 600) = bytes ex_mem g_vec) by (rewrite <- B6; apply bytes_copied; [vm_compute; reflexivity|exact A]).
    split.
    + rewrite <- B8. apply (K _ _ _ (g_ints 700)); [exact UF|apply all_apart_ok; vm_compute; reflexivity].
    + rewrite U, <- P. etransitivity; [apply (K m6 m8 _ (g_ints 600)); [exact (proj2 A)|apply all_apart_ok; vm_compute; reflexivity]|].
      apply (K _ _ _ (g_ints 500)); [exact (proj2 C6)|apply all_apart_ok; vm_compute; reflexivity].
Qed.
Example C108_aside_run_ex :
  let r := runs default_cfg [KIrecv 500 4 INTT 0 3 1; KTypeSize 2; KTypeExtent 2; KPackSize 2 2 1; KPack 100 2 2 800 40 5 1; KColl CBarrier; KSend 100 2 2 0 3 1;
                             KGetElements (mkStatus 0 3 13 4) 2; KColl (CAllreduce 500 600 4 INTT 1); KUnpack 800 40 5 700 4 INTT 1; KWait 3 (SAt st0)] (ex_s h_vec) in
  outs r = Ok [VInt 3; VInt 8; VInt 12; VInt 16; VInt 21; VUnit; VUnit; VInt 8; VUnit; VInt 21; VWait 0 (SAt (mkStatus 0 3 13 14))] /\
  bytes_at [600; 604; 608; 612; 615; 700; 704; 708; 712; 715] r = Ok (map ex_mem [100; 108; 112; 120; 123; 100; 108; 112; 120; 123]).
Proof. cbv zeta. split; vm_compute; reflexivity. Qed.

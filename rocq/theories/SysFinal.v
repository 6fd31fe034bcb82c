(** Last steps to the property theorems. *)
From Verif Require Import Base HandleSpec HandleExact TypeModel CopyModel CopyEx SysModel CollModel SysCalls SysSpec SysLog SysReach SysInv SysAbs SysSim SysSim3 SysHist SysFacts SysFacts2 SysFacts3 SysFacts5 SysEx.

Theorem behaves_start (c : cfg) (tj : Z -> tjunk) hj lj rj (m : mem) : behaves c tj (sys_start hj lj rj tj m) (a_start m).
Proof. intros calls. apply (refine c tj (fun _ => True)); auto. apply abs_start. Qed.

(** A legal next call after an example program. *)
Lemma go_app c tj : forall ks k s a, someb (go c tj (ks ++ [k]) s a) = true ->
  exists os s1 a1, go c tj ks s a = Some (os, s1, a1) /\ legal c tj k a1 /\ okb (exec c k s1) = true.
Proof.
  induction ks as [|x ks IH]; intros k s a H; cbn [app go] in H |- *.
  - exists [], s, a. split; auto. destruct (legalb c tj k a) eqn:L; [|discriminate]. split; [apply legalb_ok; auto|].
    destruct (exec c k s) as [[? ?]| | | |]; try discriminate; reflexivity.
  - destruct (legalb c tj x a); [|discriminate]. destruct (exec c x s) as [[o s1]| | | |]; try discriminate.
    destruct (spec c tj x a) as [Q a1| |]; try discriminate.
    destruct (IH k s1 a1) as (os & s2 & a2 & E & L). { destruct (go c tj (ks ++ [k]) s1 a1) as [[[? ?] ?]|]; [reflexivity|discriminate]. }
    rewrite E. exists (o :: os), s2, a2. auto.
Qed.
Lemma ex_does ks k : ex_ok (ks ++ [k]) = true -> exists o s' a', does default_cfg ex_tj (ex_s ks) (ex_a ks) k o s' a'.
Proof.
  intros H. destruct (go_app _ _ _ _ _ _ H) as (os & s1 & a1 & E & L & X).
  assert (R : reach default_cfg ex_tj (ex_s ks) (ex_a ks)). { apply ex_reach. unfold ex_ok, ex_go. rewrite E. reflexivity. }
  unfold ex_s, ex_a, ex_go in *. rewrite E in *. apply okb_ok in X. destruct X as [[o s'] X].
  destruct (ran _ _ _ _ _ R L X) as [a' D]. eauto.
Qed.

Lemma C17_lemma {c tj} s a r q id uid want sid uid' tag st : reach c tj s a -> req_at a r = Some q -> op_id q = Some id ->
  In (EPost id Rcv uid want) (a_log a) -> In (EMatch sid id) (a_log a) -> In (EPost sid Snd uid' tag) (a_log a) -> st <> SBad ->
  exists st' s' a', does c tj s a (KTest r st) (VTest MPI_REQUEST_NULL 1 st') s' a' /\ does c tj s a (KWait r st) (VWait MPI_REQUEST_NULL st') s' a' /\
    wrote st (Write (Some 0) (Some tag)) st'.
Proof.
  intros R E O P1 M P2 N. destruct (C17_test_lemma _ _ _ _ _ _ _ _ _ _ st R E O P1 M P2 N) as [F Er].
  destruct (proj1 (C19_wait_lemma _ _ _ _ st R E N) F) as (w & st' & s' & a' & D & Ew & W & _ & T).
  rewrite Er in Ew. injection Ew as <-. exists st', s'.
  destruct (proj1 (C18_test_lemma _ _ _ _ st R E N) F) as (w2 & st2 & s2 & a2 & D2 & Ew2 & W2 & _).
  pose proof D2 as D2'. destruct D2' as (_ & X & _). rewrite X in T. injection T as -> ->. exists a2. split; auto. split; auto.
  destruct D as (L & X1 & R1 & Q & S1 & Q1). destruct D2 as (L2 & X2 & R2 & Q' & S2 & Q2).
  assert (a2 = a'). { clear - S1 S2. cbn [spec] in *. unfold smap, s_wait, sbind in *. destruct (s_test r a) as [[[r0 f] w] b| |]; try discriminate.
    destruct (f =? 0); [discriminate|]. unfold sret in *. apply Ret_state in S1. apply Ret_state in S2. congruence. }
  subst a2. split; auto. split; auto. split; auto. exists Q. auto.
Qed.

Lemma C15_irecv_test_lemma {c tj} s a b n t g cm : reach c tj s a -> has_handle a -> known a cm ->
  exists h s' a', does c tj s a (KIrecv b n t MPI_PROC_NULL g cm) (VInt h) s' a' /\ added h (AReq QNullRecv) a a' /\
    forall st, st <> SBad -> exists st' s2 a2, does c tj s' a' (KTest h st) (VTest MPI_REQUEST_NULL 1 st') s2 a2 /\
      wrote st (Write (Some MPI_PROC_NULL) (Some MPI_ANY_TAG)) st' /\ released h a' a2.
Proof.
  intros R H K. destruct (C15_irecv_lemma _ _ b n t g _ R H K) as (h & s' & a' & D & A). exists h, s', a'. split; auto. split; auto.
  intros st N. pose proof D as (_ & _ & R' & _). destruct A as (_ & _ & E & _).
  assert (Q : req_at a' h = Some QNullRecv) by (unfold req_at; rewrite E; reflexivity).
  destruct (proj1 (C18_test_lemma _ _ _ _ st R' Q N)) as (w & st' & s2 & a2 & D2 & Ew & W & Re); [exact Logic.I|].
  injection Ew as <-. exists st', s2, a2. auto.
Qed.

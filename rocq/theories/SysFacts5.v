(** Start and end of the library, communicators, datatypes in use, and what is delivered. *)
From Verif Require Import Base HandleSpec HandleExact TypeModel TypeSpec CopyModel CopySpec CopyProofs CopyFinal SysModel CollModel SysCalls SysSpec SysLog SysReach SysInv SysAbs SysSim SysSim2 SysSim3 SysHist SysFacts SysFacts2 SysFacts3.

(** *** Communicator identities *)
(** [u] is the identity of a communicator that exists, or of none so far. *)
Definition alive (a : astate) (u : Z) : Prop := a_made a <= u \/ exists h k, comm_at a h = Some k /\ k_uid k = u.
Record grows (a a' : astate) : Prop := {
  gr_made : a_made a <= a_made a';
  gr_comm : forall h k, comm_at a' h = Some k -> alive a (k_uid k);
  gr_log : exists l, a_log a' = a_log a ++ l /\
    forall sid rid, In (EMatch sid rid) l -> exists id sd u tag, (id = sid \/ id = rid) /\ In (EPost id sd u tag) l /\ alive a u
}.
Lemma alive_back a b u : grows a b -> alive b u -> alive a u.
Proof. intros G [H|(h & k & E & <-)]; [left; pose proof (gr_made _ _ G); lia|apply (gr_comm _ _ G _ _ E)]. Qed.
Lemma grows_trans a b d : grows a b -> grows b d -> grows a d.
Proof.
  intros G1 G2. constructor.
  - pose proof (gr_made _ _ G1). pose proof (gr_made _ _ G2). lia.
  - intros h k E. eapply alive_back; eauto. apply (gr_comm _ _ G2 _ _ E).
  - destruct (gr_log _ _ G1) as (l1 & E1 & H1). destruct (gr_log _ _ G2) as (l2 & E2 & H2). exists (l1 ++ l2). split; [rewrite E2, E1, app_assoc; reflexivity|].
    intros sid rid Hi. apply in_app_iff in Hi. destruct Hi as [Hi|Hi].
    + destruct (H1 _ _ Hi) as (id & sd & u & tag & A & B & C). exists id, sd, u, tag. split; auto. split; [apply in_app_iff; auto|auto].
    + destruct (H2 _ _ Hi) as (id & sd & u & tag & A & B & C). exists id, sd, u, tag. split; auto. split; [apply in_app_iff; auto|eapply alive_back; eauto].
Qed.
(** No traffic. *)
Lemma grows_quiet a a' : a_made a <= a_made a' -> a_log a' = a_log a -> (forall h k, comm_at a' h = Some k -> comm_at a h = Some k \/ a_made a <= k_uid k) -> grows a a'.
Proof.
  intros M L C. constructor; auto.
  - intros h k E. destruct (C _ _ E) as [H|H]; [right; eauto|left; auto].
  - exists []. rewrite app_nil_r. split; [auto|intros ? ? []].
Qed.
Lemma grows_refl a : grows a a. Proof. apply grows_quiet; auto. lia. Qed.
Lemma grows_sub a a' : a_made a' = a_made a -> a_log a' = a_log a -> (forall x, a_obj a' x = a_obj a x \/ comm_at a' x = None) -> grows a a'.
Proof.
  intros M L O. apply grows_quiet; auto; [lia|]. intros h k E. left. destruct (O h) as [X|X]; [unfold comm_at in *; rewrite X in E; exact E|congruence].
Qed.
Lemma grows_free r a : grows a (freed_at a r).
Proof.
  apply grows_sub; auto. intros x. unfold comm_at. cbn. unfold upd. destruct (x =? r); auto.
Qed.
Lemma grows_test r a x a' : s_test r a = Ret x a' -> grows a a'.
Proof.
  unfold s_test. destruct (r =? MPI_REQUEST_NULL); [intros E; apply Ret_state in E; subst a'; apply grows_refl|].
  destruct (req_at a r) as [q|]; [|discriminate]. destruct (report q); intros E; apply Ret_state in E; subst a'; [apply grows_free|apply grows_refl].
Qed.
Lemma grows_wait msg r a x a' : s_wait msg r a = Ret x a' -> grows a a'.
Proof.
  unfold s_wait, sbind. destruct (s_test r a) as [[[? f] ?] b| |] eqn:E; try discriminate. destruct (f =? 0); [discriminate|]. intros X. apply Ret_state in X. subst a'. eapply grows_test; eauto.
Qed.
Lemma grows_tests : forall n rs a x a', s_tests n rs a = Ret x a' -> grows a a'.
Proof.
  induction n as [|n IH]; intros [|r rs] a x a'; cbn [s_tests]; try (intros E; apply Ret_state in E; subst a'; apply grows_refl). unfold sbind.
  destruct (s_test r a) as [[[? ?] ?] b| |] eqn:E; try discriminate. destruct (s_tests n rs b) as [[[? ?] ?] d| |] eqn:E2; try discriminate. intros X. apply Ret_state in X. subst a'.
  eapply grows_trans; [eapply grows_test; eauto|eapply IH; eauto].
Qed.
Lemma grows_waitall : forall n rs a x a', s_waitall n rs a = Ret x a' -> grows a a'.
Proof.
  induction n as [|n IH]; intros [|r rs] a x a'; cbn [s_waitall]; try (intros E; apply Ret_state in E; subst a'; apply grows_refl). unfold sbind.
  destruct (s_wait _ r a) as [[? ?] b| |] eqn:E; try discriminate. destruct (s_waitall n rs b) as [[? ?] d| |] eqn:E2; try discriminate. intros X. apply Ret_state in X. subst a'.
  eapply grows_trans; [eapply grows_wait; eauto|eapply IH; eauto].
Qed.
Lemma grows_testany : forall n rs d a x a', s_testany n d rs a = Ret x a' -> grows a a'.
Proof.
  induction n as [|n IH]; intros [|r rs] d a x a'; cbn [s_testany]; try (intros E; apply Ret_state in E; subst a'; apply grows_refl). unfold sbind.
  destruct (s_test r a) as [[[? f] ?] b| |] eqn:E; try discriminate. destruct (f =? 0).
  - intros X. eapply grows_trans; [eapply grows_test; eauto|eapply IH; eauto].
  - intros X. apply Ret_state in X. subst a'. eapply grows_test; eauto.
Qed.
Lemma grows_alloc f a x a' : (forall h, match f h with AComm k => a_made a <= k_uid k | _ => True end) -> s_alloc f a = Ret x a' -> grows a a'.
Proof.
  intros F E. apply alloc_inv in E. destruct E as (fr & top & _ & ->). apply grows_quiet; cbn; auto; [lia|]. intros h k. unfold comm_at. cbn. unfold upd.
  destruct (h =? x); [|auto]. specialize (F x). destruct (f x) as [k0| |]; try discriminate. intros E. injection E as <-. auto.
Qed.
Lemma grows_comm_new a x a' : s_comm_new a = Ret x a' -> grows a a'.
Proof.
  unfold s_comm_new, sbind. destruct (s_alloc _ a) as [y b| |] eqn:E; try discriminate. intros X. apply Ret_state in X. subst a'.
  assert (M : a_made b = a_made a) by (apply alloc_inv in E; destruct E as (? & ? & _ & ->); reflexivity).
  eapply grows_trans; [eapply grows_alloc; [|exact E]; intros; cbn; lia|]. apply grows_quiet; cbn; auto; lia.
Qed.
Lemma grows_isend c b n t d g cm a h a' : inv a -> s_isend c b n t d g cm a = Ret h a' -> grows a a'.
Proof.
  intros I E. assert (M : a_made a' = a_made a).
  { revert E. unfold s_isend. destruct (negb _); [discriminate|]. destruct (d =? MPI_PROC_NULL); [intros E; apply alloc_inv in E; destruct E as (? & ? & _ & ->); reflexivity|].
    destruct (comm_at a cm) as [k|]; [|discriminate]. destruct (first_such _ _) as [[[b0 p] e]|]; unfold sbind; destruct (s_alloc _ a) as [y a1| |] eqn:Ea; try discriminate;
    apply alloc_inv in Ea; destruct Ea as (? & ? & _ & ->).
    - match goal with |- context [s_xfer ?c ?x1 ?x2 ?x3 ?x4 ?x5 ?x6 ?st] => destruct (s_xfer c x1 x2 x3 x4 x5 x6 st) as [? a2| |] eqn:Ex end; try discriminate. apply xfer_inv in Ex. destruct Ex as (m & ->). intros E. apply Ret_state in E. subst a'. reflexivity.
    - intros E. apply Ret_state in E. subst a'. reflexivity. }
  destruct (isend_inv _ _ _ _ _ _ _ _ _ I E) as [(_ & A1 & A2 & A3 & A4 & A5 & A6)|(_ & k & Ek & [(bf & p & e & m & Ea & _ & [P1 P2 P3 P4 P5 P6 P7])|(_ & [P1 P2 P3 P4 P5 P6])])].
  - apply grows_sub; auto. intros x. destruct (Z.eq_dec x h) as [->|N]; [right; unfold comm_at; rewrite A3; reflexivity|left; auto].
  - constructor; [lia| |].
    + intros x kx Ex. right. destruct (Z.eq_dec x cm) as [->|N]; [rewrite P4 in Ex; injection Ex as <-; exists cm, k; auto|].
      destruct (Z.eq_dec x h) as [->|N1]; [apply req_comm in P2; congruence|]. destruct (Z.eq_dec x (p_req p)) as [->|N2]; [apply req_comm in P3; congruence|].
      exists x, kx. split; auto. unfold comm_at in *. rewrite P7 in Ex by auto. exact Ex.
    + eexists. split; [exact P5|]. intros sid rid [X|[X|[]]]; [discriminate|]. injection X as <- <-. exists (a_clock a), Snd, (k_uid k), g. split; auto. split; [simpl; auto|right; eauto].
  - cbn in *. constructor; [lia| |].
    + intros x kx Ex. right. destruct (Z.eq_dec x cm) as [->|N]; [rewrite P3 in Ex; injection Ex as <-; exists cm, k; auto|].
      destruct (Z.eq_dec x h) as [->|N1]; [apply req_comm in P2; congruence|].
      exists x, kx. split; auto. unfold comm_at in *. rewrite P6 in Ex by auto. exact Ex.
    + eexists. split; [exact P4|]. intros sid rid [X|[]]. discriminate.
Qed.
Lemma grows_irecv c b n t d g cm a h a' : inv a -> s_irecv c b n t d g cm a = Ret h a' -> grows a a'.
Proof.
  intros I E. assert (M : a_made a' = a_made a).
  { revert E. unfold s_irecv. destruct (negb _); [discriminate|]. destruct (d =? MPI_PROC_NULL); [intros E; apply alloc_inv in E; destruct E as (? & ? & _ & ->); reflexivity|].
    destruct (comm_at a cm) as [k|]; [|discriminate]. destruct (first_such _ _) as [[[b0 p] e]|]; unfold sbind; destruct (s_alloc _ a) as [y a1| |] eqn:Ea; try discriminate;
    apply alloc_inv in Ea; destruct Ea as (? & ? & _ & ->).
    - match goal with |- context [s_xfer ?c ?x1 ?x2 ?x3 ?x4 ?x5 ?x6 ?st] => destruct (s_xfer c x1 x2 x3 x4 x5 x6 st) as [? a2| |] eqn:Ex end; try discriminate. apply xfer_inv in Ex. destruct Ex as (m & ->). intros E. apply Ret_state in E. subst a'. reflexivity.
    - intros E. apply Ret_state in E. subst a'. reflexivity. }
  destruct (irecv_inv _ _ _ _ _ _ _ _ _ I E) as [(_ & A1 & A2 & A3 & A4 & A5 & A6)|(_ & k & Ek & [(bf & p & e & m & Ea & _ & [P1 P2 P3 P4 P5 P6 P7])|(_ & [P1 P2 P3 P4 P5 P6])])].
  - apply grows_sub; auto. intros x. destruct (Z.eq_dec x h) as [->|N]; [right; unfold comm_at; rewrite A3; reflexivity|left; auto].
  - constructor; [lia| |].
    + intros x kx Ex. right. destruct (Z.eq_dec x cm) as [->|N]; [rewrite P4 in Ex; injection Ex as <-; exists cm, k; auto|].
      destruct (Z.eq_dec x h) as [->|N1]; [apply req_comm in P2; congruence|]. destruct (Z.eq_dec x (p_req p)) as [->|N2]; [apply req_comm in P3; congruence|].
      exists x, kx. split; auto. unfold comm_at in *. rewrite P7 in Ex by auto. exact Ex.
    + eexists. split; [exact P5|]. intros sid rid [X|[X|[]]]; [discriminate|]. injection X as <- <-. exists (a_clock a), Rcv, (k_uid k), g. split; auto. split; [simpl; auto|right; eauto].
  - cbn in *. constructor; [lia| |].
    + intros x kx Ex. right. destruct (Z.eq_dec x cm) as [->|N]; [rewrite P3 in Ex; injection Ex as <-; exists cm, k; auto|].
      destruct (Z.eq_dec x h) as [->|N1]; [apply req_comm in P2; congruence|].
      exists x, kx. split; auto. unfold comm_at in *. rewrite P6 in Ex by auto. exact Ex.
    + eexists. split; [exact P4|]. intros sid rid [X|[]]. discriminate.
Qed.
Lemma grows_send c b n t d g cm a u a' : inv a -> s_send c b n t d g cm a = Ret u a' -> grows a a'.
Proof.
  intros I. unfold s_send, sbind. destruct (s_isend c b n t d g cm a) as [h a1| |] eqn:E1; try discriminate. destruct (s_wait _ h a1) as [w a2| |] eqn:E2; try discriminate.
  intros E. apply Ret_state in E. subst a'. eapply grows_trans; [eapply grows_isend; eauto|eapply grows_wait; eauto].
Qed.

Section Facts.
Context {c : cfg} {tj : Z -> tjunk}.
Notation reach := (SysReach.reach c tj).
Notation does := (SysReach.does c tj).

Lemma spec_grows k a Q a' : inv a -> legal c tj k a -> spec c tj k a = Ret Q a' -> grows a a'.
Proof.
  intros I L. destruct k; cbn [spec legal] in *; unfold smap; try (unfold sbind at 1);
  try (match goal with |- context [if ?b then sret _ else s_comm_new] => destruct b end;
       [cbn [sret]; intros E; apply Ret_state in E; subst a'; apply grows_refl|];
       destruct (s_comm_new a) as [x a1| |] eqn:E1; try discriminate; intros E; apply Ret_state in E; subst a'; eapply grows_comm_new; eauto; fail);
  try (match goal with |- context [s_isend ?c ?b ?n ?t ?d ?g ?cm a] => destruct (s_isend c b n t d g cm a) as [x a1| |] eqn:E1 end; try discriminate;
       intros E; apply Ret_state in E; subst a'; eapply grows_isend; eauto; fail);
  try (match goal with |- context [s_irecv ?c ?b ?n ?t ?d ?g ?cm a] => destruct (s_irecv c b n t d g cm a) as [x a1| |] eqn:E1 end; try discriminate;
       intros E; apply Ret_state in E; subst a'; eapply grows_irecv; eauto; fail);
  try (match goal with |- context [s_send ?c ?b ?n ?t ?d ?g ?cm a] => destruct (s_send c b n t d g cm a) as [x a1| |] eqn:E1 end; try discriminate;
       intros E; apply Ret_state in E; subst a'; eapply grows_send; eauto; fail);
  try (match goal with |- context [s_query ?c ?h ?q a] => destruct (s_query c h q a) as [x a1| |] eqn:E1 end; try discriminate;
       intros E; apply Ret_state in E; subst a'; apply query_state in E1; subst a1; apply grows_refl; fail);
  try (match goal with |- context [s_moves ?f a] => destruct (s_moves f a) as [x a1| |] eqn:E1 end; try discriminate;
       intros E; apply Ret_state in E; subst a'; apply moves_state in E1; destruct E1 as [m ->]; apply grows_sub; auto; fail);
  try (unfold s_cart; match goal with |- context [existsb ?f ?l] => destruct (existsb f l) end; [discriminate|];
       destruct (s_comm_new a) as [x a1| |] eqn:E1; try discriminate; intros E; apply Ret_state in E; subst a'; eapply grows_comm_new; eauto; fail);
  try (unfold s_startup, sbind; destruct (s_comm_new a) as [x a1| |] eqn:E1; try discriminate; destruct (x =? MPI_COMM_WORLD); try discriminate;
       intros E; apply Ret_state in E; subst a'; eapply grows_trans; [eapply grows_comm_new; eauto|]; apply grows_sub; auto; fail).
  - (* finalize *) cbn. intros E. apply Ret_state in E. subst a'. apply grows_sub; auto.
  - intros E. apply Ret_state in E. subst a'. apply grows_refl.
  - destruct (s_comm_new a) as [x a1| |] eqn:E1; try discriminate. intros E; apply Ret_state in E; subst a'. eapply grows_comm_new; eauto.
  - unfold s_comm_free. destruct (comm_at a comm) as [k|] eqn:Ek; [|discriminate]. unfold sbind, s_free. cbn [sret]. intros E. apply Ret_state in E. subst a'.
    apply grows_sub; auto. intros x. unfold comm_at. cbn. unfold upd. destruct (x =? comm); auto.
  - unfold s_irsend, sbind. match goal with |- context [s_isend ?c ?b ?n ?t ?d ?g ?cm a] => destruct (s_isend c b n t d g cm a) as [x a1| |] eqn:E1 end; try discriminate.
    destruct (complete a1 x); [|discriminate]. intros E. apply Ret_state in E. subst a'. eapply grows_isend; eauto.
  - unfold s_recv, sbind. match goal with |- context [s_irecv ?c ?b ?n ?t ?d ?g ?cm a] => destruct (s_irecv c b n t d g cm a) as [x a1| |] eqn:E1 end; try discriminate.
    destruct (s_wait _ x a1) as [[y w] a2| |] eqn:E2; try discriminate. cbn [sret]. intros E. apply Ret_state in E. subst a'. eapply grows_trans; [eapply grows_irecv; eauto|eapply grows_wait; eauto].
  - unfold s_sendrecv, sbind. match goal with |- context [s_irecv ?c ?b ?n ?t ?d ?g ?cm a] => destruct (s_irecv c b n t d g cm a) as [x a1| |] eqn:E1 end; try discriminate.
    match goal with |- context [s_send ?c ?b ?n ?t ?d ?g ?cm a1] => destruct (s_send c b n t d g cm a1) as [u a2| |] eqn:E2 end; try discriminate.
    destruct (s_wait _ x a2) as [[y w] a3| |] eqn:E3; try discriminate. cbn [sret]. intros E. apply Ret_state in E. subst a'.
    pose proof (irecv_keeps _ _ _ _ _ _ _ _ _ _ I E1) as I1. eapply grows_trans; [eapply grows_irecv; eauto|]. eapply grows_trans; [eapply grows_send; eauto|eapply grows_wait; eauto].
  - destruct (s_test req a) as [[[? ?] ?] a1| |] eqn:E1; try discriminate. intros E; apply Ret_state in E; subst a'. eapply grows_test; eauto.
  - destruct (s_wait _ req a) as [[? ?] a1| |] eqn:E1; try discriminate. intros E; apply Ret_state in E; subst a'. eapply grows_wait; eauto.
  - destruct (s_testany _ _ _ a) as [[[? ?] ?] a1| |] eqn:E1; try discriminate. intros E; apply Ret_state in E; subst a'. eapply grows_testany; eauto.
  - unfold s_waitany, sbind. destruct (s_testany _ _ _ a) as [[[? f] ?] a1| |] eqn:E1; try discriminate. destruct (f =? 0); [discriminate|]. cbn [sret].
    intros E; apply Ret_state in E; subst a'. eapply grows_testany; eauto.
  - destruct (s_tests _ _ a) as [[[? ?] ?] a1| |] eqn:E1; try discriminate. intros E; apply Ret_state in E; subst a'. eapply grows_tests; eauto.
  - destruct (s_waitall _ _ a) as [[? ?] a1| |] eqn:E1; try discriminate. intros E; apply Ret_state in E; subst a'. eapply grows_waitall; eauto.
  - destruct (s_tests _ _ a) as [[[? ?] ?] a1| |] eqn:E1; try discriminate. intros E; apply Ret_state in E; subst a'. eapply grows_tests; eauto.
  - destruct (s_tests _ _ a) as [[[? ?] ?] a1| |] eqn:E1; try discriminate. intros E; apply Ret_state in E; subst a'. eapply grows_tests; eauto.
  - unfold s_request_free. destruct (req =? MPI_REQUEST_NULL); unfold sbind, s_free; cbn [sret]; intros E; apply Ret_state in E; subst a'; [apply grows_refl|apply grows_free].
  - unfold s_iprobe. destruct (negb _); [discriminate|]. destruct (comm_at a comm); [|discriminate]. destruct (first_such _ _) as [[[? ?] ?]|]; cbn [sret];
    intros E; apply Ret_state in E; subst a'; apply grows_refl.
  - unfold s_probe, s_iprobe, sbind. destruct (negb _); [discriminate|]. destruct (comm_at a comm); [|discriminate]. destruct (first_such _ _) as [[[? ?] ?]|]; cbn;
    intros E; [apply Ret_state in E; subst a'; apply grows_refl|discriminate].
  - unfold s_type_create. destruct (next_handle _ _) as [y|]; [|discriminate]. destruct (make_type _ _ _ _); try discriminate.
    unfold sbind. destruct (s_alloc _ a) as [h a1| |] eqn:Ea; try discriminate. cbn [sret]. intros E. apply Ret_state in E. subst a'.
    eapply grows_trans; [eapply grows_alloc; [|exact Ea]; intros; exact Logic.I|]. apply grows_sub; auto.
  - unfold s_type_commit. destruct (a_obj a h) as [[k|q|t]|] eqn:Eo; cbn [sret]; intros E; apply Ret_state in E; subst a'; try apply grows_refl.
    apply grows_sub; auto. intros x. unfold comm_at. cbn. unfold upd. destruct (x =? h); auto.
  - unfold s_type_free, sbind, s_free. cbn [sret]. intros E. apply Ret_state in E. subst a'. apply grows_free.
  - intros E. apply Ret_state in E. subst a'. apply grows_sub; auto.
Qed.

Lemma later_grows a b : inv a -> later c tj a b -> grows a b /\ inv b.
Proof.
  intros I. induction 1 as [a|a b k Q b' Lt IH L E]; [split; [apply grows_refl|auto]|]. destruct (IH I) as [G Ib]. split; [|eapply spec_keeps; eauto].
  eapply grows_trans; eauto. eapply spec_grows; eauto.
Qed.

(** Operations on a dead communicator are never matched again. *)
Lemma dead_unmatched a b u id sd tag : inv a -> later c tj a b -> ~ alive a u -> In (EPost id sd u tag) (a_log a) -> ~ matched (a_log a) id -> ~ matched (a_log b) id.
Proof.
  intros I Lt D P N (s0 & r0 & Hi & Hid). destruct (later_grows _ _ I Lt) as [G Ib]. destruct (gr_log _ _ G) as (l & El & Hl). rewrite El in Hi. apply in_app_iff in Hi.
  destruct Hi as [Hi|Hi]; [apply N; exists s0, r0; auto|]. destruct (Hl _ _ Hi) as (id' & sd' & u' & tag' & Hid' & P' & Al).
  assert (Hi' : In (EMatch s0 r0) (a_log b)) by (rewrite El; apply in_app_iff; auto). pose proof (hy_log _ (iv_hist _ Ib)) as LO.
  assert (Pb : In (EPost id sd u tag) (a_log b)) by (rewrite El; apply in_app_iff; auto). assert (Pb' : In (EPost id' sd' u' tag') (a_log b)) by (rewrite El; apply in_app_iff; auto).
  apply in_split in Hi'. destruct Hi' as (l1 & l2 & E2). destruct LO as (X1 & X2 & X3). destruct (X3 _ _ _ _ E2) as (uu & t & w & M1 & M2 & _). assert (LO : log_ok (a_log b) (a_clock b)) by (split; auto).
  assert (M1' : In (EPost s0 Snd uu t) (a_log b)) by (rewrite E2; apply in_app_iff; auto). assert (M2' : In (EPost r0 Rcv uu w) (a_log b)) by (rewrite E2; apply in_app_iff; auto).
  assert (U : forall i sdi ui ti, i = s0 \/ i = r0 -> In (EPost i sdi ui ti) (a_log b) -> ui = uu).
  { intros i sdi ui ti [-> | ->] Pi; [destruct (post_once _ _ _ _ _ _ _ _ _ LO Pi M1') as (_ & -> & _)|destruct (post_once _ _ _ _ _ _ _ _ _ LO Pi M2') as (_ & -> & _)]; reflexivity. }
  apply D. rewrite (U id sd u tag) by (auto; destruct Hid; auto). rewrite <- (U id' sd' u' tag') by auto. exact Al.
Qed.

Theorem C30_lemma s a h k : reach s a -> comm_at a h = Some k ->
  exists s' a', does s a (KCommFree h) (VFree MPI_COMM_NULL (some_left (k_sends k)) (some_left (k_recvs k))) s' a' /\
    released h a a' /\ a_heads a' = a_heads a - 2 /\
    forall b, later c tj a' b -> forall id sd tag, In (EPost id sd (k_uid k) tag) (a_log a') -> ~ matched (a_log a') id -> ~ matched (a_log b) id.
Proof.
  intros R E. pose proof (reach_inv _ _ R) as I.
  set (a' := with_items (with_heads (freed_at a h) (a_made a) (a_heads a - 2)) (a_items a - Z.of_nat (length (k_sends k)) - Z.of_nat (length (k_recvs k)))).
  destruct (does_intro (tj := tj) (KCommFree h) s a (fun o => o = VFree MPI_COMM_NULL (some_left (k_sends k)) (some_left (k_recvs k))) a' (VFree MPI_COMM_NULL (some_left (k_sends k)) (some_left (k_recvs k))) R) as (s' & D).
  - exists k. exact E.
  - cbn [spec]. unfold smap, s_comm_free, sbind. rewrite E. reflexivity.
  - auto.
  - exists s', a'. split; auto. split; [apply s_free_released|]. split; [reflexivity|]. intros b Lt id sd tag P N.
    assert (I' : inv a') by (eapply reach_inv; apply does_reach in D; exact D). eapply dead_unmatched; eauto.
    intros [X|(x & k' & Ex & Eu)].
    + pose proof (iv_made _ I _ _ E). cbn in X. lia.
    + unfold comm_at in Ex. cbn in Ex. unfold upd in Ex. destruct (Z.eqb_spec x h) as [->|Nx]; [discriminate|]. apply Nx. eapply (hy_uid _ (iv_hist _ I)); eauto.
Qed.

(** *** C05 *)
Theorem C05_init_lemma s a : reach s a -> room_comm a ->
  (forall fr top, next_handle (a_freed a) (a_top a) = Some (MPI_COMM_WORLD, fr, top) ->
     exists s' a', does s a KInit VUnit s' a' /\ added MPI_COMM_WORLD (AComm (mkAcomm (a_made a) [] [])) a a' /\ a_init a' = true) /\
  (forall h fr top, next_handle (a_freed a) (a_top a) = Some (h, fr, top) -> h <> MPI_COMM_WORLD ->
     exec c KInit s = Abort "MPI_Init: conflicting MPI_COMM_WORLD") /\
  (next_handle (a_freed a) (a_top a) = None -> exec c KInit s = Abort handles_msg).
Proof.
  intros R Rm. pose proof (reach_inv _ _ R) as I. split; [|split].
  - intros fr top En. destruct (does_intro (tj := tj) KInit s a (unit_out tt) (with_init (with_heads (set_obj (with_handles a fr top) MPI_COMM_WORLD (Some (AComm (mkAcomm (a_made a) [] [])))) (a_made a + 1) (a_heads a + 2)) true) VUnit R) as (s' & D); auto.
    + cbn [spec]. unfold smap, s_startup, s_comm_new, sbind, s_alloc. rewrite En. reflexivity.
    + eexists s', _. split; [exact D|]. split; [|reflexivity]. eapply added_obj; [eapply new_added; eauto| | |]; reflexivity.
  - intros h fr top En N. apply (run_abort (tj := tj) _ _ a); auto. cbn [spec]. unfold smap, s_startup, s_comm_new, sbind, s_alloc. rewrite En. apply Z.eqb_neq in N. rewrite N. reflexivity.
  - intros En. apply (run_abort (tj := tj) _ _ a); auto. cbn [spec]. unfold smap, s_startup, s_comm_new, sbind, s_alloc. rewrite En. reflexivity.
Qed.
Theorem C05_finalize_lemma s a : reach s a ->
  exists s' a', does s a KFinalize VUnit s' a' /\ (forall h, a_obj a' h = None) /\ a_mem a' = a_mem a /\ next_handle (a_freed a') (a_top a') = Some (MPI_COMM_WORLD, [], 1).
Proof.
  intros R. destruct (does_intro (tj := tj) KFinalize s a (unit_out tt) (mkA (fun _ => None) [] 0 (a_mem a) false (a_made a) (a_ntypes a) (a_heads a) (a_items a) (a_clock a) (a_log a)) VUnit R) as (s' & D); [exact Logic.I|reflexivity|auto|].
  eexists s', _. split; [exact D|]. split; [reflexivity|]. split; reflexivity.
Qed.
Lemma reach_by_reach ks s a : reach_by c tj ks s a -> reach s a.
Proof. induction 1; [constructor|]. eapply SysReach.reach_call; eauto. Qed.
Lemma same_init_free r a : a_init (freed_at a r) = a_init a. Proof. reflexivity. Qed.
Definition ikeeps {A} (e : sp A) : Prop := forall a x a', e a = Ret x a' -> a_init a' = a_init a.
Lemma ik_ret {A} (x : A) : ikeeps (sret x). Proof. intros a y a' E. apply Ret_state in E. subst. reflexivity. Qed.
Lemma ik_bind {A B} (e : sp A) (f : A -> sp B) : ikeeps e -> (forall x, ikeeps (f x)) -> ikeeps (sbind e f).
Proof. intros H1 H2 a x a'. unfold sbind. destruct (e a) as [y b| |] eqn:E; try discriminate. intros E2. rewrite (H2 _ _ _ _ E2). eapply H1; eauto. Qed.
Lemma ik_map {A} (f : A -> out -> Prop) e : ikeeps e -> ikeeps (smap f e).
Proof. intros H. apply ik_bind; auto. intros x. apply ik_ret. Qed.
Lemma ik_abort {A} w : ikeeps (fun _ => @SAbort A w). Proof. intros a x a' E. discriminate. Qed.
Lemma ik_alloc f : ikeeps (s_alloc f). Proof. intros a x a' E. apply alloc_inv in E. destruct E as (? & ? & _ & ->). reflexivity. Qed.
Lemma ik_xfer x1 x2 x3 x4 x5 x6 : ikeeps (s_xfer c x1 x2 x3 x4 x5 x6). Proof. intros a x a' E. apply xfer_inv in E. destruct E as (m & ->). reflexivity. Qed.
Lemma ik_test r : ikeeps (s_test r).
Proof. intros a x a'. unfold s_test. destruct (r =? _); [intros E; apply Ret_state in E; subst; reflexivity|]. destruct (req_at a r) as [q|]; [|discriminate]. destruct (report q); intros E; apply Ret_state in E; subst; reflexivity. Qed.
Lemma ik_wait m r : ikeeps (s_wait m r).
Proof. apply ik_bind; [apply ik_test|]. intros [[x f] w]. destruct (f =? 0); [apply ik_abort|apply ik_ret]. Qed.
Lemma ik_isend b n t d g cm : ikeeps (s_isend c b n t d g cm).
Proof.
  intros a x a'. unfold s_isend. destruct (negb _); [discriminate|]. destruct (d =? _); [apply ik_alloc|]. destruct (comm_at a cm); [|discriminate]. destruct (first_such _ _) as [[[? ?] ?]|].
  - apply ik_bind; [apply ik_alloc|]. intros h. apply ik_bind; [apply ik_xfer|]. intros _ b0 y b' E. apply Ret_state in E. subst. reflexivity.
  - apply ik_bind; [apply ik_alloc|]. intros h b0 y b' E. apply Ret_state in E. subst. reflexivity.
Qed.
Lemma ik_irecv b n t d g cm : ikeeps (s_irecv c b n t d g cm).
Proof.
  intros a x a'. unfold s_irecv. destruct (negb _); [discriminate|]. destruct (d =? _); [apply ik_alloc|]. destruct (comm_at a cm); [|discriminate]. destruct (first_such _ _) as [[[? ?] ?]|].
  - apply ik_bind; [apply ik_alloc|]. intros h. apply ik_bind; [apply ik_xfer|]. intros _ b0 y b' E. apply Ret_state in E. subst. reflexivity.
  - apply ik_bind; [apply ik_alloc|]. intros h b0 y b' E. apply Ret_state in E. subst. reflexivity.
Qed.
Lemma ik_send b n t d g cm : ikeeps (s_send c b n t d g cm).
Proof. apply ik_bind; [apply ik_isend|]. intros r. apply ik_bind; [apply ik_wait|]. intros w. apply ik_ret. Qed.
Lemma ik_comm_new : ikeeps s_comm_new.
Proof. intros a x a'. unfold s_comm_new. apply ik_bind; [apply ik_alloc|]. intros h b y b' E. apply Ret_state in E. subst. reflexivity. Qed.
Lemma ik_free h : ikeeps (s_free h). Proof. intros a x a' E. apply Ret_state in E. subst. reflexivity. Qed.
Lemma ik_testany : forall n rs d, ikeeps (s_testany n d rs).
Proof. induction n as [|n IH]; intros [|r rs] d; try apply ik_ret. apply ik_bind; [apply ik_test|]. intros [[x f] w]. destruct (f =? 0); [apply IH|apply ik_ret]. Qed.
Lemma ik_tests : forall n rs, ikeeps (s_tests n rs).
Proof. induction n as [|n IH]; intros [|r rs]; try apply ik_ret. apply ik_bind; [apply ik_test|]. intros [[x f] w]. apply ik_bind; [apply IH|]. intros [[? ?] ?]. apply ik_ret. Qed.
Lemma ik_waitall : forall n rs, ikeeps (s_waitall n rs).
Proof. induction n as [|n IH]; intros [|r rs]; try apply ik_ret. apply ik_bind; [apply ik_wait|]. intros [x w]. apply ik_bind; [apply IH|]. intros [? ?]. apply ik_ret. Qed.
Lemma ik_iprobe so g cm : ikeeps (s_iprobe so g cm).
Proof. intros a x a'. unfold s_iprobe. destruct (negb _); [discriminate|]. destruct (comm_at a cm); [|discriminate]. destruct (first_such _ _) as [[[? ?] ?]|]; intros E; apply Ret_state in E; subst; reflexivity. Qed.
Lemma ik_query h q : ikeeps (s_query c h q).
Proof. intros a x a' E. apply query_state in E. subst. reflexivity. Qed.
Lemma ik_moves {A} (f : astate -> res (mem * A)) : ikeeps (s_moves f).
Proof. intros a x a' E. apply moves_state in E. destruct E as [m ->]. reflexivity. Qed.
Lemma ik_cart n dims : ikeeps (s_cart n dims).
Proof. unfold s_cart. destruct (existsb _ _); [apply ik_abort|apply ik_comm_new]. Qed.
Lemma spec_init k a Q a' : spec c tj k a = Ret Q a' ->
  a_init a' = match k with KInit | KInitThread _ => true | KFinalize => false | _ => a_init a end.
Proof.
  destruct k; cbn [spec]; try (apply ik_map; first [apply ik_comm_new|apply ik_isend|apply ik_irecv|apply ik_send|apply ik_test|apply ik_wait|apply ik_testany|apply ik_tests|apply ik_waitall|apply ik_iprobe|apply ik_query|apply ik_moves|apply ik_cart]);
  try (match goal with |- context [if ?b then sret _ else s_comm_new] => destruct b end; apply ik_map; [apply ik_ret|apply ik_comm_new]; fail);
  try (unfold smap, s_startup, sbind; destruct (s_comm_new a) as [x a1| |] eqn:E1; try discriminate; destruct (x =? MPI_COMM_WORLD); try discriminate;
       intros E; apply Ret_state in E; subst a'; reflexivity).
  - intros E. apply Ret_state in E. subst a'. reflexivity.
  - intros E. apply Ret_state in E. subst a'. reflexivity.
  - unfold smap, s_comm_free, sbind, s_free. destruct (comm_at a comm); [|discriminate]. intros E. apply Ret_state in E. subst a'. reflexivity.
  - apply ik_map. apply ik_bind; [apply ik_isend|]. intros r b x b'. destruct (complete b r); [|discriminate]. intros E. apply Ret_state in E. subst. reflexivity.
  - apply ik_map. apply ik_bind; [apply ik_irecv|]. intros r. apply ik_bind; [apply ik_wait|]. intros [? ?]. apply ik_ret.
  - apply ik_map. apply ik_bind; [apply ik_irecv|]. intros r. apply ik_bind; [apply ik_send|]. intros _. apply ik_bind; [apply ik_wait|]. intros [? ?]. apply ik_ret.
  - apply ik_map. apply ik_bind; [apply ik_testany|]. intros [[? f] ?]. destruct (f =? 0); [apply ik_abort|apply ik_ret].
  - apply ik_map. intros b x b'. unfold s_request_free. destruct (req =? _); intros E; apply Ret_state in E; subst; reflexivity.
  - apply ik_map. apply ik_bind; [apply ik_iprobe|]. intros [f w]. destruct (f =? 0); [apply ik_abort|apply ik_ret].
  - apply ik_map. intros b x b'. unfold s_type_create. destruct (next_handle _ _); [|discriminate]. destruct (make_type _ _ _ _); try discriminate.
    apply ik_bind; [apply ik_alloc|]. intros h0 b0 y b1 E. apply Ret_state in E. subst. reflexivity.
  - apply ik_map. intros b x b'. unfold s_type_commit. destruct (a_obj b h) as [[| |]|]; intros E; apply Ret_state in E; subst; reflexivity.
  - apply ik_map. apply ik_bind; [apply ik_free|]. intros _. apply ik_ret.
  - intros E. apply Ret_state in E. subst a'. reflexivity.
Qed.
Lemma reach_by_init ks s a : reach_by c tj ks s a -> a_init a = inited ks.
Proof.
  induction 1 as [|ks s a k o s' Q a' R IH L E1 E2]; [reflexivity|]. rewrite (spec_init _ _ _ _ E2). unfold inited in *. rewrite fold_left_app. cbn [fold_left]. destruct k; auto.
Qed.
Theorem C05_initialized_lemma ks s a : reach_by c tj ks s a -> exec c KInitialized s = Ok (VInt (if inited ks then 1 else 0), s).
Proof.
  intros R. pose proof (reach_by_reach _ _ _ R) as R0. rewrite <- (reach_by_init _ _ _ R).
  destruct (does_intro (tj := tj) KInitialized s a (fun o => o = VInt (if a_init a then 1 else 0)) a (VInt (if a_init a then 1 else 0)) R0) as (s' & D); [exact Logic.I|reflexivity|auto|].
  destruct D as (_ & E & _). rewrite E. f_equal. f_equal. cbn in E. injection E as _ X. auto.
Qed.
End Facts.

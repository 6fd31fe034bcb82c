(** The relation between the model's state and the specification's state, and how each elementary change preserves it. *)
From Verif Require Import Base ListModel ListProofs HandleModel HandleSpec HandleProofs HandleExact TypeModel CopyModel SysModel CollModel SysCalls SysSpec.

Arguments LInv {D} h ids g.
Arguments HX {D} t live freed top.
Arguments itm {D} t h.

(** *** The handle table seen as a function from live handles to objects *)
Definition TV (t : htab obj) (lv fr : list Z) (top : Z) (f : Z -> obj) : Prop :=
  HX t lv fr top /\ forall h, In h lv -> hi_data (itm t h) = f h.

Lemma tv_ext t lv fr top f f' : TV t lv fr top f -> (forall h, In h lv -> f' h = f h) -> TV t lv fr top f'.
Proof. intros [H1 H2] E. split; auto. intros h L. rewrite E; auto. Qed.

Lemma set_tab_id s : set_tab s (s_tab s) = s.
Proof. destruct s; reflexivity. Qed.

Lemma alloc_abort {D} (t : htab D) m : alloc_handle t = Abort m -> m = handles_msg.
Proof.
  unfold alloc_handle. destruct (if ht_need_init t then init_handles t else Ok t) as [t1| | | |] eqn:E; cbn [bind]; try discriminate.
  - destruct (ht_nextfree t1) as [[b i]|].
    + unfold h_get, h_put. repeat match goal with |- context [if ?b then _ else _] => destruct b; cbn [bind]; try discriminate end.
    + destruct (ht_nblocks t1 =? MAX_BLOCKS); [intros X; injection X as <-; reflexivity|].
      destruct (init_block (ht_nblocks t1) (ht_item t1)) eqn:E2; cbn [bind]; discriminate.
  - destruct (ht_need_init t); discriminate.
Qed.

Section Ops.
Context {lv fr : list Z} {top : Z} {f : Z -> obj}.

Lemma handle_ptr_live s h : TV (s_tab s) lv fr top f -> In h lv -> handle_ptr h s = Ok (Some (ptr_of h), s).
Proof.
  intros [H _] L. unfold handle_ptr. rewrite (hx_to_ptr _ _ _ _ _ _ H L). cbn [bind].
  rewrite set_tab_id. reflexivity.
Qed.

Lemma handle_ptr_null s : TV (s_tab s) lv fr top f ->
  exists t', handle_ptr 0 s = Ok (None, set_tab s t') /\ TV t' lv fr top f.
Proof.
  intros [H D]. destruct (hx_to_null _ _ _ _ _ H) as (t' & E & H' & K).
  exists t'. unfold handle_ptr. rewrite E. split; [reflexivity|]. split; auto.
  intros h L. rewrite K by auto. auto.
Qed.

Lemma read_slot_ok s h : TV (s_tab s) lv fr top f -> In h lv -> read_slot (ptr_of h) s = Ok (f h, s).
Proof.
  intros [H D] L. unfold read_slot, gets. rewrite (hx_read _ _ _ _ _ _ H L). cbn [bind]. rewrite D by auto. reflexivity.
Qed.

Lemma write_slot_ok s h o : TV (s_tab s) lv fr top f -> In h lv ->
  exists t', write_slot (ptr_of h) o s = Ok (tt, set_tab s t') /\ TV t' lv fr top (upd f h o).
Proof.
  intros [H D] L. destruct (hx_write _ _ _ _ _ _ o H L) as (t' & E & H' & A & B).
  exists t'. unfold write_slot. rewrite E. split; [reflexivity|]. split; auto.
  intros k Lk. unfold upd. destruct (Z.eqb_spec k h) as [->|]; auto. rewrite B by auto. auto.
Qed.

Lemma get_req_ok s h r : TV (s_tab s) lv fr top f -> In h lv -> f h = OReq r -> get_req (ptr_of h) s = Ok (r, s).
Proof. intros H L E. unfold get_req, mbind. rewrite (read_slot_ok _ _ H L). cbn [bind]. rewrite E. reflexivity. Qed.

Lemma slot_req_ok s h r : TV (s_tab s) lv fr top f -> In h lv -> f h = OReq r -> slot_req s (ptr_of h) = Ok r.
Proof.
  intros [H D] L E. unfold slot_req. rewrite (hx_read _ _ _ _ _ _ H L). cbn [bind]. rewrite D, E by auto. reflexivity.
Qed.

Lemma get_comm_ok s h x : TV (s_tab s) lv fr top f -> In h lv -> f h = OComm x -> get_comm (Some (ptr_of h)) s = Ok (x, s).
Proof.
  intros H L E. unfold get_comm, mbind, pure, slot_of. cbn [bind]. rewrite (read_slot_ok _ _ H L). cbn [bind]. rewrite E. reflexivity.
Qed.

Lemma upd_req_ok s h r F : TV (s_tab s) lv fr top f -> In h lv -> f h = OReq r ->
  exists t', upd_req (ptr_of h) F s = Ok (tt, set_tab s t') /\ TV t' lv fr top (upd f h (OReq (F r))).
Proof.
  intros H L E. unfold upd_req, mbind. rewrite (get_req_ok _ _ _ H L E). cbn [bind].
  apply write_slot_ok; auto.
Qed.

Lemma release_ok s h : TV (s_tab s) lv fr top f -> In h lv ->
  exists t', release h s = Ok (tt, set_tab s t') /\ TV t' (remove_id h lv) (h :: fr) top f.
Proof.
  intros [H D] L. destruct (hx_free _ _ _ _ _ _ H L) as (t' & E & H' & B).
  exists t'. unfold release. rewrite E. split; [reflexivity|]. split; auto.
  intros k Lk. apply in_remove_id in Lk. rewrite B by tauto. apply D. tauto.
Qed.

Lemma alloc_slot_ok s : TV (s_tab s) lv fr top f ->
  match next_handle fr top with
  | Some (h, fr', top') =>
      exists t' o, alloc_slot s = Ok ((h, ptr_of h), tick (set_tab s t')) /\ ~ In h lv /\ 1 <= h <= CAPACITY /\
        TV t' (h :: lv) fr' top' (upd f h o)
  | None => alloc_slot s = Abort handles_msg
  end.
Proof.
  intros [H D]. pose proof (hx_alloc _ _ _ _ _ H) as A. destruct (next_handle fr top) as [[[h fr'] top']|].
  - destruct A as (t' & E & N & R & H' & K). exists t', (hi_data (itm t' h)). unfold alloc_slot. rewrite E.
    split; [reflexivity|]. split; auto. split; auto. split; auto.
    intros k [->|Lk]; [rewrite upd_same; auto|]. rewrite upd_other by congruence. rewrite K by auto. auto.
  - destruct A as (m & E). unfold alloc_slot. rewrite (alloc_abort _ _ E) in E. rewrite E. reflexivity.
Qed.
End Ops.

Lemma alloc_req_ok {lv fr top f} s : TV (s_tab s) lv fr top f ->
  match next_handle fr top with
  | Some (h, fr', top') =>
      exists t' r, alloc_req s = Ok ((h, ptr_of h), tick (set_tab s t')) /\ ~ In h lv /\ 1 <= h <= CAPACITY /\
        TV t' (h :: lv) fr' top' (upd f h (OReq r))
  | None => alloc_req s = Abort handles_msg
  end.
Proof.
  intros H. pose proof (alloc_slot_ok s H) as A. unfold alloc_req, mbind. destruct (next_handle fr top) as [[[h fr'] top']|].
  - destruct A as (t' & o & E & N & R & H'). rewrite E. cbn [bind].
    assert (H1 : TV (s_tab (tick (set_tab s t'))) (h :: lv) fr' top' (upd f h o)) by exact H'.
    rewrite (read_slot_ok _ _ H1) by (simpl; auto). cbn [bind]. unfold gets. cbn [bind].
    destruct (write_slot_ok _ h (OReq (as_req (tick (set_tab s t')) (upd f h o h))) H1 (or_introl eq_refl)) as (t2 & E2 & H2).
    rewrite E2. cbn [bind]. exists t2, (as_req (tick (set_tab s t')) (upd f h o h)).
    split; [reflexivity|]. split; auto. split; auto.
    apply (tv_ext _ _ _ _ _ _ H2). intros k _. unfold upd. destruct (k =? h); auto.
  - rewrite A. reflexivity.
Qed.

(** *** Meaning of the objects *)
Definition req_ok (q : areq) (r : req_obj) : Prop :=
  match q with
  | QPending _ _ _ => r_complete r = 0
  | QSent _ | QNullSend => r_complete r = 1
  | QReceived _ tag => r_complete r = 1 /\ r_source r = 0 /\ r_tag r = tag
  | QNullRecv => r_complete r = 1 /\ r_source r = MPI_PROC_NULL /\ r_tag r = MPI_ANY_TAG
  end.
Definition entry_ok (sd : side) (p : pend) (r : req_obj) : Prop :=
  r_complete r = 0 /\ r_buf r = p_buf p /\ r_tag r = p_tag p /\
  (sd = Rcv -> r_count r = p_count p /\ r_type r = p_type p).

Definition slots (q : list pend) : list slot := map (fun p => ptr_of (p_req p)) q.

Definition queue (f : Z -> obj) (ob : Z -> option aobj) (g : Z -> list (Z * slot)) (sd : side) (uid l : Z) (q : list pend) : Prop :=
  map snd (g l) = slots q /\ NoDup (map p_req q) /\
  forall p, In p q -> ob (p_req p) = Some (AReq (QPending sd uid (p_id p))) /\
                      exists r, f (p_req p) = OReq r /\ entry_ok sd p r.

Record comm_ok (f : Z -> obj) (ob : Z -> option aobj) (made : Z) (ids : list Z) (g : Z -> list (Z * slot))
    (k : acomm) (x : comm_obj) : Prop := {
  ck_s : In (c_send x) ids; ck_r : In (c_recv x) ids; ck_ne : c_send x <> c_recv x;
  ck_qs : queue f ob g Snd (k_uid k) (c_send x) (k_sends k);
  ck_qr : queue f ob g Rcv (k_uid k) (c_recv x) (k_recvs k);
  ck_uid : k_uid k < made;
  ck_num : c_num x = k_uid k
}.

Record Rel (f : Z -> obj) (tys : Z -> option typestruct) (tn : Z) (ob : Z -> option aobj) (made : Z)
    (ids : list Z) (g : Z -> list (Z * slot)) : Prop := {
  rl_comm : forall h k, ob h = Some (AComm k) -> exists x, f h = OComm x /\ comm_ok f ob made ids g k x;
  rl_req : forall h q, ob h = Some (AReq q) -> exists r, f h = OReq r /\ req_ok q r;
  rl_type : forall h t, ob h = Some (AType t) -> exists n, f h = OType n /\ n < tn /\ tys n = Some t;
  rl_disj : forall h h' k k' x x', ob h = Some (AComm k) -> ob h' = Some (AComm k') -> h <> h' ->
     f h = OComm x -> f h' = OComm x' ->
     c_send x <> c_send x' /\ c_send x <> c_recv x' /\ c_recv x <> c_recv x' /\ k_uid k <> k_uid k';
  rl_tdisj : forall h h' t t' n n', ob h = Some (AType t) -> ob h' = Some (AType t') -> h <> h' ->
     f h = OType n -> f h' = OType n' -> n <> n'
}.
Arguments rl_comm {f tys tn ob made ids g} _ {h k} _.
Arguments rl_req {f tys tn ob made ids g} _ {h q} _.
Arguments rl_type {f tys tn ob made ids g} _ {h t} _.
Arguments rl_disj {f tys tn ob made ids g} _ {h h' k k' x x'} _ _ _ _ _.
Arguments rl_tdisj {f tys tn ob made ids g} _ {h h' t t' n n'} _ _ _ _ _.
Arguments ck_s {f ob made ids g k x} _. Arguments ck_r {f ob made ids g k x} _. Arguments ck_ne {f ob made ids g k x} _.
Arguments ck_qs {f ob made ids g k x} _. Arguments ck_qr {f ob made ids g k x} _. Arguments ck_uid {f ob made ids g k x} _. Arguments ck_num {f ob made ids g k x} _.

(** The full relation. *)
Record Abs (tj : Z -> tjunk) (s : sys) (a : astate) : Prop := mkAbs {
  ab_ex : exists lv f ids g,
    TV (s_tab s) lv (a_freed a) (a_top a) f /\ (forall h, In h lv <-> a_obj a h <> None) /\
    LInv (s_lists s) ids g /\ Rel f (s_types s) (s_tnext s) (a_obj a) (a_made a) ids g;
  ab_items : lh_itemcount (s_lists s) = a_items a;
  ab_heads : lh_headcount (s_lists s) = a_heads a;
  ab_room : a_items a <= INT_MAX /\ a_heads a <= INT_MAX /\ 0 <= a_made a;
  ab_mem : s_mem s = a_mem a;
  ab_init : s_init s = if a_init a then 1 else 0;
  ab_num : s_num s = a_made a;
  ab_nt : s_tnext s = a_ntypes a;
  ab_tj : s_tjunk s = tj
}.
Arguments ab_ex {tj s a} _. Arguments ab_items {tj s a} _. Arguments ab_heads {tj s a} _. Arguments ab_room {tj s a} _.
Arguments ab_mem {tj s a} _. Arguments ab_init {tj s a} _. Arguments ab_num {tj s a} _. Arguments ab_nt {tj s a} _. Arguments ab_tj {tj s a} _.

(** *** Frame lemmas *)
Lemma queue_frame f f' ob ob' g g' sd uid l q :
  queue f ob g sd uid l q -> map snd (g' l) = map snd (g l) ->
  (forall p, In p q -> f' (p_req p) = f (p_req p)) -> (forall p, In p q -> ob' (p_req p) = ob (p_req p)) ->
  queue f' ob' g' sd uid l q.
Proof.
  intros (A & B & C) G F O. split; [congruence|]. split; auto.
  intros p Hp. destruct (C p Hp) as (C1 & r & C2 & C3). split; [rewrite O; auto|]. exists r. rewrite F by auto. auto.
Qed.

Definition unqueued (ob : Z -> option aobj) (h : Z) : Prop :=
  forall hc k, ob hc = Some (AComm k) -> ~ In h (map p_req (k_sends k)) /\ ~ In h (map p_req (k_recvs k)).

Lemma queue_in f ob g sd uid l q h : queue f ob g sd uid l q -> In h (map p_req q) ->
  exists id, ob h = Some (AReq (QPending sd uid id)).
Proof.
  intros (_ & _ & C) Hi. apply in_map_iff in Hi. destruct Hi as (p & <- & Hp). destruct (C p Hp) as (E & _). eauto.
Qed.

Lemma not_pending_unqueued f tys tn ob made ids g h : Rel f tys tn ob made ids g ->
  (forall sd uid id, ob h <> Some (AReq (QPending sd uid id))) -> unqueued ob h.
Proof.
  intros R N hc k Ek. destruct (rl_comm R Ek) as (x & _ & CK). split; intros Hi.
  - destruct (queue_in _ _ _ _ _ _ _ _ (ck_qs CK) Hi) as (id & E). exact (N _ _ _ E).
  - destruct (queue_in _ _ _ _ _ _ _ _ (ck_qr CK) Hi) as (id & E). exact (N _ _ _ E).
Qed.

Lemma queue_upd f ob g sd uid l q h v o : queue f ob g sd uid l q -> ~ In h (map p_req q) ->
  queue (upd f h v) (upd ob h o) g sd uid l q.
Proof.
  intros Q N. apply (queue_frame f _ ob _ g); auto; intros p Hp; apply upd_other; intros E; apply N; rewrite <- E; apply in_map; auto.
Qed.

Lemma comm_ok_upd f ob made ids g k x h v o : comm_ok f ob made ids g k x ->
  ~ In h (map p_req (k_sends k)) -> ~ In h (map p_req (k_recvs k)) ->
  comm_ok (upd f h v) (upd ob h o) made ids g k x.
Proof.
  intros C N1 N2. destruct C. constructor; auto; apply queue_upd; auto.
Qed.

(** What must hold of a new object [o] stored as [v]. *)
Definition fits (f : Z -> obj) (tys : Z -> option typestruct) (tn : Z) (ob : Z -> option aobj) (made : Z)
    (ids : list Z) (g : Z -> list (Z * slot)) (h : Z) (o : aobj) (v : obj) : Prop :=
  match o with
  | AReq q => exists r, v = OReq r /\ req_ok q r
  | AType t => exists n, v = OType n /\ n < tn /\ tys n = Some t /\
      (forall h' t', h' <> h -> ob h' = Some (AType t') -> f h' <> OType n)
  | AComm k => exists x, v = OComm x /\ comm_ok f ob made ids g k x /\
      ~ In h (map p_req (k_sends k)) /\ ~ In h (map p_req (k_recvs k)) /\
      (forall h' k' x', h' <> h -> ob h' = Some (AComm k') -> f h' = OComm x' ->
         c_send x <> c_send x' /\ c_send x <> c_recv x' /\ c_recv x <> c_send x' /\ c_recv x <> c_recv x' /\ k_uid k <> k_uid k')
  end.

Lemma rel_set f tys tn ob made ids g h o v : Rel f tys tn ob made ids g -> unqueued ob h ->
  (forall o', o = Some o' -> fits f tys tn ob made ids g h o' v) ->
  Rel (upd f h v) tys tn (upd ob h o) made ids g.
Proof.
  intros R U F. constructor.
  - intros h' k E. unfold upd in E. destruct (Z.eqb_spec h' h) as [->|N].
    + destruct (F _ E) as (x & -> & C & N1 & N2 & _). exists x. rewrite upd_same. split; auto. apply comm_ok_upd; auto.
    + destruct (rl_comm R E) as (x & Ex & C). exists x. rewrite upd_other by auto. split; auto.
      destruct (U _ _ E). apply comm_ok_upd; auto.
  - intros h' q E. unfold upd in E. destruct (Z.eqb_spec h' h) as [->|N].
    + rewrite upd_same. exact (F _ E).
    + rewrite upd_other by auto. exact (rl_req R E).
  - intros h' t E. unfold upd in E. destruct (Z.eqb_spec h' h) as [->|N].
    + rewrite upd_same. destruct (F _ E) as (n & -> & A & B & _). eauto.
    + rewrite upd_other by auto. exact (rl_type R E).
  - intros h1 h2 k1 k2 x1 x2 E1 E2 N E3 E4. unfold upd in E1, E2, E3, E4.
    destruct (Z.eqb_spec h1 h) as [->|N1]; destruct (Z.eqb_spec h2 h) as [->|N2]; try congruence.
    + destruct (F _ E1) as (x & Ev & _ & _ & _ & Dj). assert (x1 = x) by congruence. subst x1.
      destruct (Dj _ _ _ N2 E2 E4) as (D1 & D2 & D3 & D4 & D5). auto.
    + destruct (F _ E2) as (x & Ev & _ & _ & _ & Dj). assert (x2 = x) by congruence. subst x2.
      destruct (Dj _ _ _ N1 E1 E3) as (D1 & D2 & D3 & D4 & D5). auto.
    + exact (rl_disj R E1 E2 N E3 E4).
  - intros h1 h2 t1 t2 n1 n2 E1 E2 N E3 E4. unfold upd in E1, E2, E3, E4.
    destruct (Z.eqb_spec h1 h) as [->|N1]; destruct (Z.eqb_spec h2 h) as [->|N2]; try congruence.
    + destruct (F _ E1) as (n & Ev & _ & _ & Dj). specialize (Dj _ _ N2 E2). congruence.
    + destruct (F _ E2) as (n & Ev & _ & _ & Dj). specialize (Dj _ _ N1 E1). congruence.
    + exact (rl_tdisj R E1 E2 N E3 E4).
Qed.

Lemma rel_env f tys tn ob made ids g tys' tn' made' ids' g' : Rel f tys tn ob made ids g ->
  (forall h k x, ob h = Some (AComm k) -> f h = OComm x ->
     In (c_send x) ids' /\ In (c_recv x) ids' /\ g' (c_send x) = g (c_send x) /\ g' (c_recv x) = g (c_recv x)) ->
  (forall h t n, ob h = Some (AType t) -> f h = OType n -> tys' n = tys n) -> tn <= tn' -> made <= made' ->
  Rel f tys' tn' ob made' ids' g'.
Proof.
  intros R C T Ht Hm. constructor.
  - intros h k E. destruct (rl_comm R E) as (x & Ex & CK). exists x. split; auto.
    destruct (C _ _ _ E Ex) as (A1 & A2 & A3 & A4). destruct CK. constructor; auto; try lia.
    + eapply queue_frame; eauto. congruence.
    + eapply queue_frame; eauto. congruence.
  - intros h q E. exact (rl_req R E).
  - intros h t E. destruct (rl_type R E) as (n & En & A & B). exists n. split; auto. split; [lia|]. rewrite (T _ _ _ E En). auto.
  - intros h1 h2 k1 k2 x1 x2. exact (@rl_disj _ _ _ _ _ _ _ R h1 h2 k1 k2 x1 x2).
  - intros h1 h2 t1 t2 n1 n2. exact (@rl_tdisj _ _ _ _ _ _ _ R h1 h2 t1 t2 n1 n2).
Qed.

Lemma rel_ext f tys tn ob made ids g f' ob' : Rel f tys tn ob made ids g ->
  (forall h, ob' h = ob h) -> (forall h, ob h <> None -> f' h = f h) -> Rel f' tys tn ob' made ids g.
Proof.
  intros R O F.
  assert (Q : forall sd uid l q, queue f ob g sd uid l q -> queue f' ob' g sd uid l q).
  { intros sd uid l q Qu. apply (queue_frame f _ ob _ g); auto. intros p Hp. apply F.
    destruct Qu as (_ & _ & C). destruct (C p Hp) as (E & _). congruence. }
  constructor.
  - intros h k E. rewrite O in E. destruct (rl_comm R E) as (x & Ex & CK). exists x. rewrite F by congruence. split; auto.
    destruct CK. constructor; auto.
  - intros h q E. rewrite O in E. rewrite F by congruence. exact (rl_req R E).
  - intros h t E. rewrite O in E. rewrite F by congruence. exact (rl_type R E).
  - intros h1 h2 k1 k2 x1 x2 E1 E2. rewrite O in E1, E2. rewrite !F by congruence. exact (rl_disj R E1 E2).
  - intros h1 h2 k1 k2 x1 x2 E1 E2. rewrite O in E1, E2. rewrite !F by congruence. exact (rl_tdisj R E1 E2).
Qed.

(** A communicator's queues change, its identity and its lists stay. *)
Lemma rel_queues f tys tn ob made ids g hc k x k' g' : Rel f tys tn ob made ids g ->
  ob hc = Some (AComm k) -> f hc = OComm x -> k_uid k' = k_uid k ->
  queue f ob g' Snd (k_uid k) (c_send x) (k_sends k') -> queue f ob g' Rcv (k_uid k) (c_recv x) (k_recvs k') ->
  (forall l, l <> c_send x -> l <> c_recv x -> g' l = g l) ->
  Rel f tys tn (upd ob hc (Some (AComm k'))) made ids g'.
Proof.
  intros R E Ex EU QS QR G.
  destruct (rl_comm R E) as (x' & Ex' & CK). assert (x' = x) by congruence. subst x'.
  assert (U : unqueued ob hc) by (eapply not_pending_unqueued; eauto; congruence).
  pose proof (rel_set _ _ _ _ _ _ _ hc None (f hc) R U ltac:(intros; discriminate)) as R1.
  assert (R2 : Rel (upd f hc (f hc)) tys tn (upd ob hc None) made ids g').
  { eapply rel_env; [exact R1| |auto|lia|lia]. intros h k2 x2 E2 Ex2. unfold upd in E2, Ex2.
    destruct (Z.eqb_spec h hc) as [|N]; [discriminate|].
    destruct (rl_comm R E2) as (x3 & Ex3 & CK3). assert (x3 = x2) by congruence. subst x3.
    destruct (rl_disj R E E2 ltac:(auto) Ex Ex2) as (D1 & D2 & D3 & _).
    destruct (rl_disj R E2 E ltac:(auto) Ex2 Ex) as (D1' & D2' & D3' & _).
    split; [apply (ck_s CK3)|]. split; [apply (ck_r CK3)|]. split; apply G; auto. }
  assert (NS : ~ In hc (map p_req (k_sends k'))).
  { intros Hi. destruct (queue_in _ _ _ _ _ _ _ _ QS Hi). congruence. }
  assert (NR : ~ In hc (map p_req (k_recvs k'))).
  { intros Hi. destruct (queue_in _ _ _ _ _ _ _ _ QR Hi). congruence. }
  assert (U2 : unqueued (upd ob hc None) hc).
  { eapply not_pending_unqueued; [exact R2|]. intros sd uid id. rewrite upd_same. discriminate. }
  pose proof (rel_set _ _ _ _ _ _ _ hc (Some (AComm k')) (OComm x) R2 U2) as R3.
  refine (rel_ext _ _ _ _ _ _ _ _ _ (R3 _) _ _).
  - intros o' Eo. injection Eo as <-. exists x. split; [reflexivity|]. split; [|split; [exact NS|split; [exact NR|]]].
    + constructor; try apply (ck_s CK); try apply (ck_r CK); try apply (ck_ne CK).
      * rewrite EU. apply queue_upd; auto.
      * rewrite EU. apply queue_upd; auto.
      * rewrite EU. apply (ck_uid CK).
      * rewrite EU. apply (ck_num CK).
    + intros h' k2 x2 N E2 Ex2. rewrite upd_other in E2 by auto.
      assert (Ex3 : f h' = OComm x2) by (revert Ex2; unfold upd; destruct (Z.eqb_spec h' hc); congruence).
      clear Ex2. rename Ex3 into Ex2.
      destruct (rl_disj R E E2 ltac:(auto) Ex Ex2) as (D1 & D2 & D3 & D4).
      destruct (rl_disj R E2 E ltac:(auto) Ex2 Ex) as (D1' & D2' & D3' & D4').
      rewrite EU. auto.
  - intros h. unfold upd. destruct (h =? hc); auto.
  - intros h _. unfold upd. destruct (Z.eqb_spec h hc); subst; auto.
Qed.

(** *** Matching and posting, for both sides at once *)
Definition qof (sd : side) (k : acomm) : list pend := match sd with Snd => k_sends k | Rcv => k_recvs k end.
Definition lof (sd : side) (x : comm_obj) : Z := match sd with Snd => c_send x | Rcv => c_recv x end.
Definition with_q (sd : side) (k : acomm) (q : list pend) : acomm :=
  match sd with Snd => mkAcomm (k_uid k) q (k_recvs k) | Rcv => mkAcomm (k_uid k) (k_sends k) q end.

Lemma ck_q f ob made ids g k x sd : comm_ok f ob made ids g k x -> queue f ob g sd (k_uid k) (lof sd x) (qof sd k).
Proof. intros C. destruct sd; [apply (ck_qs C)|apply (ck_qr C)]. Qed.
Lemma ck_l f ob made ids g k x sd : comm_ok f ob made ids g k x -> In (lof sd x) ids.
Proof. intros C. destruct sd; [apply (ck_s C)|apply (ck_r C)]. Qed.

Lemma rel_queue f tys tn ob made ids g hc k x sd q ys : Rel f tys tn ob made ids g ->
  ob hc = Some (AComm k) -> f hc = OComm x ->
  queue f ob (upd g (lof sd x) ys) sd (k_uid k) (lof sd x) q ->
  Rel f tys tn (upd ob hc (Some (AComm (with_q sd k q)))) made ids (upd g (lof sd x) ys).
Proof.
  intros R E Ex Q. destruct (rl_comm R E) as (x' & Ex' & CK). assert (x' = x) by congruence. subst x'.
  pose proof (ck_ne CK) as NE.
  destruct sd; cbn [lof with_q] in *; (eapply rel_queues; [exact R|exact E|exact Ex|reflexivity| | |]); cbn [k_sends k_recvs]; auto.
  - eapply queue_frame; [apply (ck_qr CK)| |auto|auto]. rewrite upd_other; auto.
  - intros l N1 N2. apply upd_other; auto.
  - eapply queue_frame; [apply (ck_qs CK)| |auto|auto]. rewrite upd_other; auto.
  - intros l N1 N2. apply upd_other; auto.
Qed.

Lemma queue_remove f ob g sd uid l b p e xs : queue f ob g sd uid l (b ++ p :: e) ->
  map snd xs = slots (b ++ e) -> queue f ob (upd g l xs) sd uid l (b ++ e).
Proof.
  intros (A & B & C) X. split; [rewrite upd_same; exact X|]. split.
  - rewrite map_app in *. cbn [map] in B. apply NoDup_remove_1 in B. exact B.
  - intros p' Hp. apply C. apply in_app_iff in Hp. apply in_or_app. simpl. tauto.
Qed.

Lemma rel_match f tys tn ob made ids g hc k x sd b p e xs q' r' : Rel f tys tn ob made ids g ->
  ob hc = Some (AComm k) -> f hc = OComm x -> qof sd k = b ++ p :: e -> map snd xs = slots (b ++ e) ->
  req_ok q' r' ->
  Rel (upd f (p_req p) (OReq r')) tys tn
      (upd (upd ob hc (Some (AComm (with_q sd k (b ++ e))))) (p_req p) (Some (AReq q'))) made ids (upd g (lof sd x) xs).
Proof.
  intros R E Ex EQ X RO. destruct (rl_comm R E) as (x' & Ex' & CK). assert (x' = x) by congruence. subst x'.
  pose proof (ck_q _ _ _ _ _ _ _ sd CK) as Q. rewrite EQ in Q.
  pose proof (rel_queue _ _ _ _ _ _ _ _ _ _ sd (b ++ e) xs R E Ex (queue_remove _ _ _ _ _ _ _ _ _ _ Q X)) as R1.
  assert (P : ob (p_req p) = Some (AReq (QPending sd (k_uid k) (p_id p)))).
  { destruct Q as (_ & _ & C). apply C. apply in_or_app. simpl; auto. }
  assert (Np : p_req p <> hc) by (intros Eh; rewrite Eh in P; congruence).
  assert (ND : ~ In (p_req p) (map p_req (b ++ e))).
  { destruct Q as (_ & B & _). rewrite map_app in *. cbn [map] in B. apply NoDup_remove_2 in B. exact B. }
  apply rel_set; [exact R1| |].
  - intros hc' k' E'. 
    assert (Main : forall sd', ~ In (p_req p) (map p_req (qof sd' k'))).
    { intros sd' Hi. destruct (rl_comm R1 E') as (x2 & Ex2 & CK2).
      destruct (queue_in _ _ _ _ _ _ _ _ (ck_q _ _ _ _ _ _ _ sd' CK2) Hi) as (id & Ei).
      rewrite upd_other, P in Ei by auto. injection Ei as <- EU _.
      unfold upd in E'. destruct (Z.eqb_spec hc' hc) as [->|Nh].
      - injection E' as <-. apply ND. destruct sd; exact Hi.
      - destruct (rl_disj R E E' ltac:(auto) Ex Ex2) as (_ & _ & _ & D). congruence. }
    split; [exact (Main Snd)|exact (Main Rcv)].
  - intros o' Eo. injection Eo as <-. exists r'. auto.
Qed.

Lemma rel_post f tys tn ob made ids g hc k x sd p i r : Rel f tys tn ob made ids g ->
  ob hc = Some (AComm k) -> f hc = OComm x -> ob (p_req p) = None -> entry_ok sd p r ->
  Rel (upd f (p_req p) (OReq r)) tys tn
      (upd (upd ob (p_req p) (Some (AReq (QPending sd (k_uid k) (p_id p))))) hc (Some (AComm (with_q sd k (qof sd k ++ [p])))))
      made ids (upd g (lof sd x) (g (lof sd x) ++ [(i, ptr_of (p_req p))])).
Proof.
  intros R E Ex N RO. destruct (rl_comm R E) as (x' & Ex' & CK). assert (x' = x) by congruence. subst x'.
  assert (Nh : p_req p <> hc) by (intros Eh; rewrite Eh in N; congruence).
  assert (U : unqueued ob (p_req p)) by (eapply not_pending_unqueued; eauto; congruence).
  assert (R1 : Rel (upd f (p_req p) (OReq r)) tys tn (upd ob (p_req p) (Some (AReq (QPending sd (k_uid k) (p_id p))))) made ids g).
  { apply rel_set; auto. intros o' Eo. injection Eo as <-. exists r. split; auto. exact (proj1 RO). }
  apply rel_queue; auto.
  - rewrite upd_other; auto.
  - rewrite upd_other; auto.
  - assert (NI : ~ In (p_req p) (map p_req (qof sd k))) by (destruct (U _ _ E); destruct sd; auto).
    destruct (queue_upd _ _ _ _ _ _ _ (p_req p) (OReq r) (Some (AReq (QPending sd (k_uid k) (p_id p))))
               (ck_q _ _ _ _ _ _ _ sd CK) NI) as (A & B & C).
    split; [|split].
    + rewrite upd_same. rewrite map_app, A. unfold slots. rewrite map_app. reflexivity.
    + rewrite map_app. apply NoDup_app_intro; auto.
      * constructor; [simpl; tauto|constructor].
      * intros h Hh [<-|[]]. auto.
    + intros p' Hp. apply in_app_iff in Hp. destruct Hp as [Hp|[<-|[]]]; [auto|].
      rewrite !upd_same. split; auto. exists r. auto.
Qed.

(** *** Searching a queue *)
Lemma find_corr (G : slot -> bool) (T : pend -> bool) : forall q xs, map snd xs = slots q ->
  (forall p, In p q -> G (ptr_of (p_req p)) = T p) ->
  match first_such T q with
  | None => seq_find slot G xs = None
  | Some (b, p, e) => exists ys i zs, xs = ys ++ (i, ptr_of (p_req p)) :: zs /\ seq_find slot G xs = Some i /\
       map snd ys = slots b /\ map snd zs = slots e /\ q = b ++ p :: e
  end.
Proof.
  induction q as [|p q IH]; intros [|[i d] xs] M H; try discriminate; cbn [first_such].
  - reflexivity.
  - cbn [slots map snd] in M. injection M as Md Mx. subst d. cbn [seq_find].
    rewrite (H p) by (simpl; auto). destruct (T p) eqn:Tp.
    + exists [], i, xs. repeat split; auto.
    + specialize (IH xs Mx ltac:(intros; apply H; simpl; auto)).
      destruct (first_such T q) as [[[b p'] e]|]; [|exact IH].
      destruct IH as (ys & j & zs & -> & S & Y & Zs & ->).
      exists ((i, ptr_of (p_req p)) :: ys), j, zs. repeat split; auto. cbn [map slots snd]. rewrite Y. reflexivity.
Qed.

Lemma first_such_some {A} (T : A -> bool) : forall q b p e, first_such T q = Some (b, p, e) ->
  q = b ++ p :: e /\ T p = true /\ (forall x, In x b -> T x = false).
Proof.
  induction q as [|x q IH]; intros b p e; cbn [first_such]; [discriminate|].
  destruct (T x) eqn:Tx.
  - intros E. injection E as <- <- <-. repeat split; auto. intros ? [].
  - destruct (first_such T q) as [[[b' p'] e']|]; [|discriminate].
    intros E. injection E as <- <- <-. destruct (IH b' p' e' eq_refl) as (-> & H1 & H2). repeat split; auto.
    intros y [->|Hy]; auto.
Qed.
Lemma first_such_none {A} (T : A -> bool) : forall q, first_such T q = None -> forall x, In x q -> T x = false.
Proof.
  induction q as [|x q IH]; cbn [first_such]; [intros _ ? []|].
  destruct (T x) eqn:Tx; [discriminate|]. destruct (first_such T q) as [[[b' p'] e']|]; [discriminate|].
  intros _ y [->|Hy]; auto.
Qed.

Lemma search_ok s lv fr top f ob ids g sd uid l q (F : req_obj -> bool) (T : pend -> bool) :
  TV (s_tab s) lv fr top f -> LInv (s_lists s) ids g -> In l ids -> queue f ob g sd uid l q ->
  (forall h, ob h <> None -> In h lv) -> (forall p r, entry_ok sd p r -> F r = T p) ->
  match first_such T q with
  | None => l_search l F s = Ok (None, s)
  | Some (b, p, e) => exists ys i zs, l_search l F s = Ok (Some i, s) /\ g l = ys ++ (i, ptr_of (p_req p)) :: zs /\
       map snd (ys ++ zs) = slots (b ++ e) /\ q = b ++ p :: e
  end.
Proof.
  intros TVs LI L (A & B & C) LV FT.
  set (G := fun d : slot => match f (256 * fst d + snd d) with OReq r => F r | _ => false end).
  assert (GP : forall p, In p q -> G (ptr_of (p_req p)) = T p).
  { intros p Hp. destruct (C p Hp) as (_ & r & Er & En). unfold G. rewrite ptr_of_val, Er. eauto. }
  assert (S : l_search l F s = Ok (seq_find slot G (g l), s)).
  { unfold l_search, gets. rewrite (list_search_func_ok slot _ G LI L).
    - reflexivity.
    - intros i d Hd. assert (Hs : In d (slots q)) by (rewrite <- A; change d with (snd (i, d)); apply in_map; auto).
      apply in_map_iff in Hs. destruct Hs as (p & <- & Hp). destruct (C p Hp) as (Eo & r & Er & En).
      rewrite (slot_req_ok s (p_req p) r TVs (LV (p_req p) ltac:(congruence)) Er). cbn [bind]. rewrite GP by auto.
      rewrite (FT p r) by auto. reflexivity. }
  pose proof (find_corr G T q (g l) A GP) as FC. destruct (first_such T q) as [[[b p] e]|].
  - destruct FC as (ys & i & zs & E & Sf & Y & Zs & Eq). exists ys, i, zs. rewrite S, Sf. repeat split; auto.
    unfold slots in *. rewrite !map_app, Y, Zs. reflexivity.
  - rewrite S, FC. reflexivity.
Qed.

Lemma item_data_ok (h : lheap slot) ids g l ys i d zs : LInv h ids g -> In l ids -> g l = ys ++ (i, d) :: zs ->
  listitem_data h (Some i) = Ok d.
Proof.
  intros I L E. pose proof (li_seg I L) as S. rewrite E in S. apply (dseg_app slot) in S. destruct S as [_ S].
  cbn [dseg] in S. destruct S as [S _]. unfold listitem_data, get_item. rewrite S. reflexivity.
Qed.

Lemma count_upd (h h' : lheap slot) ids g l xs : LInv h ids g -> In l ids -> LInv h' ids (upd g l xs) ->
  lh_itemcount h' = lh_itemcount h - Z.of_nat (length (g l)) + Z.of_nat (length xs) /\ lh_headcount h' = lh_headcount h.
Proof.
  intros I L I'. rewrite (li_ic I), (li_ic I'), (li_hc I), (li_hc I'). split; auto.
  rewrite (sumlen_upd slot ids g l xs (li_nodup I) L). lia.
Qed.

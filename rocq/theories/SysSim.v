(** Each primitive of the model does what the specification says. *)
From Verif Require Import Base ListModel ListProofs HandleModel HandleSpec HandleProofs HandleExact TypeModel CopyModel SysModel CollModel SysCalls SysSpec SysAbs.

Arguments mbind {A B} e f s /.
Arguments sbind {A B} e f a /.
Arguments pure {A} r s /.
Arguments ret {A} a s /.
Arguments sret {A} x a /.

Section SysSim.
Variable c : cfg.
Variable tj : Z -> tjunk.
Notation Abs := (Abs tj).

(** The model's outcome is the specified one. *)
Definition agree {A B} (R : A -> B -> Prop) (x : res (A * sys)) (y : oc B) : Prop :=
  match x, y with
  | Ok (v, s), Ret w a => R v w /\ Abs s a
  | Abort w, SAbort w' => w = w'
  | Exit n w, SExit n' w' => n = n' /\ w = w'
  | _, _ => False
  end.

Lemma agree_bind {A B A' B'} (R : A -> B -> Prop) (R' : A' -> B' -> Prop) (e : M A) (k : A -> M A') (f : sp B) (k' : B -> sp B') s a :
  agree R (e s) (f a) ->
  (forall v w s' a', e s = Ok (v, s') -> f a = Ret w a' -> R v w -> Abs s' a' -> agree R' (k v s') (k' w a')) ->
  agree R' (mbind e k s) (sbind f k' a).
Proof.
  intros H K. unfold mbind, sbind. unfold agree in H. destruct (e s) as [[v s']| | | |] eqn:E1; destruct (f a) as [w a'| |] eqn:E2;
    cbn [bind]; try contradiction; try exact H.
  destruct H as [H1 H2]. apply K; auto.
Qed.

Lemma agree_weaken {A B} (R R' : A -> B -> Prop) x y : agree R x y -> (forall v w, R v w -> R' v w) -> agree R' x y.
Proof.
  intros H K. unfold agree in *. destruct x as [[v s]| | | |]; destruct y; auto. destruct H. split; auto.
Qed.

(** *** Datatype lookup *)
Definition tyv (f : Z -> obj) (lv : list Z) (tys : Z -> option typestruct) (h : Z) (t : typestruct) : Prop :=
  ((h <? 0) = true /\ predefined c h = Ok t) \/
  ((h <? 0) = false /\ In h lv /\ exists n, f h = OType n /\ tys n = Some t).

Lemma tyv_of f tys tn a made ids g lv h t : Rel f tys tn (a_obj a) made ids g -> (forall h, In h lv <-> a_obj a h <> None) ->
  type_at c a h = Some t -> tyv f lv tys h t.
Proof.
  intros R L. unfold type_at, tyv. destruct (h <? 0) eqn:E.
  - destruct (predefined c h); try discriminate. intros X. injection X as ->. left. auto.
  - destruct (a_obj a h) as [[| |t']|] eqn:Eo; try discriminate. intros X. injection X as ->. right. split; auto.
    split; [apply L; congruence|]. destruct (rl_type R Eo) as (n & A & _ & B). eauto.
Qed.

Lemma tyv_ext f f' lv lv' tys h t : tyv f lv tys h t ->
  (forall n, f h = OType n -> In h lv -> In h lv' /\ f' h = OType n) -> tyv f' lv' tys h t.
Proof.
  intros [H|(E & L & n & A & B)] K; [left; exact H|]. right. destruct (K n A L) as [K1 K2]. eauto.
Qed.

Lemma get_type_run s lv fr top f h t : TV (s_tab s) lv fr top f -> tyv f lv (s_types s) h t ->
  exists n, get_type c h s = Ok ((n, t), s) /\
    (((h <? 0) = true /\ n = None) \/ ((h <? 0) = false /\ exists n', n = Some n' /\ f h = OType n')).
Proof.
  intros T [(E & P)|(E & L & n & A & B)]; unfold get_type; rewrite E.
  - unfold mbind, pure. rewrite P. cbn [bind]. exists None. split; [reflexivity|]. left; auto.
  - unfold mbind, pure. rewrite (handle_ptr_live _ _ T L). cbn [bind slot_of].
    rewrite (read_slot_ok _ _ T L). cbn [bind]. rewrite A. unfold gets. rewrite B. cbn [bind].
    exists (Some n). split; [reflexivity|]. right. eauto.
Qed.

Lemma copy_run s lv fr top f src sn sty st dst dn dty dt : TV (s_tab s) lv fr top f ->
  tyv f lv (s_types s) sty st -> tyv f lv (s_types s) dty dt ->
  copy_data2 c src sn sty dst dn dty s =
  (do m <- Pcopy_data2 c (s_mem s) src sn st dst dn dt; Ok (tt, set_mem s m)).
Proof.
  intros T A B. unfold copy_data2, mbind.
  destruct (get_type_run _ _ _ _ _ _ _ T A) as (n1 & E1 & _). rewrite E1. cbn [bind].
  destruct (get_type_run _ _ _ _ _ _ _ T B) as (n2 & E2 & _). rewrite E2. cbn [bind snd]. reflexivity.
Qed.

(** *** Test *)
Lemma free_abs s a h q t' : Abs s a -> a_obj a h = Some (AReq q) -> report q <> None ->
  forall lv f ids g, (forall h, In h lv <-> a_obj a h <> None) -> LInv (s_lists s) ids g ->
  Rel f (s_types s) (s_tnext s) (a_obj a) (a_made a) ids g ->
  TV t' (remove_id h lv) (h :: a_freed a) (a_top a) f ->
  Abs (set_tab s t') (set_obj (with_handles a (h :: a_freed a) (a_top a)) h None).
Proof.
  intros A E Q lv f ids g L LI R T.
  constructor; try apply A; auto.
  exists (remove_id h lv), f, ids, g. split; [exact T|]. split; [|split; [exact LI|]].
  - intros x. rewrite in_remove_id, L. cbn [set_obj with_handles a_obj]. unfold upd.
    destruct (Z.eqb_spec x h) as [->|]; [split; [tauto|congruence]|]. tauto.
  - cbn [set_obj with_handles a_obj]. eapply rel_ext.
    + apply (rel_set _ _ _ _ _ _ _ h None (f h) R); [|intros; discriminate].
      eapply not_pending_unqueued; [exact R|]. intros sd uid id Ep. rewrite E in Ep. injection Ep as ->. apply Q. reflexivity.
    + reflexivity.
    + intros x _. unfold upd. destruct (Z.eqb_spec x h); subst; reflexivity.
Qed.

Definition test_rel (st : sarg) (x : Z * Z * sarg) (y : Z * Z * write) : Prop :=
  fst (fst x) = fst (fst y) /\ snd (fst x) = snd (fst y) /\ wrote st (snd y) (snd x).

Lemma set_status_ok st so ta ws wt : st <> SBad -> (forall v, ws = Some v -> v = so) -> (forall v, wt = Some v -> v = ta) ->
  exists st', set_status st so ta = Ok st' /\ wrote st (Write ws wt) st'.
Proof.
  intros N A B. destruct st as [|x|]; [| |congruence]; cbn [set_status].
  - exists SIgnore. split; reflexivity.
  - eexists. split; [reflexivity|]. cbn [wrote]. eexists. split; [reflexivity|]. cbn [st_source st_tag st_error st_count].
    repeat split; intros v E; [rewrite (A _ E)|rewrite (B _ E)]; reflexivity.
Qed.

Lemma test_ok s a r st : Abs s a -> legal_req r a -> (complete a r = true -> st <> SBad) ->
  agree (test_rel st) (MPI_Test r st s) (s_test r a).
Proof.
  intros A L N. unfold MPI_Test, s_test. destruct (Z.eqb_spec r MPI_REQUEST_NULL) as [->|Nr].
  - unfold mbind, pure.
    destruct (set_status_ok st MPI_ANY_SOURCE MPI_ANY_TAG (Some MPI_ANY_SOURCE) (Some MPI_ANY_TAG)) as (st' & E & W).
    { apply N. reflexivity. } { congruence. } { congruence. }
    rewrite E. cbn. unfold test_rel. cbn [fst snd]. auto.
  - destruct L as [|(q & Eq)]; [contradiction|]. rewrite Eq.
    assert (Eo : a_obj a r = Some (AReq q)).
    { unfold req_at in Eq. destruct (a_obj a r) as [[| |]|]; try discriminate. congruence. }
    destruct (ab_ex A) as (lv & f & ids & g & T & Lv & LI & R).
    assert (Lr : In r lv) by (apply Lv; congruence).
    destruct (rl_req R Eo) as (ro & Er & RO).
    unfold mbind, pure. rewrite (handle_ptr_live _ _ T Lr). cbn [bind slot_of].
    rewrite (get_req_ok _ _ _ T Lr Er). cbn [bind].
    destruct (report q) as [w|] eqn:Rq.
    + assert (C1 : r_complete ro = 1) by (destruct q; cbn [req_ok report] in *; try discriminate; tauto).
      rewrite C1. change (1 =? 0) with false. cbn [negb].
      destruct w as [|ws wt]; [destruct q; discriminate|].
      destruct (set_status_ok st (r_source ro) (r_tag ro) ws wt) as (st' & E & W).
      { apply N. unfold complete. rewrite Eq, Rq. apply orb_true_r. }
      { destruct q; cbn [report req_ok] in *; try discriminate; injection Rq as <- <-; intros v Ev; try discriminate; injection Ev as <-; tauto || (symmetry; tauto). }
      { destruct q; cbn [report req_ok] in *; try discriminate; injection Rq as <- <-; intros v Ev; try discriminate; injection Ev as <-; tauto || (symmetry; tauto). }
      rewrite E. cbn [bind].
      destruct (release_ok _ _ T Lr) as (t' & E2 & T'). rewrite E2. cbn [bind ret].
      unfold sbind, s_free, sret, agree. split; [unfold test_rel; auto|].
      eapply free_abs; eauto. congruence.
    + assert (C0 : r_complete ro = 0) by (destruct q; cbn [req_ok report] in *; try discriminate; tauto).
      rewrite C0. change (0 =? 0) with true. cbn [negb ret]. unfold agree. split; auto. unfold test_rel. cbn [fst snd wrote]. auto.
Qed.

Definition wait_rel (st : sarg) (x : Z * sarg) (y : Z * write) : Prop := fst x = fst y /\ wrote st (snd y) (snd x).

Lemma wait_ok s a r st : Abs s a -> legal_req r a -> (complete a r = true -> st <> SBad) ->
  agree (wait_rel st) (MPI_Wait r st s) (s_wait wait_msg r a).
Proof.
  intros A L N. unfold MPI_Wait, s_wait. eapply agree_bind; [apply test_ok; eauto|].
  intros [[r1 fl] st1] [[r2 fl2] w] s' a' _ _ (E1 & E2 & E3) A'. cbn [fst snd] in *. subst r2 fl2.
  destruct (fl =? 0); [reflexivity|]. cbn. split; auto. unfold wait_rel. auto.
Qed.

(** *** Communicators *)
Lemma comm_new_ok s a : Abs s a -> room_comm a -> agree eq (comm_new s) (s_comm_new a).
Proof.
  intros A [RH RM]. destruct (ab_ex A) as (lv & f & ids & g & T & Lv & LI & R).
  pose proof (ab_room A) as (RI & RHd & RM0).
  unfold comm_new, s_comm_new, mbind, s_alloc, sbind. pose proof (alloc_slot_ok s T) as AL.
  destruct (next_handle (a_freed a) (a_top a)) as [[[h fr] top]|] eqn:NH.
  - destruct AL as (t1 & o & E & N & HR & T1). rewrite E. cbn [bind].
    pose proof (ab_heads A) as HH.
    destruct (list_new_ok slot LI) as (l1 & E1 & N1 & LI1 & X1 & J1); [lia|].
    unfold l_new at 1. cbn [tick set_tab s_lists]. rewrite E1. cbn [bind].
    assert (HH1 : lh_headcount l1 = lh_headcount (s_lists s) + 1).
    { rewrite (li_hc LI1), (li_hc LI). cbn [length]. lia. }
    destruct (list_new_ok slot LI1) as (l2 & E2 & N2 & LI2 & X2 & J2); [lia|].
    unfold l_new at 1. cbn [tick set_tab SysModel.set_lists s_lists]. rewrite E2. cbn [bind].
    unfold gets at 1. cbn [bind]. unfold pure at 1.
    rewrite chk_int_ok; [|cbn; rewrite (ab_num A); unfold INT_MIN, INT_MAX in *; lia]. cbn [bind].
    match goal with |- context [write_slot _ ?oo ?ss] => set (o' := oo); set (s2 := ss) end.
    assert (T2 : TV (s_tab s2) (h :: lv) fr top (upd f h o)) by exact T1.
    destruct (write_slot_ok s2 h o' T2 (or_introl eq_refl)) as (t3 & E3 & T3). rewrite E3. cbn [bind].
    cbn [agree]. split; [reflexivity|].
    set (sl := lh_next (s_lists s)) in *. set (rl := lh_next l1) in *.
    assert (Hh : a_obj a h = None).
    { destruct (a_obj a h) eqn:Eh; auto. exfalso. apply N. apply Lv. congruence. }
    assert (IC : lh_itemcount l2 = lh_itemcount (s_lists s)).
    { rewrite (li_ic LI), (li_ic LI2). cbn [sumlen]. rewrite upd_same, upd_other, upd_same by lia. cbn [length].
      rewrite !Z.add_0_l. apply sumlen_ext. intros l Hl. rewrite !upd_other; auto; intros ->; auto. apply N2. simpl; auto. }
    assert (HC : lh_headcount l2 = lh_headcount (s_lists s) + 2).
    { rewrite (li_hc LI2), (li_hc LI). cbn [length]. lia. }
    constructor; cbn [set_num set_tab s2 tick SysModel.set_lists s_lists s_mem SysModel.s_init s_num s_tnext with_heads set_obj with_handles
                      a_items a_heads a_made a_mem a_init a_ntypes].
    + exists (h :: lv), (upd (upd f h o) h o'), (rl :: sl :: ids), (upd (upd g sl []) rl []).
      split; [exact T3|]. split; [|split; [exact LI2|]].
      * intros x. cbn [In a_obj with_heads set_obj with_handles]. rewrite Lv. unfold upd.
        destruct (Z.eqb_spec x h) as [->|Nx]; [split; [discriminate|auto]|]. split; [intros [?|?]; [congruence|auto]|auto].
      * cbn [a_obj with_heads set_obj with_handles a_made s_types s_tnext set_num set_tab s2 tick SysModel.set_lists].
        assert (R1 : Rel f (s_types s) (s_tnext s) (a_obj a) (a_made a + 1) (rl :: sl :: ids) (upd (upd g sl []) rl [])).
        { eapply rel_env; [exact R| |auto|lia|lia]. intros h1 k1 x1 K1 F1.
          destruct (rl_comm R K1) as (x' & Ex' & CK). assert (x' = x1) by congruence. subst x'.
          pose proof (ck_s CK) as I1. pose proof (ck_r CK) as I2.
          split; [simpl; auto|]. split; [simpl; auto|].
          assert (forall l, In l ids -> l <> rl /\ l <> sl).
          { intros l Hl. split; intros ->; auto. apply N2. simpl; auto. }
          split; rewrite !upd_other; auto; apply H; auto. }
        assert (U : unqueued (a_obj a) h) by (eapply not_pending_unqueued; eauto; congruence).
        eapply rel_ext; [eapply (rel_set _ _ _ _ _ _ _ h (Some (AComm (mkAcomm (a_made a) [] []))) o' R1 U)| |].
        -- intros o1 Eo. injection Eo as <-. eexists. split; [reflexivity|]. split; [|split; [simpl; tauto|split; [simpl; tauto|]]].
           ++ constructor; cbn [c_send c_recv c_num k_uid k_sends k_recvs]; try (simpl; auto; fail); try lia.
              ** split; [|split; [cbn [map]; apply NoDup_nil|intros p []]]. rewrite upd_other, upd_same by lia. reflexivity.
              ** split; [|split; [cbn [map]; apply NoDup_nil|intros p []]]. rewrite upd_same. reflexivity.
              ** cbn. apply (ab_num A).
           ++ intros h' k' x' Nh K' F'. destruct (rl_comm R K') as (x1 & Ex1 & CK). assert (x1 = x') by congruence. subst x1.
              pose proof (ck_s CK) as I1. pose proof (ck_r CK) as I2. pose proof (ck_uid CK) as I3. cbn [c_send c_recv k_uid].
              repeat split; try (intros Ex; rewrite <- Ex in *; auto); try lia; apply N2; simpl; auto.
        -- intros x. reflexivity.
        -- intros x _. unfold upd. destruct (x =? h); reflexivity.
    + rewrite IC. apply (ab_items A).
    + rewrite HC, (ab_heads A). reflexivity.
    + lia.
    + apply (ab_mem A).
    + apply (ab_init A).
    + rewrite (ab_num A). reflexivity.
    + apply (ab_nt A).
    + apply (ab_tj A).
  - rewrite AL. reflexivity.
Qed.

(** *** Sending and receiving *)
Lemma known_ptr s a h : Abs s a -> known a h ->
  exists p t', handle_ptr h s = Ok (p, set_tab s t') /\ Abs (set_tab s t') a /\ (live a h -> p = Some (ptr_of h)).
Proof.
  intros A K. destruct (ab_ex A) as (lv & f & ids & g & T & Lv & LI & R).
  destruct (a_obj a h) as [o|] eqn:E.
  - exists (Some (ptr_of h)), (s_tab s). rewrite set_tab_id. split; [|auto].
    apply (handle_ptr_live _ _ T). apply Lv. congruence.
  - destruct K as [->|K]; [|contradiction].
    destruct (handle_ptr_null _ T) as (t' & E' & T'). exists None, t'. split; auto. split; [|intros K; contradiction].
    constructor; try apply A. exists lv, f, ids, g. auto.
Qed.

Lemma upd_req_at s lv fr top f h r F : TV (s_tab s) lv fr top (upd f h (OReq r)) -> In h lv ->
  exists t', upd_req (ptr_of h) F s = Ok (tt, set_tab s t') /\ TV t' lv fr top (upd f h (OReq (F r))).
Proof.
  intros T L. destruct (upd_req_ok s h r F T L (upd_same f h (OReq r))) as (t' & E & T'). exists t'. split; auto.
  apply (tv_ext _ _ _ _ _ _ T'). intros x _. unfold upd. destruct (x =? h); auto.
Qed.

Definition put_sys (s : sys) t l m tm : sys :=
  mkSys t l (s_types s) (s_tnext s) m (SysModel.s_init s) (s_num s) tm (s_rjunk s) (s_tjunk s).

Lemma lv_fresh a lv h : (forall h, In h lv <-> a_obj a h <> None) -> ~ In h lv -> a_obj a h = None.
Proof. intros L N. destruct (a_obj a h) eqn:E; auto. exfalso. apply N, L. congruence. Qed.

Lemma abs_match s a lv f ids g h fr' top' comm k x sd b p e ys i zs l' m' qh v q' r' es n t' F tm :
  Abs s a -> (forall h, In h lv <-> a_obj a h <> None) -> LInv (s_lists s) ids g ->
  Rel f (s_types s) (s_tnext s) (a_obj a) (a_made a) ids g ->
  ~ In h lv -> a_obj a comm = Some (AComm k) -> f comm = OComm x -> qof sd k = b ++ p :: e ->
  g (lof sd x) = ys ++ (i, ptr_of (p_req p)) :: zs -> map snd (ys ++ zs) = slots (b ++ e) ->
  LInv l' ids (upd g (lof sd x) (ys ++ zs)) -> req_ok qh v -> req_ok q' r' ->
  TV t' (h :: lv) fr' top' F -> (forall z, F z = upd (upd f h (OReq v)) (p_req p) (OReq r') z) ->
  Abs (put_sys s t' l' m' tm)
    (with_items (with_clock (logged (set_obj (set_obj (with_mem (set_obj (with_handles a fr' top') h (Some (AReq qh))) m')
       (p_req p) (Some (AReq q'))) comm (Some (AComm (with_q sd k (b ++ e))))) es) n) (a_items a - 1)).
Proof.
  intros A Lv LI R Nh Ek Ex Eq Eg Em LI' Ov Or T EF.
  pose proof (lv_fresh _ _ _ Lv Nh) as Oh.
  destruct (rl_comm R Ek) as (x' & Ex' & CK). assert (x' = x) by congruence. subst x'.
  pose proof (ck_q _ _ _ _ _ _ _ sd CK) as Q. rewrite Eq in Q.
  assert (Op : a_obj a (p_req p) = Some (AReq (QPending sd (k_uid k) (p_id p)))).
  { destruct Q as (_ & _ & C). apply C. apply in_or_app. simpl; auto. }
  assert (Np : p_req p <> comm) by (intros Eh; rewrite Eh in Op; congruence).
  assert (Nhc : comm <> h) by (intros Eh; rewrite Eh in Ek; congruence).
  assert (Nhp : p_req p <> h) by (intros Eh; rewrite Eh in Op; congruence).
  destruct (count_upd _ _ _ _ _ _ LI (ck_l _ _ _ _ _ _ _ sd CK) LI') as [C1 C2].
  pose proof (ab_room A) as (B1 & B2 & B3).
  assert (C3 : lh_itemcount l' = a_items a - 1).
  { rewrite C1, Eg, (ab_items A). rewrite !app_length. cbn [length]. lia. }
  constructor; cbn [put_sys s_lists s_mem SysModel.s_init s_num s_tnext with_items with_clock logged set_obj with_mem with_handles
                    a_items a_heads a_made a_mem a_init a_ntypes]; try apply A; auto; try lia.
  - exists (h :: lv), F, ids, (upd g (lof sd x) (ys ++ zs)).
    cbn [put_sys s_tab s_lists s_types s_tnext with_items with_clock logged set_obj with_mem with_handles a_freed a_top a_obj a_made].
    split; [exact T|]. split; [|split; [exact LI'|]].
    + intros z. cbn [In]. rewrite Lv. unfold upd.
      destruct (Z.eqb_spec z comm) as [->|]; [split; [discriminate|intros _; right; congruence]|].
      destruct (Z.eqb_spec z (p_req p)) as [->|]; [split; [discriminate|intros _; right; congruence]|].
      destruct (Z.eqb_spec z h) as [->|]; [split; [discriminate|auto]|]. split; [intros [?|?]; [congruence|auto]|auto].
    + assert (R1 : Rel (upd f h (OReq v)) (s_types s) (s_tnext s) (upd (a_obj a) h (Some (AReq qh))) (a_made a) ids g).
      { apply rel_set; auto.
        - eapply not_pending_unqueued; eauto. congruence.
        - intros o' Eo. injection Eo as <-. exists v. auto. }
      eapply rel_ext; [eapply (rel_match _ _ _ _ _ _ _ comm k x sd b p e _ q' r' R1)|intros z|intros z _; apply EF]; auto.
      * rewrite upd_other; auto.
      * rewrite upd_other; auto.
      * unfold upd. destruct (Z.eqb_spec z comm) as [->|]; auto. destruct (Z.eqb_spec comm (p_req p)); congruence.
  - rewrite C2. apply (ab_heads A).
Qed.

Lemma abs_post s a lv f ids g h fr' top' comm k x sd p i l' v es n t' F tm :
  Abs s a -> (forall h, In h lv <-> a_obj a h <> None) -> LInv (s_lists s) ids g ->
  Rel f (s_types s) (s_tnext s) (a_obj a) (a_made a) ids g ->
  ~ In h lv -> a_obj a comm = Some (AComm k) -> f comm = OComm x -> p_req p = h -> room a ->
  LInv l' ids (upd g (lof sd x) (g (lof sd x) ++ [(i, ptr_of h)])) -> entry_ok sd p v ->
  TV t' (h :: lv) fr' top' F -> (forall z, F z = upd f h (OReq v) z) ->
  Abs (put_sys s t' l' (s_mem s) tm)
    (with_items (with_clock (logged (set_obj (set_obj (with_handles a fr' top') h (Some (AReq (QPending sd (k_uid k) (p_id p)))))
       comm (Some (AComm (with_q sd k (qof sd k ++ [p]))))) es) n) (a_items a + 1)).
Proof.
  intros A Lv LI R Nh Ek Ex Ep RM LI' Ov T EF. subst h. set (h := p_req p) in *.
  pose proof (lv_fresh _ _ _ Lv Nh) as Oh.
  destruct (rl_comm R Ek) as (x' & Ex' & CK). assert (x' = x) by congruence. subst x'.
  assert (Nhc : comm <> h) by (intros Eh; rewrite Eh in Ek; congruence).
  destruct (count_upd _ _ _ _ _ _ LI (ck_l _ _ _ _ _ _ _ sd CK) LI') as [C1 C2].
  pose proof (ab_room A) as (B1 & B2 & B3).
  assert (C3 : lh_itemcount l' = a_items a + 1).
  { rewrite C1, (ab_items A). rewrite !app_length. cbn [length]. lia. }
  unfold room in RM.
  constructor; cbn [put_sys s_lists s_mem SysModel.s_init s_num s_tnext with_items with_clock logged set_obj with_mem with_handles
                    a_items a_heads a_made a_mem a_init a_ntypes]; try apply A; auto; try lia.
  - exists (h :: lv), F, ids, (upd g (lof sd x) (g (lof sd x) ++ [(i, ptr_of h)])).
    cbn [put_sys s_tab s_lists s_types s_tnext with_items with_clock logged set_obj with_mem with_handles a_freed a_top a_obj a_made].
    split; [exact T|]. split; [|split; [exact LI'|]].
    + intros z. cbn [In]. rewrite Lv. unfold upd.
      destruct (Z.eqb_spec z comm) as [->|]; [split; [discriminate|intros _; right; congruence]|].
      destruct (Z.eqb_spec z h) as [->|]; [split; [discriminate|auto]|]. split; [intros [?|?]; [congruence|auto]|auto].
    + eapply rel_ext; [eapply (rel_post _ _ _ _ _ _ _ comm k x sd p i v R)|intros z; reflexivity|intros z _; apply EF]; auto.
  - rewrite C2. apply (ab_heads A).
Qed.

(** A new request that is complete at once. *)
Lemma abs_done s a lv f ids g h fr' top' qh v t' F tm :
  Abs s a -> (forall h, In h lv <-> a_obj a h <> None) -> LInv (s_lists s) ids g ->
  Rel f (s_types s) (s_tnext s) (a_obj a) (a_made a) ids g ->
  ~ In h lv -> req_ok qh v -> TV t' (h :: lv) fr' top' F -> (forall z, F z = upd f h (OReq v) z) ->
  Abs (put_sys s t' (s_lists s) (s_mem s) tm) (set_obj (with_handles a fr' top') h (Some (AReq qh))).
Proof.
  intros A Lv LI R Nh Ov T EF. pose proof (lv_fresh _ _ _ Lv Nh) as Oh.
  constructor; try apply A. exists (h :: lv), F, ids, g. split; [exact T|]. split; [|split; [exact LI|]].
  - intros z. cbn [In]. rewrite Lv. cbn [set_obj a_obj with_handles]. unfold upd.
    destruct (Z.eqb_spec z h) as [->|]; [split; [discriminate|auto]|]. split; [intros [?|?]; [congruence|auto]|auto].
  - eapply rel_ext; [|intros z; reflexivity|intros z _; apply EF]. apply rel_set; auto.
    + apply (not_pending_unqueued _ _ _ _ _ _ _ _ R). congruence.
    + intros o' Eo. injection Eo as <-. exists v. auto.
Qed.

Lemma type_at_new a fr top h o ty t : a_obj a h = None -> type_at c a ty = Some t ->
  type_at c (set_obj (with_handles a fr top) h o) ty = Some t.
Proof.
  intros N. unfold type_at. destruct (ty <? 0); auto. cbn [set_obj with_handles a_obj]. unfold upd.
  destruct (Z.eqb_spec ty h) as [->|]; auto. rewrite N. discriminate.
Qed.

Lemma xfer_types a src sn sty dst dn dty : defined (xfer_res c a src sn sty dst dn dty) ->
  exists st dt, type_at c a sty = Some st /\ type_at c a dty = Some dt.
Proof.
  unfold xfer_res, defined. destruct (type_at c a sty), (type_at c a dty); try contradiction. eauto.
Qed.

Ltac fresh_upd T :=
  match goal with
  | |- context [upd_req (ptr_of ?h) ?F ?st] =>
      let t := fresh "t" in let E := fresh "EU" in let T' := fresh "T" in
      destruct (upd_req_at st _ _ _ _ h _ F T (or_introl eq_refl)) as (t & E & T'); rewrite E; cbn [bind]; clear T; rename T' into T
  end.

Lemma isend_ok s a buf count ty dest tag comm : Abs s a -> legal_isend c buf count ty dest tag comm a ->
  agree eq (MPI_Isend c buf count ty dest tag comm s) (s_isend c buf count ty dest tag comm a).
Proof.
  intros A0 [K L]. unfold MPI_Isend, s_isend, mbind, rank_ok.
  destruct (known_ptr s a comm A0 K) as (pc & t0 & Ep & A & PC). rewrite Ep. cbn [bind]. clear A0 Ep.
  set (s0 := set_tab s t0) in *. rewrite negb_orb.
  destruct (negb (dest =? 0) && negb (dest =? MPI_PROC_NULL)) eqn:ED; [reflexivity|].
  destruct (ab_ex A) as (lv & f & ids & g & T & Lv & LI & R).
  pose proof (alloc_req_ok s0 T) as AL. unfold s_alloc, sbind.
  destruct (Z.eqb_spec dest MPI_PROC_NULL) as [->|ND].
  - destruct (next_handle (a_freed a) (a_top a)) as [[[h fr] top]|]; [|rewrite AL; reflexivity].
    destruct AL as (t1 & r & E & N & HR & T1). rewrite E. cbn [bind].
    fresh_upd T1. cbn [ret agree]. split; [reflexivity|].
    refine (abs_done s0 a lv f ids g h fr top QNullSend (w_complete 1 r) _ _ _ A Lv LI R N eq_refl T1 _). reflexivity.
  - assert (D0 : dest = 0).
    { destruct (Z.eqb_spec dest 0); auto. exfalso. destruct (Z.eqb_spec dest MPI_PROC_NULL); [auto|discriminate ED]. }
    destruct (L D0) as (k & Ek & RM & XF). rewrite Ek.
    assert (Eo : a_obj a comm = Some (AComm k)).
    { unfold comm_at in Ek. destruct (a_obj a comm) as [[| |]|]; congruence. }
    destruct (rl_comm R Eo) as (x & Ex & CK).
    assert (Lc : In comm lv) by (apply Lv; congruence).
    rewrite (PC ltac:(unfold live; congruence)).
    destruct (next_handle (a_freed a) (a_top a)) as [[[h fr] top]|].
    2: { rewrite AL. destruct (first_such _ _) as [[[b p] e]|]; reflexivity. }
    destruct AL as (t1 & r & E & N & HR & T1). rewrite E. cbn [bind].
    pose proof (lv_fresh _ _ _ Lv N) as Oh.
    assert (Nhc : comm <> h) by (intros Eh; rewrite Eh in Lc; auto).
    set (s1 := tick (set_tab s0 t1)) in *.
    assert (T1' : TV (s_tab s1) (h :: lv) fr top (upd f h (OReq r))) by exact T1.
    rewrite (get_comm_ok s1 comm x T1' (or_intror Lc)) by (rewrite upd_other; auto). cbn [bind].
    assert (Q : queue (upd f h (OReq r)) (upd (a_obj a) h (Some (AReq QNullSend))) g Rcv (k_uid k) (c_recv x) (k_recvs k)).
    { apply queue_upd; [apply (ck_qr CK)|]. intros Hi. destruct (queue_in _ _ _ _ _ _ _ _ (ck_qr CK) Hi). congruence. }
    assert (LI1 : LInv (s_lists s1) ids g) by exact LI.
    pose proof (search_ok s1 (h :: lv) fr top _ _ ids g Rcv (k_uid k) (c_recv x) (k_recvs k) (match_recv tag)
                  (fun p => accepts (p_tag p) tag) T1' LI1 (ck_r CK) Q) as S.
    assert (S1 : forall z, upd (a_obj a) h (Some (AReq QNullSend)) z <> None -> In z (h :: lv)).
    { intros z. unfold upd. destruct (Z.eqb_spec z h) as [->|]; [simpl; auto|]. intros Hz. right. apply Lv. auto. }
    assert (S2 : forall p r, entry_ok Rcv p r -> match_recv tag r = accepts (p_tag p) tag).
    { intros p r0 (_ & _ & Et & _). unfold match_recv, accepts. rewrite Et. reflexivity. }
    specialize (S S1 S2). clear S1 S2.
    destruct (first_such (fun p => accepts (p_tag p) tag) (k_recvs k)) as [[[b p] e]|] eqn:FS.
    + destruct S as (ys & i & zs & S & Eg & Em & Eq). rewrite S. cbn [bind].
      unfold l_data, gets. rewrite (item_data_ok _ _ _ _ _ _ _ _ LI1 (ck_r CK) Eg). cbn [bind].
      assert (IC : lh_itemcount (s_lists s1) <= INT_MAX).
      { change (s_lists s1) with (s_lists s0). rewrite (ab_items A). apply (ab_room A). }
      destruct (list_delete_item_ok slot LI1 (ck_r CK) IC Eg) as (l' & El & LI' & _).
      unfold l_delete at 1. rewrite El. cbn [bind].
      assert (Hp : In p (k_recvs k)) by (rewrite Eq; apply in_or_app; simpl; auto).
      pose proof (ck_qr CK) as (_ & _ & CQ). destruct (CQ p Hp) as (Op & rp & Erp & (Ep1 & Ep2 & Ep3 & Ep4)).
      destruct (Ep4 eq_refl) as [Ep5 Ep6].
      assert (Lp : In (p_req p) lv) by (apply Lv; congruence).
      assert (Nhp : p_req p <> h) by (intros Eh; rewrite Eh in Lp; auto).
      set (s2 := set_lists s1 l') in *.
      assert (T2 : TV (s_tab s2) (h :: lv) fr top (upd f h (OReq r))) by exact T1.
      assert (Erp' : upd f h (OReq r) (p_req p) = OReq rp) by (rewrite upd_other; auto).
      rewrite (get_req_ok s2 (p_req p) rp T2 (or_intror Lp) Erp'). cbn [bind].
      rewrite Ep2, Ep5, Ep6.
      pose proof (XF _ _ _ eq_refl) as DX. destruct (xfer_types _ _ _ _ _ _ _ DX) as (st & dt & Est & Edt).
      assert (TY : forall z t, type_at c a z = Some t -> tyv (upd f h (OReq r)) (h :: lv) (s_types s2) z t).
      { intros z ty1 Et. eapply tyv_ext; [exact (tyv_of _ _ _ _ _ _ _ _ _ _ R Lv Et)|].
        intros n Hn Hl. split; [right; auto|]. rewrite upd_other; auto. intros Ez. rewrite Ez in Hl. auto. }
      rewrite (copy_run s2 _ _ _ _ buf count ty st (p_buf p) (p_count p) (p_type p) dt T2 (TY _ _ Est) (TY _ _ Edt)).
      unfold s_xfer, xfer_res. rewrite (type_at_new _ _ _ _ _ _ _ Oh Est), (type_at_new _ _ _ _ _ _ _ Oh Edt).
      unfold xfer_res in DX. rewrite Est, Edt in DX. cbn [a_mem set_obj with_handles].
      change (s_mem s2) with (s_mem s0). rewrite (ab_mem A).
      destruct (Pcopy_data2 c (a_mem a) buf count st (p_buf p) (p_count p) dt) as [m'| | | |]; cbn [bind]; try (split; reflexivity); try reflexivity; try contradiction.
      set (s3 := set_mem s2 m') in *.
      assert (T3 : TV (s_tab s3) (h :: lv) fr top (upd f h (OReq r))) by exact T1.
      destruct (upd_req_ok s3 (p_req p) rp (w_complete 1) T3 (or_intror Lp) Erp') as (t4 & E4 & T4). rewrite E4. cbn [bind].
      destruct (upd_req_at (set_tab s3 t4) _ _ _ _ (p_req p) _ (w_source 0) T4 (or_intror Lp)) as (t5 & E5 & T5). rewrite E5. cbn [bind].
      destruct (upd_req_at (set_tab (set_tab s3 t4) t5) _ _ _ _ (p_req p) _ (w_tag tag) T5 (or_intror Lp)) as (t6 & E6 & T6). rewrite E6. cbn [bind].
      match type of T6 with TV _ _ _ _ ?F => set (F6 := F) in * end.
      assert (Eh : F6 h = OReq r). { unfold F6. rewrite upd_other, upd_same; auto. }
      destruct (upd_req_ok (set_tab (set_tab (set_tab s3 t4) t5) t6) h r (w_complete 1) T6 (or_introl eq_refl) Eh) as (t7 & E7 & T7).
      rewrite E7. cbn [bind agree ret]. split; [reflexivity|].
      refine (abs_match s0 a lv f ids g h fr top comm k x Rcv b p e ys i zs l' m' (QSent (a_clock a)) (w_complete 1 r)
                (QReceived (p_id p) tag) (w_tag tag (w_source 0 (w_complete 1 rp))) _ _ t7 _ _ A Lv LI R N Eo Ex Eq Eg Em LI' eq_refl _ T7 _).
      * cbn. auto.
      * intros z. unfold F6, upd. destruct (Z.eqb_spec z h) as [->|]; auto. destruct (Z.eqb_spec h (p_req p)); congruence.
    + rewrite S. cbn [bind].
      fresh_upd T1'. fresh_upd T1'. fresh_upd T1'.
      match goal with |- context [l_append _ _ ?st] => set (s2 := st) in * end.
      assert (IC : lh_itemcount (s_lists s2) < INT_MAX).
      { change (s_lists s2) with (s_lists s0). rewrite (ab_items A). exact RM. }
      assert (LI2 : LInv (s_lists s2) ids g) by exact LI.
      destruct (list_append_ok slot (ptr_of h) LI2 (ck_s CK) IC) as (l' & El & LI' & _).
      unfold l_append at 1. rewrite El. cbn [bind].
      assert (T2 : TV (s_tab (set_lists s2 l')) (h :: lv) fr top (upd f h (OReq (w_complete 0 (w_tag tag (w_buf buf r)))))) by exact T1'.
      fresh_upd T2. cbn [agree ret]. split; [reflexivity|].
      refine (abs_post s0 a lv f ids g h fr top comm k x Snd (mkPend (a_clock a) h buf count ty tag) _ l'
                _ _ _ _ _ _ A Lv LI R N Eo Ex eq_refl RM LI' _ T2 _); [|reflexivity].
      repeat split; discriminate.
Qed.

Lemma irecv_ok s a buf count ty source tag comm : Abs s a -> legal_irecv c buf count ty source tag comm a ->
  agree eq (MPI_Irecv c buf count ty source tag comm s) (s_irecv c buf count ty source tag comm a).
Proof.
  intros A0 [K L]. unfold MPI_Irecv, s_irecv, mbind, source_ok.
  destruct (known_ptr s a comm A0 K) as (pc & t0 & Ep & A & PC). rewrite Ep. cbn [bind]. clear A0 Ep.
  set (s0 := set_tab s t0) in *. rewrite !negb_orb.
  destruct (negb (source =? 0) && negb (source =? MPI_ANY_SOURCE) && negb (source =? MPI_PROC_NULL)) eqn:ED; [reflexivity|].
  destruct (ab_ex A) as (lv & f & ids & g & T & Lv & LI & R).
  pose proof (alloc_req_ok s0 T) as AL. unfold s_alloc, sbind.
  destruct (Z.eqb_spec source MPI_PROC_NULL) as [->|ND].
  - destruct (next_handle (a_freed a) (a_top a)) as [[[h fr] top]|]; [|rewrite AL; reflexivity].
    destruct AL as (t1 & r & E & N & HR & T1). rewrite E. cbn [bind].
    fresh_upd T1. fresh_upd T1. fresh_upd T1. fresh_upd T1. fresh_upd T1. cbn [ret agree]. split; [reflexivity|].
    refine (abs_done s0 a lv f ids g h fr top QNullRecv _ _ _ _ A Lv LI R N _ T1 _); [|reflexivity].
    cbn. auto.
  - assert (D0 : source = 0 \/ source = MPI_ANY_SOURCE).
    { destruct (Z.eqb_spec source 0); auto. destruct (Z.eqb_spec source MPI_ANY_SOURCE); auto.
      exfalso. destruct (Z.eqb_spec source MPI_PROC_NULL); [auto|discriminate ED]. }
    destruct (L D0) as (k & Ek & RM & XF). rewrite Ek.
    assert (Eo : a_obj a comm = Some (AComm k)).
    { unfold comm_at in Ek. destruct (a_obj a comm) as [[| |]|]; congruence. }
    destruct (rl_comm R Eo) as (x & Ex & CK).
    assert (Lc : In comm lv) by (apply Lv; congruence).
    rewrite (PC ltac:(unfold live; congruence)).
    destruct (next_handle (a_freed a) (a_top a)) as [[[h fr] top]|].
    2: { rewrite AL. destruct (first_such _ _) as [[[b p] e]|]; reflexivity. }
    destruct AL as (t1 & r0 & E & N & HR & T1). rewrite E. cbn [bind].
    pose proof (lv_fresh _ _ _ Lv N) as Oh.
    assert (Nhc : comm <> h) by (intros Eh; rewrite Eh in Lc; auto).
    fresh_upd T1. fresh_upd T1.
    match type of T1 with TV _ _ _ _ (upd _ _ (OReq ?rr)) => remember rr as r eqn:Er end.
    match goal with |- context [get_comm _ ?st] => set (s1 := st) in * end.
    assert (T1' : TV (s_tab s1) (h :: lv) fr top (upd f h (OReq r))) by exact T1.
    rewrite (get_comm_ok s1 comm x T1' (or_intror Lc)) by (rewrite upd_other; auto). cbn [bind].
    assert (Q : queue (upd f h (OReq r)) (upd (a_obj a) h (Some (AReq QNullSend))) g Snd (k_uid k) (c_send x) (k_sends k)).
    { apply queue_upd; [apply (ck_qs CK)|]. intros Hi. destruct (queue_in _ _ _ _ _ _ _ _ (ck_qs CK) Hi). congruence. }
    assert (LI1 : LInv (s_lists s1) ids g) by exact LI.
    pose proof (search_ok s1 (h :: lv) fr top _ _ ids g Snd (k_uid k) (c_send x) (k_sends k) (match_send tag)
                  (fun p => accepts tag (p_tag p)) T1' LI1 (ck_s CK) Q) as S.
    assert (S1 : forall z, upd (a_obj a) h (Some (AReq QNullSend)) z <> None -> In z (h :: lv)).
    { intros z. unfold upd. destruct (Z.eqb_spec z h) as [->|]; [simpl; auto|]. intros Hz. right. apply Lv. auto. }
    assert (S2 : forall p r, entry_ok Snd p r -> match_send tag r = accepts tag (p_tag p)).
    { intros p r1 (_ & _ & Et & _). unfold match_send, accepts. rewrite Et. reflexivity. }
    specialize (S S1 S2). clear S1 S2.
    destruct (first_such (fun p => accepts tag (p_tag p)) (k_sends k)) as [[[b p] e]|] eqn:FS.
    + destruct S as (ys & i & zs & S & Eg & Em & Eq). rewrite S. cbn [bind].
      unfold l_data, gets. rewrite (item_data_ok _ _ _ _ _ _ _ _ LI1 (ck_s CK) Eg). cbn [bind].
      assert (IC : lh_itemcount (s_lists s1) <= INT_MAX).
      { change (s_lists s1) with (s_lists s0). rewrite (ab_items A). apply (ab_room A). }
      destruct (list_delete_item_ok slot LI1 (ck_s CK) IC Eg) as (l' & El & LI' & _).
      unfold l_delete at 1. rewrite El. cbn [bind].
      assert (Hp : In p (k_sends k)) by (rewrite Eq; apply in_or_app; simpl; auto).
      pose proof (ck_qs CK) as (_ & _ & CQ). destruct (CQ p Hp) as (Op & rp & Erp & (Ep1 & Ep2 & Ep3 & Ep4)).
      assert (Lp : In (p_req p) lv) by (apply Lv; congruence).
      assert (Nhp : p_req p <> h) by (intros Eh; rewrite Eh in Lp; auto).
      set (s2 := set_lists s1 l') in *.
      assert (T2 : TV (s_tab s2) (h :: lv) fr top (upd f h (OReq r))) by exact T1.
      assert (Erp' : upd f h (OReq r) (p_req p) = OReq rp) by (rewrite upd_other; auto).
      rewrite (get_req_ok s2 (p_req p) rp T2 (or_intror Lp) Erp'). cbn [bind].
      rewrite Ep2.
      pose proof (XF _ _ _ eq_refl) as DX. destruct (xfer_types _ _ _ _ _ _ _ DX) as (st & dt & Est & Edt).
      assert (dt = st) by congruence. subst dt.
      assert (TY : forall z t, type_at c a z = Some t -> tyv (upd f h (OReq r)) (h :: lv) (s_types s2) z t).
      { intros z ty1 Et. eapply tyv_ext; [exact (tyv_of _ _ _ _ _ _ _ _ _ _ R Lv Et)|].
        intros n Hn Hl. split; [right; auto|]. rewrite upd_other; auto. intros Ez. rewrite Ez in Hl. auto. }
      rewrite (copy_run s2 _ _ _ _ (p_buf p) count ty st buf count ty st T2 (TY _ _ Est) (TY _ _ Est)).
      unfold s_xfer, xfer_res. rewrite (type_at_new _ _ _ _ _ _ _ Oh Est).
      unfold xfer_res in DX. rewrite Est in DX. cbn [a_mem set_obj with_handles].
      change (s_mem s2) with (s_mem s0). rewrite (ab_mem A).
      destruct (Pcopy_data2 c (a_mem a) (p_buf p) count st buf count st) as [m'| | | |]; cbn [bind]; try (split; reflexivity); try reflexivity; try contradiction.
      set (s3 := set_mem s2 m') in *.
      assert (T3 : TV (s_tab s3) (h :: lv) fr top (upd f h (OReq r))) by exact T1.
      fresh_upd T3. fresh_upd T3.
      match goal with |- context [get_req _ ?st] => set (s4 := st) in * end.
      match type of T3 with TV _ _ _ _ (upd _ _ (OReq ?rr)) => remember rr as r4 eqn:Er4 end.
      assert (T4 : TV (s_tab s4) (h :: lv) fr top (upd f h (OReq r4))) by exact T3.
      assert (Erp4 : upd f h (OReq r4) (p_req p) = OReq rp) by (rewrite upd_other; auto).
      rewrite (get_req_ok s4 (p_req p) rp T4 (or_intror Lp) Erp4). cbn [bind]. rewrite Ep3.
      fresh_upd T4.
      match goal with |- context [upd_req (ptr_of (p_req p)) _ ?st] => set (s5 := st) in * end.
      match type of T4 with TV _ _ _ _ (upd _ _ (OReq ?rr)) => set (r5 := rr) in * end.
      assert (T5 : TV (s_tab s5) (h :: lv) fr top (upd f h (OReq r5))) by exact T4.
      assert (Erp5 : upd f h (OReq r5) (p_req p) = OReq rp) by (rewrite upd_other; auto).
      destruct (upd_req_ok s5 (p_req p) rp (w_complete 1) T5 (or_intror Lp) Erp5) as (t7 & E7 & T7).
      rewrite E7. cbn [bind agree ret]. split; [reflexivity|].
      refine (abs_match s0 a lv f ids g h fr top comm k x Snd b p e ys i zs l' m' (QReceived (a_clock a) (p_tag p)) r5
                (QSent (p_id p)) (w_complete 1 rp) _ _ t7 _ _ A Lv LI R N Eo Ex Eq Eg Em LI' _ _ T7 _).
      * unfold r5. rewrite Er4. cbn. auto.
      * reflexivity.
      * intros z. reflexivity.
    + rewrite S. cbn [bind].
      fresh_upd T1'. fresh_upd T1'. fresh_upd T1'.
      match goal with |- context [l_append _ _ ?st] => set (s2 := st) in * end.
      assert (IC : lh_itemcount (s_lists s2) < INT_MAX).
      { change (s_lists s2) with (s_lists s0). rewrite (ab_items A). exact RM. }
      assert (LI2 : LInv (s_lists s2) ids g) by exact LI.
      destruct (list_append_ok slot (ptr_of h) LI2 (ck_r CK) IC) as (l' & El & LI' & _).
      unfold l_append at 1. rewrite El. cbn [bind].
      assert (T2 : TV (s_tab (set_lists s2 l')) (h :: lv) fr top (upd f h (OReq (w_complete 0 (w_tag tag (w_buf buf r)))))) by exact T1'.
      fresh_upd T2. cbn [agree ret]. split; [reflexivity|].
      refine (abs_post s0 a lv f ids g h fr top comm k x Rcv (mkPend (a_clock a) h buf count ty tag) _ l'
                _ _ _ _ _ _ A Lv LI R N Eo Ex eq_refl RM LI' _ T2 _); [|reflexivity].
      subst r. repeat split.
Qed.
End SysSim.

(** The remaining calls, and the refinement theorem. *)
From Verif Require Import Base ListModel ListProofs HandleModel HandleSpec HandleProofs HandleExact TypeModel CopyModel SysModel CollModel SysCalls SysSpec SysAbs SysSim.

Section SysSim2.
Variable c : cfg.
Variable tj : Z -> tjunk.
Notation Abs := (Abs tj).
Notation agree := (agree tj).

(** *** Communicators, start and end *)
Lemma comm_free_ok s a h k : Abs s a -> comm_at a h = Some k -> agree eq (MPI_Comm_free h s) (s_comm_free h a).
Proof.
  intros A Ek. unfold MPI_Comm_free, s_comm_free. rewrite Ek.
  assert (Eo : a_obj a h = Some (AComm k)).
  { unfold comm_at in Ek. destruct (a_obj a h) as [[| |]|]; congruence. }
  destruct (ab_ex A) as (lv & f & ids & g & T & Lv & LI & R).
  assert (Lh : In h lv) by (apply Lv; congruence).
  destruct (rl_comm R Eo) as (x & Ex & CK).
  pose proof (ab_room A) as (B1 & B2 & B3).
  unfold mbind. rewrite (handle_ptr_live _ _ T Lh). cbn [bind].
  rewrite (get_comm_ok _ _ _ T Lh Ex). cbn [bind].
  unfold l_size at 1, gets. rewrite (list_size_ok slot LI (ck_s CK)). cbn [bind].
  destruct (list_free_ok slot LI (ck_s CK)) as (l1 & E1 & LI1 & _).
  { rewrite (ab_items A). lia. } { rewrite (ab_heads A). lia. }
  unfold l_free at 1. rewrite E1. cbn [bind].
  assert (In2 : In (c_recv x) (remove_id (c_send x) ids)).
  { apply in_remove_id. split; [apply (ck_r CK)|]. pose proof (ck_ne CK). congruence. }
  assert (I1 : lh_itemcount l1 = a_items a - Z.of_nat (length (g (c_send x)))).
  { rewrite (li_ic LI1), (sumlen_remove slot ids g _ (li_nodup LI) (ck_s CK)), <- (li_ic LI), (ab_items A). reflexivity. }
  assert (H1 : lh_headcount l1 = a_heads a - 1).
  { rewrite (li_hc LI1), <- (ab_heads A), (li_hc LI).
    pose proof (sumlen_remove slot ids (fun _ => [(0, (0, 0))]) _ (li_nodup LI) (ck_s CK)) as Hs.
    assert (HL : forall l, sumlen slot l (fun _ => [(0, (0, 0))]) = Z.of_nat (length l)).
    { induction l as [|y l IH]; cbn [sumlen length]; [reflexivity|]. rewrite IH. lia. }
    rewrite !HL in Hs. cbn [length] in Hs. lia. }
  unfold l_size at 1, gets. cbn [SysModel.set_lists s_lists]. rewrite (list_size_ok slot LI1 In2). cbn [bind].
  destruct (list_free_ok slot LI1 In2) as (l2 & E2 & LI2 & _).
  { rewrite I1. lia. } { rewrite H1. lia. }
  unfold l_free at 1. cbn [SysModel.set_lists s_lists]. rewrite E2. cbn [bind].
  assert (I2 : lh_itemcount l2 = a_items a - Z.of_nat (length (g (c_send x))) - Z.of_nat (length (g (c_recv x)))).
  { rewrite (li_ic LI2), (sumlen_remove slot _ g _ (li_nodup LI1) In2), <- (li_ic LI1), I1. reflexivity. }
  assert (H2 : lh_headcount l2 = a_heads a - 2).
  { rewrite (li_hc LI2). pose proof (li_hc LI1) as Hc. rewrite H1 in Hc.
    pose proof (sumlen_remove slot _ (fun _ => [(0, (0, 0))]) _ (li_nodup LI1) In2) as Hs.
    assert (HL : forall l, sumlen slot l (fun _ => [(0, (0, 0))]) = Z.of_nat (length l)).
    { induction l as [|y l IH]; cbn [sumlen length]; [reflexivity|]. rewrite IH. lia. }
    rewrite !HL in Hs. cbn [length] in Hs. lia. }
  match goal with |- context [release _ ?st] => set (s2 := st) in * end.
  assert (T2 : TV (s_tab s2) lv (a_freed a) (a_top a) f) by exact T.
  destruct (release_ok s2 h T2 Lh) as (t' & E3 & T3). rewrite E3. cbn [bind ret].
  unfold sbind, s_free, SysSim.agree.
  assert (LS : Z.of_nat (length (g (c_send x))) = Z.of_nat (length (k_sends k))).
  { pose proof (ck_qs CK) as (Q & _). rewrite <- (map_length snd), Q. unfold slots. rewrite map_length. reflexivity. }
  assert (LR : Z.of_nat (length (g (c_recv x))) = Z.of_nat (length (k_recvs k))).
  { pose proof (ck_qr CK) as (Q & _). rewrite <- (map_length snd), Q. unfold slots. rewrite map_length. reflexivity. }
  assert (WL : forall q : list pend, warning (Z.of_nat (length q)) = some_left q).
  { intros [|p q]; [reflexivity|]. unfold warning. destruct (Z.eqb_spec (Z.of_nat (length (p :: q))) 0); [cbn [length] in *; lia|reflexivity]. }
  split; [rewrite LS, LR, !WL; reflexivity|].
  constructor; cbn [s2 set_tab SysModel.set_lists s_lists s_mem SysModel.s_init s_num s_tnext s_tjunk with_items with_heads set_obj with_handles
                    a_items a_heads a_made a_mem a_init a_ntypes]; try apply A; try lia.
  exists (remove_id h lv), f, (remove_id (c_recv x) (remove_id (c_send x) ids)), g.
  split; [exact T3|]. split; [|split; [exact LI2|]].
  - intros z. rewrite in_remove_id, Lv. cbn [a_obj with_items with_heads set_obj with_handles]. unfold upd.
    destruct (Z.eqb_spec z h) as [->|]; [split; [tauto|congruence]|]. tauto.
  - cbn [a_obj with_items with_heads set_obj with_handles a_made s_types s_tnext s2 set_tab SysModel.set_lists].
    assert (U : unqueued (a_obj a) h) by (eapply not_pending_unqueued; eauto; congruence).
    pose proof (rel_set _ _ _ _ _ _ _ h None (f h) R U ltac:(intros; discriminate)) as R1.
    eapply rel_ext; [eapply rel_env; [exact R1| |auto|lia|lia]|reflexivity|].
    + intros h2 k2 x2 Eh Fh. unfold upd in Eh, Fh. destruct (Z.eqb_spec h2 h) as [|N]; [discriminate|].
      destruct (rl_comm R Eh) as (x3 & Ex3 & CK3). assert (x3 = x2) by congruence. subst x3.
      destruct (rl_disj R Eo Eh ltac:(auto) Ex Fh) as (D1 & D2 & D3 & _).
      destruct (rl_disj R Eh Eo ltac:(auto) Fh Ex) as (D1' & D2' & D3' & _).
      split; [|split; [|auto]]; rewrite !in_remove_id; repeat split; auto; try (apply (ck_s CK3)); apply (ck_r CK3).
    + intros z _. unfold upd. destruct (Z.eqb_spec z h) as [->|]; reflexivity.
Qed.

Lemma init_ok s a : Abs s a -> room_comm a -> agree eq (MPI_Init s) (s_startup a).
Proof.
  intros A L. unfold MPI_Init, s_startup. eapply agree_bind; [apply (comm_new_ok tj); auto|].
  intros v w s' a' _ _ -> A'. destruct (Z.eqb_spec w MPI_COMM_WORLD); cbn [negb]; [|reflexivity].
  cbn. split; auto. constructor; try apply A'. reflexivity.
Qed.

Lemma finalize_ok s a : Abs s a -> agree eq (MPI_Finalize s) (s_finalize a).
Proof.
  intros A. unfold MPI_Finalize, s_finalize. cbn. split; auto.
  destruct (ab_ex A) as (lv & f & ids & g & (H & D) & Lv & LI & R).
  constructor; try apply A; [|reflexivity].
  exists [], f, ids, g. split; [split; [exact (hx_destroy _ _ _ _ _ H)|intros h []]|]. split; [|split; [exact LI|]].
  - intros h. cbn. split; [tauto|congruence].
  - constructor; cbn; intros; discriminate.
Qed.

(** *** Probe *)
Lemma iprobe_ok s a source tag comm st : Abs s a -> known a comm -> st <> SBad ->
  (source = 0 \/ source = MPI_ANY_SOURCE -> exists k, comm_at a comm = Some k) ->
  agree (fun x y => fst x = fst y /\ wrote st (snd y) (snd x)) (MPI_Iprobe source tag comm st s) (s_iprobe source tag comm a).
Proof.
  intros A0 K NB L. unfold MPI_Iprobe, s_iprobe, mbind.
  destruct (known_ptr tj s a comm A0 K) as (pc & t0 & Ep & A & PC). rewrite Ep. cbn [bind]. clear A0 Ep.
  set (s0 := set_tab s t0) in *. rewrite !negb_orb.
  destruct (negb (source =? 0) && negb (source =? MPI_ANY_SOURCE)) eqn:ED; [reflexivity|].
  destruct (ab_ex A) as (lv & f & ids & g & T & Lv & LI & R).
  assert (D0 : source = 0 \/ source = MPI_ANY_SOURCE).
  { destruct (Z.eqb_spec source 0); auto. destruct (Z.eqb_spec source MPI_ANY_SOURCE); auto. discriminate ED. }
  destruct (L D0) as (k & Ek). rewrite Ek.
  assert (Eo : a_obj a comm = Some (AComm k)).
  { unfold comm_at in Ek. destruct (a_obj a comm) as [[| |]|]; congruence. }
  destruct (rl_comm R Eo) as (x & Ex & CK).
  assert (Lc : In comm lv) by (apply Lv; congruence).
  rewrite (PC ltac:(unfold live; congruence)).
  rewrite (get_comm_ok s0 comm x T Lc Ex). cbn [bind].
  pose proof (search_ok s0 lv _ _ _ _ ids g Snd (k_uid k) (c_send x) (k_sends k) (match_send tag)
                (fun p => accepts tag (p_tag p)) T LI (ck_s CK) (ck_qs CK)) as S.
  specialize (S ltac:(intros h; apply Lv)).
  assert (S2 : forall p r, entry_ok Snd p r -> match_send tag r = accepts tag (p_tag p)).
  { intros p r1 (_ & _ & Et & _). unfold match_send, accepts. rewrite Et. reflexivity. }
  specialize (S S2). clear S2.
  destruct (first_such (fun p => accepts tag (p_tag p)) (k_sends k)) as [[[b p] e]|].
  - destruct S as (ys & i & zs & S & Eg & Em & Eq). rewrite S. cbn [bind].
    unfold l_data, gets. rewrite (item_data_ok _ _ _ _ _ _ _ _ LI (ck_s CK) Eg). cbn [bind].
    assert (Hp : In p (k_sends k)) by (rewrite Eq; apply in_or_app; simpl; auto).
    pose proof (ck_qs CK) as (_ & _ & CQ). destruct (CQ p Hp) as (Op & rp & Erp & (Ep1 & Ep2 & Ep3 & Ep4)).
    assert (Lp : In (p_req p) lv) by (apply Lv; congruence).
    destruct st as [|y|]; [| |congruence].
    + cbn. auto.
    + rewrite (get_req_ok s0 (p_req p) rp T Lp Erp). cbn [bind]. unfold pure. cbn [set_status bind ret SysSim.agree fst snd].
      split; [|exact A]. split; [reflexivity|]. cbn [wrote]. eexists. split; [reflexivity|].
      cbn [st_source st_tag st_error st_count]. repeat split; congruence.
  - rewrite S. cbn. auto.
Qed.

(** *** Datatypes *)
Lemma create_ok s a (make : tjunk -> res typestruct) : Abs s a -> defined (make (tj (a_ntypes a))) ->
  agree eq ((let* (h, p) := alloc_slot in let* _ := new_type p make in ret h) s)
    (if next_handle (a_freed a) (a_top a) then
       match make (tj (a_ntypes a)) with
       | Ok t => (then* h := s_alloc (fun _ => AType t) in fun a => Ret h (with_ntypes a (a_ntypes a + 1))) a
       | Exit n w => SExit n w
       | Abort w => SAbort w
       | _ => SAbort bad_arg
       end
     else SAbort handles_msg).
Proof.
  intros A D. unfold mbind, sbind, s_alloc, new_type.
  destruct (ab_ex A) as (lv & f & ids & g & T & Lv & LI & R).
  pose proof (alloc_slot_ok s T) as AL.
  destruct (next_handle (a_freed a) (a_top a)) as [[[h fr] top]|] eqn:NH; [|rewrite AL; reflexivity].
  destruct AL as (t1 & o & E & N & HR & T1). rewrite E. cbn [bind].
  cbn [tick set_tab s_tjunk s_tnext]. rewrite (ab_tj A). pose proof (ab_nt A) as NT. rewrite NT.
  destruct (make (tj (a_ntypes a))) as [t| | | |]; cbn [bind]; try (split; reflexivity); try reflexivity; try contradiction.
  match goal with |- context [write_slot _ ?oo ?ss] => set (o' := oo); set (s2 := ss) end.
  assert (T2 : TV (s_tab s2) (h :: lv) fr top (upd f h o)) by exact T1.
  destruct (write_slot_ok s2 h o' T2 (or_introl eq_refl)) as (t3 & E3 & T3). rewrite E3. cbn [bind ret SysSim.agree].
  split; [reflexivity|].
  pose proof (lv_fresh _ _ _ Lv N) as Oh.
  constructor; try apply A; [|reflexivity].
  exists (h :: lv), (upd (upd f h o) h o'), ids, g. split; [exact T3|]. split; [|split; [exact LI|]].
  - intros z. cbn [In a_obj with_ntypes set_obj with_handles]. rewrite Lv. unfold upd.
    destruct (Z.eqb_spec z h) as [->|]; [split; [discriminate|auto]|]. split; [intros [?|?]; [congruence|auto]|auto].
  - cbn [a_obj with_ntypes set_obj with_handles a_made s_types s_tnext set_tab s2 set_types tick].
    assert (R1 : Rel f (upd (s_types s) (a_ntypes a) (Some t)) (a_ntypes a + 1) (a_obj a) (a_made a) ids g).
    { eapply rel_env; [exact R| | |rewrite NT; lia|lia].
      - intros h1 k1 x1 K1 F1. destruct (rl_comm R K1) as (x' & Ex' & CK). assert (x' = x1) by congruence. subst x'.
        split; [apply (ck_s CK)|]. split; [apply (ck_r CK)|]. auto.
      - intros h1 t1' n1 K1 F1. destruct (rl_type R K1) as (n' & En & Hn & _). assert (n' = n1) by congruence. subst n'.
        apply upd_other. lia. }
    assert (U : unqueued (a_obj a) h) by (eapply not_pending_unqueued; eauto; congruence).
    eapply rel_ext; [eapply (rel_set _ _ _ _ _ _ _ h (Some (AType t)) o' R1 U)| |].
    + intros o1 Eo. injection Eo as <-. exists (a_ntypes a). split; [reflexivity|]. split; [lia|].
      split; [apply upd_same|]. intros h' t' Nh Et Ef. destruct (rl_type R Et) as (n' & En & Hn & _). rewrite En in Ef.
      injection Ef as ->. lia.
    + reflexivity.
    + intros z _. unfold upd. destruct (z =? h); reflexivity.
Qed.

Lemma type_at_run s a h t : Abs s a -> type_at c a h = Some t ->
  exists n, get_type c h s = Ok ((n, t), s).
Proof.
  intros A E. destruct (ab_ex A) as (lv & f & ids & g & T & Lv & LI & R).
  destruct (get_type_run c s _ _ _ _ h t T (tyv_of c _ _ _ _ _ _ _ _ _ _ R Lv E)) as (n & En & _). eauto.
Qed.

Lemma types_at_run s a : Abs s a -> forall n hs k acc ts, types_at c a (firstn n (skipn k hs)) = Some ts ->
  (n + k <= length hs)%nat ->
  for_from n (Z.of_nat k) (fun i bs =>
     (let* h := pure (arr_get hs i) in let* t := get_type c h in ret (fst bs ++ [snd t])) (snd bs)) (acc, s) = Ok (acc ++ ts, s).
Proof.
  intros A n hs. induction n as [|n IH]; intros k acc ts E L.
  - cbn in E. injection E as <-. rewrite app_nil_r. reflexivity.
  - cbn [for_from]. destruct (nth_error hs k) as [h|] eqn:En.
    2: { apply nth_error_None in En. lia. }
    assert (Es : skipn k hs = h :: skipn (S k) hs).
    { clear - En. revert k En. induction hs as [|x r IH]; intros [|k] En; cbn in *; try discriminate.
      - injection En as ->. reflexivity.
      - apply IH. exact En. }
    rewrite Es in E. cbn [firstn types_at] in E.
    destruct (type_at c a h) as [t|] eqn:Et; [|discriminate].
    destruct (types_at c a (firstn n (skipn (S k) hs))) as [ts'|] eqn:Ets; [|discriminate]. injection E as <-.
    cbn [fst snd]. unfold mbind at 1, pure at 1. rewrite (arr_get_nth hs (Z.of_nat k) h) by (try lia; rewrite Nat2Z.id; auto).
    cbn [bind]. unfold mbind. destruct (type_at_run _ _ _ _ A Et) as (nn & Eg). rewrite Eg. cbn [bind ret snd].
    replace (Z.of_nat k + 1) with (Z.of_nat (S k)) by lia. rewrite (IH (S k) _ _ Ets) by lia.
    rewrite <- app_assoc. reflexivity.
Qed.

Lemma type_create_ok s a k : Abs s a -> defined (make_type c tj a k) ->
  agree eq (MPI_Type_create c k s) (s_type_create c tj k a).
Proof.
  intros A D. unfold s_type_create.
  assert (One : forall old f, defined (match type_at c a old with Some t => f (tj (a_ntypes a)) t | None => UB "bad datatype" end) ->
     agree eq ((let* t := get_type c old in let* (h, p) := alloc_slot in let* _ := new_type p (fun jk => f jk (snd t)) in ret h) s)
       (if next_handle (a_freed a) (a_top a) then
          match (match type_at c a old with Some t => f (tj (a_ntypes a)) t | None => UB "bad datatype" end) with
          | Ok t => (then* h := s_alloc (fun _ => AType t) in fun a => Ret h (with_ntypes a (a_ntypes a + 1))) a
          | Exit n w => SExit n w
          | Abort w => SAbort w
          | _ => SAbort bad_arg
          end
        else SAbort handles_msg)).
  { intros old f Df. destruct (type_at c a old) as [t|] eqn:Et; [|contradiction].
    destruct (type_at_run _ _ _ _ A Et) as (n & En). unfold mbind at 1. rewrite En. cbn [bind snd].
    exact (create_ok s a (fun jk => f jk t) A Df). }
  destruct k as [count bl ds olds|count old|count bl stride old|count bl stride old|count bl ds old|count bl ds old|count bl ds old];
    cbn [MPI_Type_create make_type] in *.
  2: exact (One old (fun jk t => Type_contiguous c jk count t) D).
  2: exact (One old (fun jk t => Type_hvector c jk count bl stride t) D).
  2: exact (One old (fun jk t => Type_vector c jk count bl stride t) D).
  2: exact (One old (fun jk t => Type_hindexed c jk count bl ds t) D).
  2: exact (One old (fun jk t => Type_indexed c jk count bl ds t) D).
  2: exact (One old (fun jk t => Type_create_indexed_block c jk count bl ds t) D).
  destruct ((count <? 0) || (Z.of_nat (length olds) <? count)) eqn:Eb; [contradiction|].
  apply orb_false_iff in Eb. destruct Eb as [E1 E2]. apply Z.ltb_ge in E1, E2.
  destruct (types_at c a (firstn (Z.to_nat count) olds)) as [ts|] eqn:Ets; [|contradiction].
  unfold mbind at 1. unfold get_types, mbind at 1, pure at 1, vla. destruct (Z.ltb_spec count 0); [lia|]. cbn [bind].
  unfold mfor, for_loop. rewrite Z.sub_0_r.
  change 0 with (Z.of_nat 0) at 1. rewrite (types_at_run s a A (Z.to_nat count) olds 0 [] ts Ets) by lia. cbn [bind app].
  exact (create_ok s a (fun jk => Type_struct c jk count bl ds ts) A D).
Qed.

Lemma type_commit_ok s a h t : Abs s a -> type_at c a h = Some t -> agree eq (MPI_Type_commit c h s) (s_type_commit h a).
Proof.
  intros A E. destruct (ab_ex A) as (lv & f & ids & g & T & Lv & LI & R).
  destruct (get_type_run c s _ _ _ _ h t T (tyv_of c _ _ _ _ _ _ _ _ _ _ R Lv E)) as (n & En & Hn).
  unfold MPI_Type_commit, mbind. rewrite En. cbn [bind fst snd].
  unfold s_type_commit. unfold type_at in E.
  destruct Hn as [(Hh & ->)|(Hh & n' & -> & Fn)]; rewrite Hh in E.
  - apply Z.ltb_lt in Hh.
    assert (a_obj a h = None) as ->.
    { destruct (a_obj a h) eqn:Eo; auto. exfalso. assert (Lh : In h lv) by (apply Lv; congruence).
      destruct T as [H _]. destruct (hx_range _ _ _ _ _ _ H Lh). lia. }
    cbn. auto.
  - destruct (a_obj a h) as [[| |t']|] eqn:Eo; try discriminate. injection E as ->.
    cbn. split; auto. constructor; try apply A.
    exists lv, f, ids, g. split; [exact T|]. split; [|split; [exact LI|]].
    + intros z. rewrite Lv. cbn. unfold upd. destruct (Z.eqb_spec z h) as [->|]; [|tauto]. rewrite Eo. split; congruence.
    + cbn [s_types s_tnext set_types a_obj set_obj a_made].
      assert (U : unqueued (a_obj a) h) by (eapply not_pending_unqueued; eauto; congruence).
      pose proof (rel_set _ _ _ _ _ _ _ h None (f h) R U ltac:(intros; discriminate)) as R1.
      assert (R2 : Rel (upd f h (f h)) (upd (s_types s) n' (Some (committed t))) (s_tnext s) (upd (a_obj a) h None) (a_made a) ids g).
      { eapply rel_env; [exact R1| | |lia|lia].
        - intros h1 k1 x1 K1 F1. destruct (rl_comm R1 K1) as (x' & Ex' & CK). assert (x' = x1) by congruence. subst x'.
          split; [apply (ck_s CK)|]. split; [apply (ck_r CK)|]. auto.
        - intros h1 t1 n1 K1 F1. unfold upd in K1, F1. destruct (Z.eqb_spec h1 h) as [|Nh]; [discriminate|].
          apply upd_other. exact (rl_tdisj R K1 Eo Nh F1 Fn). }
      assert (U2 : unqueued (upd (a_obj a) h None) h).
      { eapply not_pending_unqueued; [exact R2|]. intros. rewrite upd_same. discriminate. }
      eapply rel_ext; [eapply (rel_set _ _ _ _ _ _ _ h (Some (AType (committed t))) (OType n') R2 U2)| |].
      * intros o Eo'. injection Eo' as <-. exists n'. split; [reflexivity|].
        destruct (rl_type R Eo) as (n2 & F2 & L2 & _). assert (n2 = n') by congruence. subst n2.
        split; [exact L2|]. split; [apply upd_same|]. intros h' t' Nh Et Ef. unfold upd in Et, Ef.
        destruct (Z.eqb_spec h' h) as [|_]; [congruence|].
        apply (rl_tdisj R Et Eo Nh Ef Fn). reflexivity.
      * intros z. unfold upd. destruct (z =? h); reflexivity.
      * intros z _. unfold upd. destruct (Z.eqb_spec z h) as [->|]; congruence.
Qed.

Lemma type_free_ok s a h t : Abs s a -> a_obj a h = Some (AType t) -> agree eq (MPI_Type_free c h s) (s_type_free h a).
Proof.
  intros A Eo. destruct (ab_ex A) as (lv & f & ids & g & T & Lv & LI & R).
  assert (Lh : In h lv) by (apply Lv; congruence).
  assert (Hh : (h <? 0) = false).
  { apply Z.ltb_ge. destruct T as [H _]. destruct (hx_range _ _ _ _ _ _ H Lh). lia. }
  assert (E : type_at c a h = Some t) by (unfold type_at; rewrite Hh, Eo; reflexivity).
  destruct (get_type_run c s _ _ _ _ h t T (tyv_of c _ _ _ _ _ _ _ _ _ _ R Lv E)) as (n & En & Hn).
  destruct Hn as [(Hh' & _)|(_ & n' & -> & Fn)]; [congruence|].
  unfold MPI_Type_free, mbind. rewrite En. cbn [bind fst snd].
  match goal with |- context [release _ ?st] => set (s2 := st) in * end.
  assert (T2 : TV (s_tab s2) lv (a_freed a) (a_top a) f) by exact T.
  destruct (release_ok s2 h T2 Lh) as (t' & E3 & T3). rewrite E3. cbn [bind ret].
  unfold s_type_free, sbind, s_free, sret, SysSim.agree. split; [reflexivity|].
  constructor; try apply A. exists (remove_id h lv), f, ids, g. split; [exact T3|]. split; [|split; [exact LI|]].
  - intros z. rewrite in_remove_id, Lv. cbn [a_obj set_obj with_handles]. unfold upd.
    destruct (Z.eqb_spec z h) as [->|]; [split; [tauto|congruence]|]. tauto.
  - cbn [s_types s_tnext s2 set_tab set_types a_obj set_obj with_handles a_made].
    assert (U : unqueued (a_obj a) h) by (eapply not_pending_unqueued; eauto; congruence).
    pose proof (rel_set _ _ _ _ _ _ _ h None (f h) R U ltac:(intros; discriminate)) as R1.
    eapply rel_ext; [eapply rel_env; [exact R1| | |lia|lia]|reflexivity|].
    + intros h1 k1 x1 K1 F1. destruct (rl_comm R1 K1) as (x' & Ex' & CK). assert (x' = x1) by congruence. subst x'.
      split; [apply (ck_s CK)|]. split; [apply (ck_r CK)|]. auto.
    + intros h1 t1 n1 K1 F1. unfold upd in K1, F1. destruct (Z.eqb_spec h1 h) as [|Nh]; [discriminate|].
      apply upd_other. exact (rl_tdisj R K1 Eo Nh F1 Fn).
    + intros z _. unfold upd. destruct (Z.eqb_spec z h) as [->|]; reflexivity.
Qed.

Lemma query_ok s a h q : Abs s a -> legal_query c h q a ->
  agree eq ((let* t := get_type c h in pure (q (snd t))) s) (s_query c h q a).
Proof.
  intros A (t & E & D). destruct (type_at_run _ _ _ _ A E) as (n & En).
  unfold mbind, pure, s_query. rewrite En, E. cbn [bind snd]. destruct (q t); cbn [bind]; try contradiction; try (split; reflexivity); try reflexivity. cbn. auto.
Qed.
End SysSim2.

(** Facts for C103. *)
From Coq Require Import Lia.
From Verif Require Import Base ListModel HandleModel HandleSpec HandleProofs HandleExact TypeModel CopyModel SysModel CollModel SysCalls SysSpec SysLog SysReach SysAbs SysSim SysSim3 SysInv SysHist SysFacts SysFacts2 FortModel PrintModel PrintSpec PrintFacts TypeSpec CopySpec CopyProofs FlowSpec MoveSpec MoveFacts TraceModel TraceSpec.

Section TraceFacts.
Variable c : cfg.
Variable tj : Z -> tjunk.
Variables strict info debug : bool.

Lemma int_ok m b : readable strict m b -> exists v, load_int strict m b = Ok v /\ int_at m b v.
Proof.
  intros [H S]. unfold load_int. replace (strict && negb (b mod 4 =? 0)) with false by (destruct strict; [rewrite (S eq_refl)|]; reflexivity).
  destruct (m b) as [b0|] eqn:E0; [|exfalso; apply (H 0); [lia|rewrite Z.add_0_r; exact E0]].
  destruct (m (b + 1)) as [b1|] eqn:E1; [|exfalso; apply (H 1); [lia|exact E1]].
  destruct (m (b + 2)) as [b2|] eqn:E2; [|exfalso; apply (H 2); [lia|exact E2]].
  destruct (m (b + 3)) as [b3|] eqn:E3; [|exfalso; apply (H 3); [lia|exact E3]].
  cbn [load]. rewrite E0, E1. replace (b + 1 + 1) with (b + 2) by lia. rewrite E2. replace (b + 2 + 1) with (b + 3) by lia. rewrite E3. cbn [bind].
  eexists. split; [reflexivity|]. exists b0, b1, b2, b3. repeat (split; [assumption|]). f_equal. lia.
Qed.

(** *** The calls, with the text at their ends *)
Ltac step := match goal with |- context [bind ?e _] => let E := fresh "E" in destruct e as [[? ?]| | | |] eqn:E; cbn [bind]; try reflexivity end.
Lemma say_ok name p g n t s x : (info = true -> get_comm p s = Ok (x, s)) ->
  when info (say_call strict name p g n t) s = Ok (if info then call_text name (c_num x) g n t else [], s).
Proof. intros G. unfold when. destruct info; [|reflexivity]. unfold say_call, mbind. rewrite (G eq_refl). reflexivity. Qed.

Lemma isend_null b n t g cm s p s1 x : handle_ptr cm s = Ok (p, s1) -> (info = true -> get_comm p s1 = Ok (x, s1)) ->
  tr_Isend c strict info debug b n t MPI_PROC_NULL g cm s =
    do (h, s') <- MPI_Isend c b n t MPI_PROC_NULL g cm s; Ok (h, if info then call_text "MPI_Isend" (c_num x) g n t else [], s').
Proof.
  intros E1 E2. unfold tr_Isend, MPI_Isend, mbind. rewrite E1. cbn [bind]. rewrite (say_ok "MPI_Isend" p g n t s1 x E2). cbn [bind].
  change (negb (MPI_PROC_NULL =? 0) && negb (MPI_PROC_NULL =? MPI_PROC_NULL)) with false. change (MPI_PROC_NULL =? MPI_PROC_NULL) with true. cbv beta iota.
  step. destruct p0 as [h q]. repeat step.
Qed.
Lemma isend_shape b n t g cm s p s1 x h q s3 x2 m : handle_ptr cm s = Ok (p, s1) -> (info = true -> get_comm p s1 = Ok (x, s1)) ->
  alloc_req s1 = Ok ((h, q), s3) -> get_comm p s3 = Ok (x2, s3) -> l_search (c_recv x2) (match_recv g) s3 = Ok (m, s3) ->
  tr_Isend c strict info debug b n t 0 g cm s =
    do (h', s') <- MPI_Isend c b n t 0 g cm s;
    do (o', s'') <- match m with
      | Some _ => do (rr, _) <- l_data m s3; when debug (say_done strict "send" b rr) s'
      | None => when info (let* cm := get_comm p in gets (print_list strict (c_send cm) "sendlist for comm " (c_num cm))) s' end;
    Ok (h', (if info then call_text "MPI_Isend" (c_num x) g n t else []) ++ o', s'').
Proof.
  intros E1 E2 E3 E4 E5. unfold tr_Isend, MPI_Isend, mbind. rewrite E1. cbn [bind].
  rewrite (say_ok "MPI_Isend" p g n t s1 x E2). cbn [bind]. change (negb (0 =? 0) && negb (0 =? MPI_PROC_NULL)) with false. change (0 =? MPI_PROC_NULL) with false. cbv beta iota.
  rewrite E3. cbn [bind]. cbv beta iota. rewrite E4. cbn [bind]. rewrite E5. cbn [bind].
  destruct m as [i|].
  - repeat step.
  - do 5 step.
Qed.
Lemma irecv_null b n t g cm s p s1 x : handle_ptr cm s = Ok (p, s1) -> (info = true -> get_comm p s1 = Ok (x, s1)) ->
  tr_Irecv c strict info debug b n t MPI_PROC_NULL g cm s =
    do (h, s') <- MPI_Irecv c b n t MPI_PROC_NULL g cm s; Ok (h, if info then call_text "MPI_Irecv" (c_num x) g n t else [], s').
Proof.
  intros E1 E2. unfold tr_Irecv, MPI_Irecv, mbind. rewrite E1. cbn [bind]. rewrite (say_ok "MPI_Irecv" p g n t s1 x E2). cbn [bind].
  change (negb (MPI_PROC_NULL =? 0) && negb (MPI_PROC_NULL =? MPI_ANY_SOURCE) && negb (MPI_PROC_NULL =? MPI_PROC_NULL)) with false. change (MPI_PROC_NULL =? MPI_PROC_NULL) with true. cbv beta iota.
  step. destruct p0 as [h q]. repeat step.
Qed.
Lemma irecv_shape b n t so g cm s p s1 x h q s3 u s4 u' s5 x2 m : so = 0 \/ so = MPI_ANY_SOURCE ->
  handle_ptr cm s = Ok (p, s1) -> (info = true -> get_comm p s1 = Ok (x, s1)) ->
  alloc_req s1 = Ok ((h, q), s3) -> upd_req q (w_rtype t) s3 = Ok (u, s4) -> upd_req q (w_rcount n) s4 = Ok (u', s5) ->
  get_comm p s5 = Ok (x2, s5) -> l_search (c_send x2) (match_send g) s5 = Ok (m, s5) ->
  (tr_Irecv c strict info debug b n t so g cm s =
    do (h', s') <- MPI_Irecv c b n t so g cm s;
    do (o', s'') <- match m with
      | Some _ => do (_, _) <- l_data m s5; when debug (say_done strict "recv" b q) s'
      | None => when info (let* cm := get_comm p in gets (print_list strict (c_recv cm) "recvlist for comm " (c_num cm))) s' end;
    Ok (h', (if info then call_text "MPI_Irecv" (c_num x) g n t else []) ++ o', s'')) /\
  forall h' s', MPI_Irecv c b n t so g cm s = Ok (h', s') -> h' = h.
Proof.
  intros So E1 E2 E3 U1 U2 E4 E5. unfold tr_Irecv, MPI_Irecv, mbind. rewrite E1. cbn [bind].
  rewrite (say_ok "MPI_Irecv" p g n t s1 x E2). cbn [bind].
  replace (negb (so =? 0) && negb (so =? MPI_ANY_SOURCE) && negb (so =? MPI_PROC_NULL)) with false by (destruct So as [-> | ->]; reflexivity).
  replace (so =? MPI_PROC_NULL) with false by (destruct So as [-> | ->]; reflexivity). cbv beta iota.
  rewrite E3. cbn [bind]. cbv beta iota. rewrite U1. cbn [bind]. rewrite U2. cbn [bind]. rewrite E4. cbn [bind]. rewrite E5. cbn [bind].
  split.
  - destruct m as [i|]; [repeat step|do 5 step].
  - intros h' s'. destruct m as [i|]; repeat (match goal with |- context [bind ?e _] => destruct e as [[? ?]| | | |]; cbn [bind]; try discriminate end); intros X; injection X; auto.
Qed.

(** *** What the text is *)
Lemma said sd w b rr s a r q k : Abs tj s a -> req_at a rr = Some (QReceived k q) -> readable strict (s_mem s) b -> debug = true ->
  w = what_of sd -> r = ptr_of rr ->
  exists v, when debug (say_done strict w b r) s = Ok (done_text w v q, s) /\ int_at (s_mem s) b v.
Proof.
  intros A Er Rd -> _ ->. destruct (int_ok _ _ Rd) as (v & Ev & V). exists v. split; auto.
  destruct (ab_ex A) as (lv & f & ids & g & T & Lv & LI & R). unfold req_at in Er. destruct (a_obj a rr) as [[|q'|]|] eqn:Eo; try discriminate. injection Er as ->.
  destruct (rl_req R Eo) as (r & Fr & Ok). cbn [req_ok] in Ok. destruct Ok as (_ & _ & Et).
  unfold when, say_done, mbind, gets. rewrite Ev. cbn [bind]. rewrite (get_req_ok s rr r T (proj2 (Lv rr) ltac:(congruence)) Fr). cbn [bind]. rewrite Et. reflexivity.
Qed.
Lemma listed s a cm k : Abs tj s a -> comm_at a cm = Some k ->
  (let* cm := get_comm (Some (ptr_of cm)) in gets (print_list strict (c_send cm) "sendlist for comm " (c_num cm))) s =
    Ok (queue_text "sendlist for comm " (k_uid k) (k_sends k), s) /\
  (let* cm := get_comm (Some (ptr_of cm)) in gets (print_list strict (c_recv cm) "recvlist for comm " (c_num cm))) s =
    Ok (queue_text "recvlist for comm " (k_uid k) (k_recvs k), s).
Proof.
  intros A Ek. destruct (queues_abs tj strict s a cm k A Ek) as (PR & PS). unfold print_recvs, print_sends in *.
  destruct (ab_ex A) as (lv & f & ids & g & T & Lv & LI & R). unfold comm_at in Ek. destruct (a_obj a cm) as [[k0| |]|] eqn:Eo; try discriminate.
  assert (L : In cm lv) by (apply Lv; congruence). rewrite (handle_ptr_live _ _ T L) in PR, PS. cbn [bind] in PR, PS.
  destruct (rl_comm R Eo) as (x & Ex & CK). rewrite (get_comm_ok _ _ _ T L Ex) in PR, PS. cbn [bind] in PR, PS.
  unfold mbind, gets. rewrite (get_comm_ok _ _ _ T L Ex). cbn [bind]. rewrite PR, PS. auto.
Qed.
Lemma readable_layout m m' b : same_layout m m' -> readable strict m b -> readable strict m' b.
Proof. intros L [H S]. split; auto. intros i Hi E. apply (L (b + i)) in E. exact (H i Hi E). Qed.

Lemma earliest_none sd g k bf p e : earliest sd g k bf p e -> none_goes sd g k -> False.
Proof. intros (E1 & E2 & _) N. rewrite (N p) in E2; [discriminate|]. rewrite E1. apply in_or_app. simpl. auto. Qed.

Lemma queue_tail msg uid (q : list pend) p : queue_text msg uid (q ++ [p]) = [Text msg; Text " "; Num uid; Text ": "] ++ flat_map (fun p => [Num (p_tag p); Text "  "]) q ++ [Num (p_tag p); Text "  "; Text "\n"].
Proof. unfold queue_text. rewrite flat_map_app. cbn [flat_map app]. rewrite <- app_assoc. reflexivity. Qed.

Theorem C103_isend_lemma s a b n t d g cm k : reach c tj s a -> comm_at a cm = Some k -> legal_isend c b n t d g cm a ->
  (debug = true -> d = 0 -> ~ none_goes Snd g k -> readable strict (s_mem s) b) ->
  traced (fun h s' o => post_text Snd info debug k b n t d g s' o) (tr_Isend c strict info debug b n t d g cm s) (MPI_Isend c b n t d g cm s).
Proof.
  intros RE Ek L Rd. pose proof (reach_abs _ _ RE) as A. pose proof (reach_inv _ _ RE) as I.
  destruct (ab_ex A) as (lv & f & ids & G & T & Lv & LI & R).
  assert (Eo : a_obj a cm = Some (AComm k)) by (unfold comm_at in Ek; destruct (a_obj a cm) as [[| |]|]; congruence).
  assert (Lc : In cm lv) by (apply Lv; congruence). destruct (rl_comm R Eo) as (x & Ex & CK).
  pose proof (handle_ptr_live _ _ T Lc) as HP. pose proof (get_comm_ok _ _ _ T Lc Ex) as GC.
  pose proof (isend_ok c tj s a b n t d g cm A L) as AG.
  destruct (Z.eq_dec d MPI_PROC_NULL) as [->|Nd].
  { rewrite (isend_null b n t g cm s _ s x HP (fun _ => GC)). destruct (MPI_Isend c b n t MPI_PROC_NULL g cm s) as [[h s']| | | |]; try reflexivity.
    cbn [bind traced]. eexists. split; [reflexivity|]. rewrite (ck_num CK). exists []. rewrite app_nil_r. split; [reflexivity|]. split; [reflexivity|].
    split; intros Nx; exfalso; apply Nx; reflexivity. }
  destruct (Z.eq_dec d 0) as [->|Nz].
  2: { unfold tr_Isend, MPI_Isend, mbind. rewrite HP. cbn [bind]. rewrite (say_ok "MPI_Isend" _ g n t s x (fun _ => GC)). cbn [bind].
       apply Z.eqb_neq in Nd, Nz. rewrite Nd, Nz. reflexivity. }
  pose proof (alloc_req_ok s T) as AL. destruct (next_handle (a_freed a) (a_top a)) as [[[h fr] top]|] eqn:NH.
  2: { unfold tr_Isend, MPI_Isend, mbind. rewrite HP. cbn [bind]. rewrite (say_ok "MPI_Isend" _ g n t s x (fun _ => GC)). cbn [bind].
       change (negb (0 =? 0) && negb (0 =? MPI_PROC_NULL)) with false. cbv beta iota. rewrite AL. reflexivity. }
  destruct AL as (t1 & r & E & N & HR & T1).
  assert (Oh : a_obj a h = None) by (destruct (a_obj a h) eqn:X; auto; exfalso; apply N, Lv; congruence).
  assert (Nhc : cm <> h) by (intros ->; contradiction).
  set (s1 := tick (set_tab s t1)) in *. assert (T1' : TV (s_tab s1) (h :: lv) fr top (upd f h (OReq r))) by exact T1.
  assert (GC1 : get_comm (Some (ptr_of cm)) s1 = Ok (x, s1)) by (apply (get_comm_ok s1 cm x T1' (or_intror Lc)); rewrite upd_other; auto).
  assert (Q : queue (upd f h (OReq r)) (upd (a_obj a) h (Some (AReq QNullSend))) G Rcv (k_uid k) (c_recv x) (k_recvs k)).
  { apply queue_upd; [apply (ck_qr CK)|]. intros Hi. destruct (queue_in _ _ _ _ _ _ _ _ (ck_qr CK) Hi). congruence. }
  assert (LI1 : ListProofs.LInv (s_lists s1) ids G) by exact LI.
  pose proof (search_ok s1 (h :: lv) fr top _ _ ids G Rcv (k_uid k) (c_recv x) (k_recvs k) (match_recv g) (fun p => accepts (p_tag p) g) T1' LI1 (ck_r CK) Q) as S.
  assert (S1 : forall z, upd (a_obj a) h (Some (AReq QNullSend)) z <> None -> In z (h :: lv)).
  { intros z. unfold upd. destruct (Z.eqb_spec z h) as [->|]; [simpl; auto|]. intros Hz. right. apply Lv. auto. }
  assert (S2 : forall p r, entry_ok Rcv p r -> match_recv g r = accepts (p_tag p) g).
  { intros p r0 (_ & _ & Et & _). unfold match_recv, accepts. rewrite Et. reflexivity. }
  specialize (S S1 S2). clear S1 S2.
  destruct (first_such (fun p => accepts (p_tag p) g) (k_recvs k)) as [[[bf p] e]|] eqn:FS.
  - destruct S as (ys & i & zs & S & Eg & _ & Eq). rewrite (isend_shape b n t g cm s _ s x h _ s1 x (Some i) HP (fun _ => GC) E GC1 S).
    unfold l_data, gets. rewrite (item_data_ok _ _ _ _ _ _ _ _ LI1 (ck_r CK) Eg). cbn [bind].
    destruct (first_such_some _ _ _ _ _ FS) as (F1 & F2 & F3).
    assert (Ea : earliest Snd g k bf p e) by (split; [exact F1|split; [exact F2|exact F3]]).
    destruct (MPI_Isend c b n t 0 g cm s) as [[h' s']| | | |] eqn:MI; try reflexivity. cbn [bind traced].
    unfold agree in AG. destruct (s_isend c b n t 0 g cm a) as [w a'| |] eqn:SI; try contradiction. destruct AG as (<- & A').
    destruct (isend_inv _ _ _ _ _ _ _ _ _ I SI) as [(X & _)|(_ & k' & Ek' & [(bf' & p' & e' & m & Ea' & X & P)|(NG & _)])]; [discriminate X| |].
    2: { exfalso. assert (k' = k) by congruence. subst k'. exact (earliest_none _ _ _ _ _ _ Ea NG). }
    assert (k' = k) by congruence. subst k'. destruct (earliest_unique _ _ _ _ _ _ _ _ _ Ea Ea') as (<- & <- & <-).
    destruct debug eqn:DB.
    + assert (R0 : readable strict (s_mem s') b).
      { apply xfer_steps in X. destruct X as (SL & _). rewrite (ab_mem A'), (pr_mem _ _ _ _ _ _ _ _ _ _ _ _ P). rewrite <- (ab_mem A) in SL.
        apply (readable_layout _ _ _ SL), Rd; auto. intros NG. exact (earliest_none _ _ _ _ _ _ Ea NG). }
      pose proof (pr_partner _ _ _ _ _ _ _ _ _ _ _ _ P) as PP. cbn [other done_req msg_tag] in PP.
      destruct (said Snd "send" b (p_req p) s' a' _ g _ A' PP R0 DB eq_refl eq_refl) as (v & Sv & Iv). rewrite DB in Sv. rewrite Sv. cbn [bind].
      eexists. split; [reflexivity|]. rewrite (ck_num CK). eexists. split; [reflexivity|]. split; [intros X0; discriminate X0|]. split.
      * intros _ NG. exfalso. exact (earliest_none _ _ _ _ _ _ Ea NG).
      * intros _ bf1 p1 e1 Ea1. destruct (earliest_unique _ _ _ _ _ _ _ _ _ Ea Ea1) as (_ & <- & _). exists v. split; auto.
    + cbn [when ret bind]. eexists. split; [reflexivity|]. rewrite (ck_num CK). eexists. split; [reflexivity|]. split; [intros X0; discriminate X0|]. split; [|auto].
      intros _ NG. exfalso. exact (earliest_none _ _ _ _ _ _ Ea NG).
  - rewrite (isend_shape b n t g cm s _ s x h _ s1 x None HP (fun _ => GC) E GC1 S).
    assert (NG : none_goes Snd g k) by (intros q Hq; exact (first_such_none _ _ FS q Hq)).
    destruct (MPI_Isend c b n t 0 g cm s) as [[h' s']| | | |] eqn:MI; try reflexivity. cbn [bind traced].
    unfold agree in AG. destruct (s_isend c b n t 0 g cm a) as [w a'| |] eqn:SI; try contradiction. destruct AG as (<- & A').
    destruct (isend_inv _ _ _ _ _ _ _ _ _ I SI) as [(X & _)|(_ & k' & Ek' & [(bf' & p' & e' & m & Ea' & X & P)|(_ & QD)])]; [discriminate X| |].
    { exfalso. assert (k' = k) by congruence. subst k'. exact (earliest_none _ _ _ _ _ _ Ea' NG). }
    assert (k' = k) by congruence. subst k'. pose proof (qd_comm _ _ _ _ _ _ QD) as QC.
    destruct (listed s' a' cm _ A' QC) as (LS & _). unfold when. destruct info.
    + rewrite LS. cbn [bind]. eexists. split; [reflexivity|]. rewrite (ck_num CK). eexists. split; [reflexivity|]. split; [intros X0; discriminate X0|]. split.
      * intros _ _. cbn [set_line line k_uid k_sends list_of]. rewrite queue_tail. reflexivity.
      * intros _ bf1 p1 e1 Ea1. exfalso. exact (earliest_none _ _ _ _ _ _ Ea1 NG).
    + cbn [ret bind]. eexists. split; [reflexivity|]. exists []. split; [reflexivity|]. split; [auto|]. split; [auto|].
      intros _ bf1 p1 e1 Ea1. exfalso. exact (earliest_none _ _ _ _ _ _ Ea1 NG).
Qed.
Theorem C103_irecv_lemma s a b n t d g cm k : reach c tj s a -> comm_at a cm = Some k -> legal_irecv c b n t d g cm a ->
  (debug = true -> d <> MPI_PROC_NULL -> ~ none_goes Rcv g k -> readable strict (s_mem s) b) ->
  traced (fun h s' o => post_text Rcv info debug k b n t d g s' o) (tr_Irecv c strict info debug b n t d g cm s) (MPI_Irecv c b n t d g cm s).
Proof.
  intros RE Ek L Rd. pose proof (reach_abs _ _ RE) as A. pose proof (reach_inv _ _ RE) as I.
  destruct (ab_ex A) as (lv & f & ids & G & T & Lv & LI & R).
  assert (Eo : a_obj a cm = Some (AComm k)) by (unfold comm_at in Ek; destruct (a_obj a cm) as [[| |]|]; congruence).
  assert (Lc : In cm lv) by (apply Lv; congruence). destruct (rl_comm R Eo) as (x & Ex & CK).
  pose proof (handle_ptr_live _ _ T Lc) as HP. pose proof (get_comm_ok _ _ _ T Lc Ex) as GC.
  pose proof (irecv_ok c tj s a b n t d g cm A L) as AG.
  destruct (Z.eq_dec d MPI_PROC_NULL) as [->|Nd].
  { rewrite (irecv_null b n t g cm s _ s x HP (fun _ => GC)). destruct (MPI_Irecv c b n t MPI_PROC_NULL g cm s) as [[h s']| | | |]; try reflexivity.
    cbn [bind traced]. eexists. split; [reflexivity|]. rewrite (ck_num CK). exists []. rewrite app_nil_r. split; [reflexivity|]. split; [reflexivity|].
    split; intros Nx; exfalso; apply Nx; reflexivity. }
  assert (So : {d = 0 \/ d = MPI_ANY_SOURCE} + {d <> 0 /\ d <> MPI_ANY_SOURCE}).
  { destruct (Z.eq_dec d 0); [left; auto|]. destruct (Z.eq_dec d MPI_ANY_SOURCE); [left; auto|right; auto]. }
  destruct So as [So|[Nz Na]].
  2: { unfold tr_Irecv, MPI_Irecv, mbind. rewrite HP. cbn [bind]. rewrite (say_ok "MPI_Irecv" _ g n t s x (fun _ => GC)). cbn [bind].
       apply Z.eqb_neq in Nd, Nz, Na. rewrite Nd, Nz, Na. reflexivity. }
  pose proof (alloc_req_ok s T) as AL. destruct (next_handle (a_freed a) (a_top a)) as [[[h fr] top]|] eqn:NH.
  2: { unfold tr_Irecv, MPI_Irecv, mbind. rewrite HP. cbn [bind]. rewrite (say_ok "MPI_Irecv" _ g n t s x (fun _ => GC)). cbn [bind].
       replace (negb (d =? 0) && negb (d =? MPI_ANY_SOURCE) && negb (d =? MPI_PROC_NULL)) with false by (destruct So as [-> | ->]; reflexivity). cbv beta iota. rewrite AL. reflexivity. }
  destruct AL as (t1 & r0 & E & N & HR & T1).
  assert (Oh : a_obj a h = None) by (destruct (a_obj a h) eqn:X; auto; exfalso; apply N, Lv; congruence).
  assert (Nhc : cm <> h) by (intros ->; contradiction).
  set (s0 := tick (set_tab s t1)) in *.
  destruct (upd_req_at s0 _ _ _ _ h _ (w_rtype t) T1 (or_introl eq_refl)) as (t2 & U1 & T2). set (s2 := set_tab s0 t2) in *.
  destruct (upd_req_at s2 _ _ _ _ h _ (w_rcount n) T2 (or_introl eq_refl)) as (t3 & U2 & T3). set (s1 := set_tab s2 t3) in *.
  set (r := w_rcount n (w_rtype t r0)) in *. assert (T1' : TV (s_tab s1) (h :: lv) fr top (upd f h (OReq r))) by exact T3.
  assert (GC1 : get_comm (Some (ptr_of cm)) s1 = Ok (x, s1)) by (apply (get_comm_ok s1 cm x T1' (or_intror Lc)); rewrite upd_other; auto).
  assert (Q : queue (upd f h (OReq r)) (upd (a_obj a) h (Some (AReq QNullSend))) G Snd (k_uid k) (c_send x) (k_sends k)).
  { apply queue_upd; [apply (ck_qs CK)|]. intros Hi. destruct (queue_in _ _ _ _ _ _ _ _ (ck_qs CK) Hi). congruence. }
  assert (LI1 : ListProofs.LInv (s_lists s1) ids G) by exact LI.
  pose proof (search_ok s1 (h :: lv) fr top _ _ ids G Snd (k_uid k) (c_send x) (k_sends k) (match_send g) (fun p => accepts g (p_tag p)) T1' LI1 (ck_s CK) Q) as S.
  assert (S1 : forall z, upd (a_obj a) h (Some (AReq QNullSend)) z <> None -> In z (h :: lv)).
  { intros z. unfold upd. destruct (Z.eqb_spec z h) as [->|]; [simpl; auto|]. intros Hz. right. apply Lv. auto. }
  assert (S2 : forall p r, entry_ok Snd p r -> match_send g r = accepts g (p_tag p)).
  { intros p r9 (_ & _ & Et & _). unfold match_send, accepts. rewrite Et. reflexivity. }
  specialize (S S1 S2). clear S1 S2.
  destruct (first_such (fun p => accepts g (p_tag p)) (k_sends k)) as [[[bf p] e]|] eqn:FS.
  - destruct S as (ys & i & zs & S & Eg & _ & Eq). destruct (irecv_shape b n t d g cm s _ s x h _ s0 _ s2 _ s1 x (Some i) So HP (fun _ => GC) E U1 U2 GC1 S) as (SH & HH). rewrite SH. clear SH.
    unfold l_data, gets. rewrite (item_data_ok _ _ _ _ _ _ _ _ LI1 (ck_s CK) Eg). cbn [bind].
    destruct (first_such_some _ _ _ _ _ FS) as (F1 & F2 & F3).
    assert (Ea : earliest Rcv g k bf p e) by (split; [exact F1|split; [exact F2|exact F3]]).
    destruct (MPI_Irecv c b n t d g cm s) as [[h' s']| | | |] eqn:MI; try reflexivity. cbn [bind traced].
    unfold agree in AG. destruct (s_irecv c b n t d g cm a) as [w a'| |] eqn:SI; try contradiction. destruct AG as (<- & A').
    destruct (irecv_inv _ _ _ _ _ _ _ _ _ I SI) as [(X & _)|(_ & k' & Ek' & [(bf' & p' & e' & m & Ea' & X & P)|(NG & _)])]; [contradiction| |].
    2: { exfalso. assert (k' = k) by congruence. subst k'. exact (earliest_none _ _ _ _ _ _ Ea NG). }
    assert (k' = k) by congruence. subst k'. destruct (earliest_unique _ _ _ _ _ _ _ _ _ Ea Ea') as (<- & <- & <-).
    destruct debug eqn:DB.
    + assert (R0 : readable strict (s_mem s') b).
      { apply xfer_steps in X. destruct X as (SL & _). rewrite (ab_mem A'), (pr_mem _ _ _ _ _ _ _ _ _ _ _ _ P). rewrite <- (ab_mem A) in SL.
        apply (readable_layout _ _ _ SL), Rd; auto. intros NG. exact (earliest_none _ _ _ _ _ _ Ea NG). }
      pose proof (pr_req _ _ _ _ _ _ _ _ _ _ _ _ P) as PP. cbn [other done_req msg_tag] in PP.
      rewrite (HH _ _ eq_refl) in PP. destruct (said Rcv "recv" b h s' a' _ (p_tag p) _ A' PP R0 DB eq_refl eq_refl) as (v & Sv & Iv). rewrite DB in Sv. rewrite Sv. cbn [bind].
      eexists. split; [reflexivity|]. rewrite (ck_num CK). eexists. split; [reflexivity|]. split; [intros X0; contradiction|]. split.
      * intros _ NG. exfalso. exact (earliest_none _ _ _ _ _ _ Ea NG).
      * intros _ bf1 p1 e1 Ea1. destruct (earliest_unique _ _ _ _ _ _ _ _ _ Ea Ea1) as (_ & <- & _). exists v. split; auto.
    + cbn [when ret bind]. eexists. split; [reflexivity|]. rewrite (ck_num CK). eexists. split; [reflexivity|]. split; [intros X0; contradiction|]. split; [|auto].
      intros _ NG. exfalso. exact (earliest_none _ _ _ _ _ _ Ea NG).
  - destruct (irecv_shape b n t d g cm s _ s x h _ s0 _ s2 _ s1 x None So HP (fun _ => GC) E U1 U2 GC1 S) as (SH & HH). rewrite SH. clear SH.
    assert (NG : none_goes Rcv g k) by (intros q Hq; exact (first_such_none _ _ FS q Hq)).
    destruct (MPI_Irecv c b n t d g cm s) as [[h' s']| | | |] eqn:MI; try reflexivity. cbn [bind traced].
    unfold agree in AG. destruct (s_irecv c b n t d g cm a) as [w a'| |] eqn:SI; try contradiction. destruct AG as (<- & A').
    destruct (irecv_inv _ _ _ _ _ _ _ _ _ I SI) as [(X & _)|(_ & k' & Ek' & [(bf' & p' & e' & m & Ea' & X & P)|(_ & QD)])]; [contradiction| |].
    { exfalso. assert (k' = k) by congruence. subst k'. exact (earliest_none _ _ _ _ _ _ Ea' NG). }
    assert (k' = k) by congruence. subst k'. pose proof (qd_comm _ _ _ _ _ _ QD) as QC.
    destruct (listed s' a' cm _ A' QC) as (_ & LS). unfold when. destruct info.
    + rewrite LS. cbn [bind]. eexists. split; [reflexivity|]. rewrite (ck_num CK). eexists. split; [reflexivity|]. split; [intros X0; contradiction|]. split.
      * intros _ _. cbn [set_line line k_uid k_recvs list_of]. rewrite queue_tail. reflexivity.
      * intros _ bf1 p1 e1 Ea1. exfalso. exact (earliest_none _ _ _ _ _ _ Ea1 NG).
    + cbn [ret bind]. eexists. split; [reflexivity|]. exists []. split; [reflexivity|]. split; [auto|]. split; [auto|].
      intros _ bf1 p1 e1 Ea1. exfalso. exact (earliest_none _ _ _ _ _ _ Ea1 NG).
Qed.

(** *** The calls made of these *)
Ltac pass := match goal with |- context [bind ?e _] => let E := fresh "E" in destruct e as [[? ?]| | | |] eqn:E; cbn [bind]; try discriminate end.
Lemma handle_ptr_mem h s p s' : handle_ptr h s = Ok (p, s') -> s_mem s' = s_mem s.
Proof. unfold handle_ptr. pass. intros X. injection X as _ <-. reflexivity. Qed.
Lemma get_req_mem p s r s' : get_req p s = Ok (r, s') -> s' = s.
Proof. unfold get_req, read_slot, gets, mbind. destruct (h_read (s_tab s) p) as [o| | | |]; try discriminate. cbn [bind]. destruct o; try discriminate. intros X. injection X as _ <-. reflexivity. Qed.
Lemma slot_mem p s q s' : pure (slot_of p) s = Ok (q, s') -> s' = s.
Proof. unfold pure, slot_of. destruct p; [|discriminate]. cbn [bind]. intros X. injection X as _ <-. reflexivity. Qed.
Lemma status_mem st a b s x s' : pure (set_status st a b) s = Ok (x, s') -> s' = s.
Proof. unfold pure, set_status. destruct st; try discriminate; cbn [bind]; intros X; injection X as _ <-; reflexivity. Qed.
Lemma wait_mem r st s x s' : MPI_Wait r st s = Ok (x, s') -> s_mem s' = s_mem s.
Proof.
  unfold MPI_Wait, mbind. destruct (MPI_Test r st s) as [[[[r' fl] st'] s1]| | | |] eqn:E; cbn [bind]; try discriminate.
  intros X. assert (s' = s1) as -> by (destruct (fl =? 0); [discriminate|]; injection X as _ <-; reflexivity). clear X. revert E.
  unfold MPI_Test, mbind. destruct (r =? MPI_REQUEST_NULL).
  - destruct (pure (set_status st MPI_ANY_SOURCE MPI_ANY_TAG) s) as [[y s2]| | | |] eqn:E; cbn [bind]; try discriminate. apply status_mem in E. subst s2.
    intros X. injection X as _ _ _ <-. reflexivity.
  - destruct (handle_ptr r s) as [[p s2]| | | |] eqn:E1; cbn [bind]; try discriminate. apply handle_ptr_mem in E1.
    destruct (pure (slot_of p) s2) as [[q s3]| | | |] eqn:E2; cbn [bind]; try discriminate. apply slot_mem in E2. subst s3.
    destruct (get_req q s2) as [[y s3]| | | |] eqn:E3; cbn [bind]; try discriminate. apply get_req_mem in E3. subst s3.
    destruct (negb (r_complete y =? 0)); [|intros X; injection X as _ _ _ <-; exact E1].
    destruct (pure (set_status st (r_source y) (r_tag y)) s2) as [[z s3]| | | |] eqn:E4; cbn [bind]; try discriminate. apply status_mem in E4. subst s3.
    unfold release. destruct (free_handle r (s_tab s2)) as [w| | | |]; cbn [bind]; try discriminate. intros X. injection X as _ _ _ <-. exact E1.
Qed.
Lemma post_mem sd k b n t d g s s' o : s_mem s' = s_mem s -> post_text sd info debug k b n t d g s o -> post_text sd info debug k b n t d g s' o.
Proof. intros E H. unfold post_text in *. rewrite E. exact H. Qed.

Lemma say_pre name s : when info (pure (printf strict [Lit name] [])) s = Ok (pre_text info name, s).
Proof. unfold when, pre_text. destruct info; reflexivity. Qed.

Theorem C103_send_lemma s a b n t d g cm k : reach c tj s a -> comm_at a cm = Some k -> legal_isend c b n t d g cm a ->
  (debug = true -> d = 0 -> ~ none_goes Snd g k -> readable strict (s_mem s) b) ->
  traced (fun _ s' o => exists o', o = pre_text info "MPI_Send: " ++ o' /\ post_text Snd info debug k b n t d g s' o')
    (tr_Send c strict info debug b n t d g cm s) (MPI_Send c b n t d g cm s).
Proof.
  intros R Ek L Rd. pose proof (C103_isend_lemma s a b n t d g cm k R Ek L Rd) as H. unfold tr_Send, MPI_Send, mbind. rewrite say_pre. cbn [bind].
  destruct (MPI_Isend c b n t d g cm s) as [[h s']| | | |]; cbn [traced] in H; cbn [bind]; try (rewrite H; reflexivity).
  destruct H as (o & E & H). rewrite E. cbn [bind]. destruct (MPI_Wait h (SAt junk_status) s') as [[x s2]| | | |] eqn:W; try reflexivity.
  cbn [bind ret traced]. eexists. split; [reflexivity|]. exists o. split; [reflexivity|]. exact (post_mem _ _ _ _ _ _ _ _ _ _ (wait_mem _ _ _ _ _ W) H).
Qed.
Theorem C103_recv_lemma s a b n t d g cm st k : reach c tj s a -> comm_at a cm = Some k -> legal_irecv c b n t d g cm a ->
  (debug = true -> d <> MPI_PROC_NULL -> ~ none_goes Rcv g k -> readable strict (s_mem s) b) ->
  traced (fun _ s' o => exists o', o = pre_text info "MPI_Recv: " ++ o' /\ post_text Rcv info debug k b n t d g s' o')
    (tr_Recv c strict info debug b n t d g cm st s) (MPI_Recv c b n t d g cm st s).
Proof.
  intros R Ek L Rd. pose proof (C103_irecv_lemma s a b n t d g cm k R Ek L Rd) as H. unfold tr_Recv, MPI_Recv, mbind. rewrite say_pre. cbn [bind].
  destruct (MPI_Irecv c b n t d g cm s) as [[h s']| | | |]; cbn [traced] in H; cbn [bind]; try (rewrite H; reflexivity).
  destruct H as (o & E & H). rewrite E. cbn [bind]. destruct (MPI_Wait h st s') as [[[r st'] s2]| | | |] eqn:W; try reflexivity.
  cbn [bind]. unfold pure. destruct (set_count st' n) as [st2| | | |]; try reflexivity.
  cbn [bind ret traced]. eexists. split; [reflexivity|]. exists o. split; [reflexivity|]. exact (post_mem _ _ _ _ _ _ _ _ _ _ (wait_mem _ _ _ _ _ W) H).
Qed.
Theorem C103_irsend_lemma s a b n t d g cm k : reach c tj s a -> comm_at a cm = Some k -> legal_isend c b n t d g cm a ->
  (debug = true -> d = 0 -> ~ none_goes Snd g k -> readable strict (s_mem s) b) ->
  traced (fun _ s' o => post_text Snd info debug k b n t d g s' o) (tr_Irsend c strict info debug b n t d g cm s) (MPI_Irsend c b n t d g cm s).
Proof.
  intros R Ek L Rd. pose proof (C103_isend_lemma s a b n t d g cm k R Ek L Rd) as H. unfold tr_Irsend, MPI_Irsend, mbind.
  destruct (MPI_Isend c b n t d g cm s) as [[h s']| | | |]; cbn [traced] in H; cbn [bind]; try (rewrite H; reflexivity).
  destruct H as (o & E & H). rewrite E. cbn [bind]. destruct (handle_ptr h s') as [[p s2]| | | |] eqn:E1; try reflexivity. cbn [bind]. apply handle_ptr_mem in E1.
  destruct (pure (slot_of p) s2) as [[q s3]| | | |] eqn:E2; try reflexivity. cbn [bind]. apply slot_mem in E2. subst s3.
  destruct (get_req q s2) as [[y s3]| | | |] eqn:E3; try reflexivity. cbn [bind]. apply get_req_mem in E3. subst s3.
  destruct (r_complete y =? 0); [reflexivity|]. cbn [ret traced]. exists o. split; [reflexivity|]. exact (post_mem _ _ _ _ _ _ _ _ _ _ E1 H).
Qed.

Theorem C103_sendrecv_lemma s a sb sn sty d sg rb rn rt so rg cm st k : reach c tj s a -> comm_at a cm = Some k ->
  legal c tj (KSendrecv sb sn sty d sg rb rn rt so rg cm st) a ->
  (debug = true -> readable strict (s_mem s) sb /\ readable strict (s_mem s) rb) ->
  traced (fun _ s' o => exists o1 o2 h s1 a1 k1, o = o1 ++ pre_text info "MPI_Send: " ++ o2 /\
      does c tj s a (KIrecv rb rn rt so rg cm) (VInt h) s1 a1 /\ post_text Rcv info debug k rb rn rt so rg s1 o1 /\
      comm_at a1 cm = Some k1 /\ k_uid k1 = k_uid k /\ post_text Snd info debug k1 sb sn sty d sg s' o2)
    (tr_Sendrecv c strict info debug sb sn sty d sg rb rn rt so rg cm st s) (MPI_Sendrecv c sb sn sty d sg rb rn rt so rg cm st s).
Proof.
  intros R Ek (_ & L1 & L2) Rd. pose proof (C103_irecv_lemma s a rb rn rt so rg cm k R Ek L1 (fun D _ _ => proj2 (Rd D))) as H.
  pose proof (irecv_ok c tj s a rb rn rt so rg cm (reach_abs _ _ R) L1) as AG. unfold tr_Sendrecv, MPI_Sendrecv, mbind.
  destruct (MPI_Irecv c rb rn rt so rg cm s) as [[h s']| | | |] eqn:MI; cbn [traced] in H; cbn [bind]; try (rewrite H; reflexivity).
  destruct H as (o & E & H). rewrite E. cbn [bind]. unfold agree in AG. destruct (s_irecv c rb rn rt so rg cm a) as [w a'| |] eqn:SI; try contradiction. destruct AG as (<- & A').
  assert (EX : exec c (KIrecv rb rn rt so rg cm) s = Ok (VInt h, s')) by (cbn [exec]; unfold mmap, mbind; rewrite MI; reflexivity).
  assert (SP : spec c tj (KIrecv rb rn rt so rg cm) a = Ret (fun o => o = VInt h) a') by (cbn [spec]; unfold smap, sbind; rewrite SI; reflexivity).
  assert (R' : reach c tj s' a') by (apply (reach_call c tj s a (KIrecv rb rn rt so rg cm) (VInt h) s' (fun o => o = VInt h) a' R L1 EX SP)).
  assert (Do : does c tj s a (KIrecv rb rn rt so rg cm) (VInt h) s' a').
  { split; [exact L1|]. split; [exact EX|]. split; [exact R'|]. exists (fun o => o = VInt h). split; [exact SP|reflexivity]. }
  assert (Ek' : exists k1, comm_at a' cm = Some k1 /\ k_uid k1 = k_uid k).
  { destruct (irecv_inv _ _ _ _ _ _ _ _ _ (reach_inv _ _ R) SI) as [(_ & Ad)|(_ & k' & Ek2 & [(bf & p & e & m & _ & _ & P)|(_ & Q)])].
    - destruct Ad as (_ & N & _ & Rs & _). exists k. split; auto. unfold comm_at in *. rewrite Rs; auto. intros ->. rewrite N in Ek. discriminate.
    - assert (k' = k) by congruence. subst k'. eexists. split; [exact (pr_comm _ _ _ _ _ _ _ _ _ _ _ _ P)|reflexivity].
    - assert (k' = k) by congruence. subst k'. eexists. split; [exact (qd_comm _ _ _ _ _ _ Q)|reflexivity]. }
  destruct Ek' as (k1 & Ek1 & Uk).
  assert (SL : same_layout (s_mem s) (s_mem s')).
  { rewrite (ab_mem (reach_abs _ _ R)), (ab_mem A'). exact (proj1 (irecv_steps c _ _ _ _ _ _ _ _ _ (reach_inv _ _ R) SI)). }
  pose proof (C103_send_lemma s' a' sb sn sty d sg cm k1 R' Ek1 L2 (fun D _ _ => readable_layout _ _ _ SL (proj1 (Rd D)))) as H2.
  destruct (MPI_Send c sb sn sty d sg cm s') as [[u s2]| | | |]; cbn [traced] in H2; cbn [bind]; try (rewrite H2; reflexivity).
  destruct H2 as (o2 & E2 & o3 & -> & H2). rewrite E2. cbn [bind]. destruct (MPI_Wait h st s2) as [[[r st'] s3]| | | |] eqn:W; try reflexivity.
  cbn [bind ret traced]. eexists. split; [reflexivity|]. exists o, o3, h, s', a', k1. split; [reflexivity|].
  do 4 (split; [assumption|]). exact (post_mem _ _ _ _ _ _ _ _ _ _ (wait_mem _ _ _ _ _ W) H2).
Qed.

Theorem C103_dup_lemma cm s : traced (fun h _ o => o = if info then [Text "MPI_Comm_dup: new comm handle="; Num h; Text "\n"] else [])
  (tr_Comm_dup strict info cm s) (MPI_Comm_dup cm s).
Proof.
  unfold tr_Comm_dup, MPI_Comm_dup, mbind. destruct (comm_new s) as [[h s']| | | |]; try reflexivity. cbn [bind traced]. unfold when. destruct info; eexists; split; reflexivity.
Qed.
End TraceFacts.

(** *** HANDLE_INFO *)
Theorem C103_blocks_lemma (D : Type) strict on (t : htab D) : 0 <= ht_nblocks t <= MAX_BLOCKS ->
  match alloc_handle t with
  | Ok (h, p, t') => exists o, tr_alloc_handle strict on t = Ok (h, p, o, t') /\
      o = if on && negb (ht_nblocks t' =? (if ht_need_init t then 1 else ht_nblocks t))
          then [Text "mpi_alloc_handle: allocation "; Num (ht_nblocks t'); Text " blocks ("; Num (ht_nblocks t' * BLOCK_ITEMS); Text " handles)\n"] else []
  | Abort w => tr_alloc_handle strict on t = Abort w
  | Exit n w => tr_alloc_handle strict on t = Exit n w
  | UB w => tr_alloc_handle strict on t = UB w
  | Diverge => tr_alloc_handle strict on t = Diverge
  end.
Proof.
  intros B. unfold alloc_handle, tr_alloc_handle.
  assert (I : match (if ht_need_init t then init_handles t else Ok t) with Ok t0 => ht_nblocks t0 = (if ht_need_init t then 1 else ht_nblocks t) /\ 0 <= ht_nblocks t0 <= MAX_BLOCKS | _ => True end).
  { destruct (ht_need_init t); [|auto]. unfold init_handles. destruct (init_block 0 (ht_item t)); cbn [bind]; auto. split; [reflexivity|]. unfold MAX_BLOCKS; cbn [ht_nblocks]; lia. }
  destruct (if ht_need_init t then init_handles t else Ok t) as [t0| | | |]; cbn [bind]; try reflexivity. destruct I as (I & B0). rewrite <- I. clear I B.
  destruct (ht_nextfree t0) as [new|].
  - destruct (h_get t0 new) as [it| | | |]; cbn [bind]; try reflexivity.
    destruct (h_put (set_nextfree t0 (hi_next it)) new (mkHitem (hi_handle it) None (hi_data it))) as [t1| | | |] eqn:P; cbn [bind]; try reflexivity.
    eexists. split; [reflexivity|]. assert (N : ht_nblocks t1 = ht_nblocks t0).
    { unfold h_put in P. revert P. destruct (valid_ptr _ _); [|discriminate]. intros X. injection X as <-. reflexivity. }
    rewrite N, Z.eqb_refl, andb_false_r. reflexivity.
  - destruct (Z.eqb_spec (ht_nblocks t0) MAX_BLOCKS) as [E|E]; [reflexivity|].
    destruct (init_block (ht_nblocks t0) (ht_item t0)) as [f| | | |]; cbn [bind]; try reflexivity.
    cbn [ht_nblocks]. destruct (Z.eqb_spec (ht_nblocks t0 + 1) (ht_nblocks t0)) as [X|_]; [exfalso; clear - X; lia|]. rewrite andb_true_r.
    destruct on; [|eexists; split; reflexivity]. unfold chk_int.
    replace (in_int ((ht_nblocks t0 + 1) * BLOCK_ITEMS)) with true; [eexists; split; reflexivity|]. symmetry. unfold in_int, INT_MIN, INT_MAX, BLOCK_ITEMS, MAX_BLOCKS in *. clear - B0.
    apply andb_true_iff. rewrite !Z.leb_le. lia.
Qed.

(** What the printing routines show. *)
From Verif Require Import Base HandleModel HandleSpec HandleProofs HandleExact ListModel ListSpec ListProofs ListRefine TypeModel CopyModel SysModel CollModel SysCalls SysSpec SysLog SysReach SysAbs SysFacts PrintModel PrintSpec.

(** *** Lists *)
Notation "'dsegZ'" := (dseg Z).
Lemma print_loop_ok h : forall xs fuel p, dsegZ (lh_items h) p xs None -> (length xs < fuel)%nat ->
  print_loop false fuel (first Z xs None) h = Ok (flat_map (fun d => [Num (to_s32 d); Text " "]) (map snd xs)).
Proof.
  induction xs as [|[i d] r IH]; intros fuel p SG Hf.
  - destruct fuel; [simpl in Hf; lia|]. reflexivity.
  - destruct fuel as [|fuel]; [simpl in Hf; lia|]. destruct SG as [E SG]. cbn [first print_loop get_item]. rewrite E. cbn [bind it_data it_next printf].
    rewrite (IH fuel (Some i) SG) by (simpl in Hf; lia). reflexivity.
Qed.
Lemma revprint_loop_ok h : forall xs fuel n, dsegZ (lh_items h) None xs n -> (length xs < fuel)%nat ->
  revprint_loop false fuel (lastp Z None xs) h = Ok (flat_map (fun d => [Num (to_s32 d); Text " "]) (rev (map snd xs))).
Proof.
  induction xs as [|[i d] ys IH] using rev_ind; intros fuel n SG Hf.
  - destruct fuel; [simpl in Hf; lia|]. reflexivity.
  - rewrite app_length in Hf. simpl in Hf. destruct fuel as [|fuel]; [simpl in Hf; lia|].
    rewrite lastp_app. cbn [lastp revprint_loop]. apply dseg_app in SG. destruct SG as [S1 [E _]].
    cbn [get_item]. rewrite E. cbn [bind it_data it_prev printf]. rewrite (IH fuel _ S1) by lia.
    cbn [bind]. rewrite map_app, rev_app_distr. reflexivity.
Qed.
Lemma map_len {A B} (xs : list (A * B)) : length (map snd xs) = length xs. Proof. apply map_length. Qed.

Lemma abs_parts (h : lheap Z) a l xs : ListRefine.Abs Z h a -> look Z l a = Some xs ->
  exists ids g, ListProofs.LInv h ids g /\ In l ids /\ g l = xs.
Proof. intros (I & _) L. exists (names Z a), (gof Z a). split; [exact I|]. split; [eapply look_in; eauto|apply gof_look; auto]. Qed.

Theorem C92_lists_lemma (h : lheap Z) a l xs str : ListRefine.Abs Z h a -> look Z l a = Some xs ->
  list_print false str l h = Ok (list_text str (map snd xs)) /\ list_revprint false str l h = Ok (list_text str (rev (map snd xs))) /\
  (xs <> [] -> list_print true str l h = UB "printf: %d with a long" /\ list_revprint true str l h = UB "printf: %d with a long") /\
  (xs = [] -> list_print true str l h = Ok (list_text str []) /\ list_revprint true str l h = Ok (list_text str [])).
Proof.
  intros A L. destruct (abs_parts _ _ _ _ A L) as (ids & g & I & Hl & <-). pose proof (ListProofs.li_seg I Hl) as SG. pose proof (fuel_enough _ I Hl) as FE.
  unfold list_print, list_revprint. rewrite (get_list_ok _ I Hl). cbn [bind l_count l_head l_tail printf].
  split; [|split; [|split]].
  - rewrite (print_loop_ok _ _ _ _ SG FE). cbn [bind]. unfold list_text. rewrite map_len. reflexivity.
  - rewrite (revprint_loop_ok _ _ _ _ SG FE). cbn [bind]. unfold list_text. rewrite rev_length, map_len. reflexivity.
  - intros N. destruct (lfuel h) as [|fuel] eqn:Ef; [lia|]. split.
    + destruct (g l) as [|[i d] r]; [congruence|]. destruct SG as [E _]. cbn [first print_loop get_item]. rewrite E. reflexivity.
    + destruct (seq_snoc _ (g l)) as [X|(ys & i & d & X)]; [congruence|]. rewrite X in SG |- *. apply dseg_app in SG. destruct SG as [_ [E _]].
      rewrite lastp_app. cbn [lastp revprint_loop get_item]. rewrite E. reflexivity.
  - intros X. rewrite X. destruct (lfuel h) as [|fuel] eqn:Ef; [lia|]. split; reflexivity.
Qed.

Lemma forward_loop_ok h : forall xs fuel p, dsegZ (lh_items h) p xs None -> (length xs < fuel)%nat ->
  forward_loop fuel (first Z xs None) h = Ok (map snd xs).
Proof.
  induction xs as [|[i d] r IH]; intros fuel p SG Hf.
  - destruct fuel; [simpl in Hf; lia|]. reflexivity.
  - destruct fuel as [|fuel]; [simpl in Hf; lia|]. destruct SG as [E SG]. cbn [first forward_loop]. unfold listitem_data, listitem_next. cbn [get_item]. rewrite E.
    cbn [bind it_data it_next]. rewrite (IH fuel (Some i) SG) by (simpl in Hf; lia). reflexivity.
Qed.
Lemma backward_loop_ok h : forall xs fuel n, dsegZ (lh_items h) None xs n -> (length xs < fuel)%nat ->
  backward_loop fuel (lastp Z None xs) h = Ok (rev (map snd xs)).
Proof.
  induction xs as [|[i d] ys IH] using rev_ind; intros fuel n SG Hf.
  - destruct fuel; [simpl in Hf; lia|]. reflexivity.
  - rewrite app_length in Hf. simpl in Hf. destruct fuel as [|fuel]; [simpl in Hf; lia|].
    rewrite lastp_app. cbn [lastp backward_loop]. apply dseg_app in SG. destruct SG as [S1 [E _]].
    unfold listitem_data, listitem_prev. cbn [get_item]. rewrite E. cbn [bind it_data it_prev]. rewrite (IH fuel _ S1) by lia.
    cbn [bind]. rewrite map_app, rev_app_distr. reflexivity.
Qed.
Lemma braindead_loop_ok {h ids g l} : ListProofs.LInv h ids g -> In l ids ->
  forall zs ys fuel t, g l = ys ++ zs -> t = lastp Z None ys -> (length zs < fuel)%nat ->
  braindead_loop fuel l t h = Ok (before_null (map snd zs)).
Proof.
  intros I Hl. induction zs as [|[j e] r IH]; intros ys fuel t E -> Hf; (destruct fuel as [|fuel]; [simpl in Hf; lia|]); cbn [braindead_loop]; unfold list_braindead_next.
  - destruct (seq_snoc _ ys) as [->|(ys' & i & d & ->)].
    + cbn [lastp]. rewrite (list_next_first_ok _ I Hl). rewrite E. reflexivity.
    + rewrite lastp_app. cbn [lastp]. rewrite (list_next_ok _ ys' i d [] I Hl); [reflexivity|]. rewrite E, <- app_assoc. reflexivity.
  - assert (NX : list_next l (lastp Z None ys) h = Ok (Some (e, Some j))).
    { destruct (seq_snoc _ ys) as [->|(ys' & i & d & ->)].
      - cbn [lastp]. rewrite (list_next_first_ok _ I Hl). rewrite E. reflexivity.
      - rewrite lastp_app. cbn [lastp]. rewrite (list_next_ok _ ys' i d ((j, e) :: r) I Hl); [reflexivity|]. rewrite E, <- app_assoc. reflexivity. }
    rewrite NX. cbn [bind map snd before_null]. destruct (e =? 0); [reflexivity|].
    rewrite (IH (ys ++ [(j, e)]) fuel); [reflexivity| | |].
    + rewrite E, <- app_assoc. reflexivity.
    + rewrite lastp_app. reflexivity.
    + simpl in Hf; lia.
Qed.
Theorem C92_walks_lemma (h : lheap Z) a l xs : ListRefine.Abs Z h a -> look Z l a = Some xs ->
  (exists p, list_head_item l h = Ok p /\ forward_loop (lfuel h) p h = Ok (map snd xs)) /\
  (forall ys i d zs, xs = ys ++ (i, d) :: zs ->
     listitem_data h (Some i) = Ok d /\ listitem_next h (Some i) = Ok (ref_head Z zs) /\ listitem_prev h (Some i) = Ok (ref_head Z (rev ys)) /\
     forward_loop (lfuel h) (Some i) h = Ok (d :: map snd zs) /\ backward_loop (lfuel h) (Some i) h = Ok (d :: rev (map snd ys))) /\
  braindead_loop (lfuel h) l None h = Ok (before_null (map snd xs)).
Proof.
  intros A L. destruct (abs_parts _ _ _ _ A L) as (ids & g & I & Hl & <-). pose proof (ListProofs.li_seg I Hl) as SG. pose proof (fuel_enough _ I Hl) as FE.
  split; [|split].
  - eexists. split; [apply (list_head_item_ok _ I Hl)|]. apply (forward_loop_ok _ _ _ _ SG FE).
  - intros ys i d zs E. rewrite E in SG, FE. rewrite app_length in FE. cbn [length] in FE. assert (SG0 := SG). apply dseg_app in SG. destruct SG as [S1 [Ei S2]].
    unfold listitem_data, listitem_next, listitem_prev. cbn [get_item]. rewrite Ei. cbn [bind it_data it_next it_prev].
    split; [reflexivity|]. split; [rewrite first_ref; reflexivity|]. split.
    { destruct (seq_snoc _ ys) as [->|(ys' & j & e & ->)]; [reflexivity|]. rewrite lastp_app, rev_app_distr. reflexivity. }
    split.
    + apply (forward_loop_ok h ((i, d) :: zs) _ (lastp Z None ys)); [split; auto|cbn [length]; lia].
    + assert (S3 : dsegZ (lh_items h) None (ys ++ [(i, d)]) (first Z zs None)).
      { apply dseg_app. split; auto. cbn. split; auto. }
      pose proof (backward_loop_ok h (ys ++ [(i, d)]) (lfuel h) _ S3) as B. rewrite lastp_app, map_app, rev_app_distr in B. cbn [lastp map snd rev app] in B.
      apply B. rewrite app_length. cbn [length]. lia.
  - apply (braindead_loop_ok I Hl _ [] _ None); auto.
Qed.
Lemma before_null_all ds : ~ In 0 ds -> before_null ds = ds.
Proof. induction ds as [|d r IH]; intros H; [reflexivity|]. cbn. destruct (Z.eqb_spec d 0) as [->|]; [exfalso; apply H; simpl; auto|]. rewrite IH; auto. intros X; apply H; simpl; auto. Qed.

(** *** Typemaps *)
Section Typemap.
Variable c : cfg.
Lemma print_pair_ok last p len : Simpletype_length c (tp_type p) = Ok len ->
  print_pair false c last p = Ok ([Text "(t"; Num (tp_type p); Text ":"; Num len; Text ", o"; Num (to_s32 (tp_disp p)); Text ")"] ++ if last then [] else [Text ", "]).
Proof. intros E. unfold print_pair. rewrite E. cbn [bind printf]. destruct last; reflexivity. Qed.
Definition entry (len : Z -> Z) (p : typepair) : Z * Z * Z := (tp_type p, len (tp_type p), tp_disp p).
Lemma map_loop (len : Z -> Z) ps n : n = Z.of_nat (length ps) -> (forall p, In p ps -> Simpletype_length c (tp_type p) = Ok (len (tp_type p))) ->
  forall qs pre more r, ps = pre ++ qs ->
  for_loop (Z.of_nat (length pre)) n (fun i r => do p <- arr_get (ps ++ more) i; do x <- print_pair false c (i =? n - 1) p; Ok (r ++ x)) r = Ok (r ++ map_text (map (entry len) qs)).
Proof.
  intros -> Hl. induction qs as [|q qs IH]; intros pre more r E.
  - rewrite E, app_nil_r. rewrite for_loop_empty by lia. cbn. rewrite app_nil_r. reflexivity.
  - rewrite for_loop_S by (rewrite E, app_length; cbn [length]; lia).
    unfold arr_get at 1. replace (Z.of_nat (length pre) <? 0) with false by (symmetry; apply Z.ltb_ge; lia). rewrite Nat2Z.id.
    rewrite E at 1. rewrite <- !app_assoc. rewrite nth_error_app2 by lia. rewrite Nat.sub_diag. cbn [nth_error app bind].
    rewrite (print_pair_ok _ _ _ (Hl q ltac:(rewrite E; apply in_or_app; simpl; auto))). cbn [bind].
    specialize (IH (pre ++ [q]) more). rewrite app_length in IH. cbn [length] in IH. replace (Z.of_nat (length pre + 1)) with (Z.of_nat (length pre) + 1) in IH by lia.
    rewrite IH by (rewrite <- app_assoc; exact E). f_equal. rewrite <- !app_assoc. f_equal.
    cbn [map map_text entry app]. rewrite <- ?app_assoc. cbn [app]. do 7 f_equal. apply (f_equal2 (@app shown)); [|reflexivity].
    assert (Ll : length ps = (length pre + S (length qs))%nat) by (rewrite E, app_length; reflexivity).
    destruct (Z.eqb_spec (Z.of_nat (length pre)) (Z.of_nat (length ps) - 1)) as [X|X]; destruct qs; cbn [length map] in *; try reflexivity; lia.
Qed.
Theorem C92_typemap_lemma (t : typestruct) (ps more : list typepair) (len : Z -> Z) e pad :
  ts_pairs t = ps ++ more -> ts_count t = Z.of_nat (length ps) -> (forall p, In p ps -> Simpletype_length c (tp_type p) = Ok (len (tp_type p))) ->
  Type_extent c t = Ok e -> calc_padding c t = Ok pad ->
  Pprint_typemap false c t = Ok (type_text (ts_count t) (ts_lb t) (ts_ub t) e pad (map (entry len) ps)) /\
  Pprint_typemap true c t = UB "printf: %d with a long".
Proof.
  intros E1 E2 Hl Ee Ep. unfold Pprint_typemap. rewrite Ee, Ep. cbn [bind printf]. split; [|reflexivity].
  rewrite E1. pose proof (map_loop len ps (ts_count t) E2 Hl ps [] more [] eq_refl) as Q. cbn [length] in Q. change (Z.of_nat 0) with 0 in Q.
  rewrite Q. reflexivity.
Qed.
End Typemap.

(** *** Queues *)
Lemma print_items_ok s (xs : list (Z * slot)) (q : list pend) : map snd xs = SysAbs.slots q ->
  (forall p, In p q -> exists r, slot_req s (ptr_of (p_req p)) = Ok r /\ r_tag r = p_tag p) ->
  forall strict fuel p, dseg slot (lh_items (s_lists s)) p xs None -> (length xs < fuel)%nat ->
  print_items strict fuel (first slot xs None) s = Ok (flat_map (fun p => [Num (p_tag p); Text "  "]) q).
Proof.
  revert q. induction xs as [|[i d] r IH]; intros q E Hq strict fuel p SG Hf; (destruct fuel as [|fuel]; [simpl in Hf; lia|]).
  - destruct q; [reflexivity|discriminate].
  - destruct q as [|p0 q]; [discriminate|]. unfold SysAbs.slots in E. cbn [map snd] in E. injection E as Ed E. destruct SG as [Ei SG].
    cbn [first print_items get_item]. rewrite Ei. cbn [bind it_data it_next]. subst d. unfold print_item.
    destruct (Hq p0 ltac:(simpl; auto)) as (rq & Er & Et). rewrite Er. cbn [bind printf]. rewrite Et.
    rewrite (IH q E ltac:(intros; apply Hq; simpl; auto) strict fuel (Some i) SG) by (simpl in Hf; lia). reflexivity.
Qed.

Lemma queues_abs tj strict s a h k : Abs tj s a -> comm_at a h = Some k ->
  print_recvs strict h s = Ok (queue_text "recvlist for comm " (k_uid k) (k_recvs k)) /\
  print_sends strict h s = Ok (queue_text "sendlist for comm " (k_uid k) (k_sends k)).
Proof.
  intros A E. destruct (ab_ex A) as (lv & f & ids & g & T & LV & LI & RL).
  unfold comm_at in E. destruct (a_obj a h) as [[k0| |]|] eqn:Eo; try discriminate. injection E as ->.
  destruct (rl_comm RL Eo) as (x & Ex & CK). assert (Lh : In h lv) by (apply LV; congruence).
  assert (P : forall sd l msg, queue f (a_obj a) g sd (k_uid k) l (qof sd k) -> In l ids ->
    print_list strict l msg (c_num x) s = Ok (queue_text msg (k_uid k) (qof sd k))).
  { intros sd l msg (Q1 & _ & Q3) Hl. unfold print_list. cbn [bind printf]. rewrite (get_list_ok _ LI Hl). cbn [bind l_head].
    rewrite (print_items_ok s (g l) (qof sd k) Q1) with (p := None); [cbn [bind printf]; rewrite (ck_num CK); reflexivity| | |].
    - intros p Hp. destruct (Q3 p Hp) as (Eob & r & Er & _ & _ & Et & _). exists r. split; auto. eapply slot_req_ok; eauto. apply LV. congruence.
    - apply (ListProofs.li_seg LI Hl).
    - apply (fuel_enough _ LI Hl). }
  unfold print_recvs, print_sends. rewrite (handle_ptr_live _ _ T Lh). cbn [bind]. rewrite (get_comm_ok _ _ _ T Lh Ex). cbn [bind].
  split; [apply (P Rcv); [exact (ck_qr CK)|exact (ck_r CK)]|apply (P Snd); [exact (ck_qs CK)|exact (ck_s CK)]].
Qed.
Theorem C92_queues_lemma c tj strict s a h k : reach c tj s a -> comm_at a h = Some k ->
  print_recvs strict h s = Ok (queue_text "recvlist for comm " (k_uid k) (k_recvs k)) /\
  print_sends strict h s = Ok (queue_text "sendlist for comm " (k_uid k) (k_sends k)).
Proof. intros R. exact (queues_abs _ _ _ _ _ _ (reach_abs _ _ R)). Qed.

From Verif Require Import TypeSpec TypeProofs.
(** *** Typemaps of well-formed types, and the true extent *)
Lemma wf_split c t : wf_ts c t -> exists ps more, ts_pairs t = ps ++ more /\ ts_count t = Z.of_nat (length ps) /\ typemap t = map (fun p => (tp_type p, tp_disp p)) ps.
Proof.
  intros W. destruct (wf_count _ _ W). destruct (wf_pairs _ _ W) as [_ L]. exists (firstn (Z.to_nat (ts_count t)) (ts_pairs t)), (skipn (Z.to_nat (ts_count t)) (ts_pairs t)).
  split; [symmetry; apply firstn_skipn|]. split; [rewrite firstn_length; lia|reflexivity].
Qed.
Lemma padding_wf c t : cfg_ok c -> wf_ts c t -> exists pad, calc_padding c t = Ok pad /\ (typemap t = [] /\ pad = INT_MIN \/ is_max pad (sizes c (typemap t))).
Proof.
  intros CO W. destruct (wf_count _ _ W). destruct (wf_pairs _ _ W) as [_ L]. eexists. split; [apply calc_padding_ok; auto; apply (wf_known _ _ W)|].
  destruct (typemap t) as [|e r] eqn:E; [left; auto|right]. apply fold_max_is_max; [discriminate|].
  intros x Hx. unfold sizes in Hx. apply in_map_iff in Hx. destruct Hx as (e' & <- & He). rewrite <- E in He. destruct (known_size c CO e' (wf_known _ _ W e' He)) as [_ R]. unfold INT_MIN. lia.
Qed.
Theorem C92_types_lemma c t e : cfg_ok c -> wf_ts c t -> Type_extent c t = Ok e ->
  exists pad, (typemap t = [] /\ pad = INT_MIN \/ is_max pad (sizes c (typemap t))) /\
    Pprint_typemap false c t = Ok (type_text (ts_count t) (ts_lb t) (ts_ub t) e pad (map (fun x => (fst x, esize c x, snd x)) (typemap t))) /\
    Pprint_typemap true c t = UB "printf: %d with a long".
Proof.
  intros CO W Ee. destruct (padding_wf c t CO W) as (pad & Ep & Hp). exists pad. split; [exact Hp|].
  destruct (wf_split c t W) as (ps & more & E1 & E2 & E3).
  assert (Hl : forall p, In p ps -> Simpletype_length c (tp_type p) = Ok (bsize c (tp_type p))).
  { intros p Hq. destruct (known_size c CO (tp_type p, tp_disp p)) as [K _]; [|exact K]. apply (wf_known _ _ W). rewrite E3. apply (in_map (fun p => (tp_type p, tp_disp p))). exact Hq. }
  destruct (C92_typemap_lemma c t ps more (bsize c) e pad E1 E2 Hl Ee Ep) as [A B]. rewrite E3, map_map. split; [exact A|exact B].
Qed.

Lemma foldM_min2 l : forall a, INT_MIN <= a <= INT_MAX -> (forall e, In e l -> INT_MIN <= snd e) ->
  foldM (fun (e : elem) (m : Z) => Ok (to_s32 (if snd e <? m then snd e else m))) l a = Ok (fold_left Z.min (disps l) a).
Proof.
  induction l as [|e l IH]; intros a Ha H; simpl; auto.
  assert (He : INT_MIN <= snd e) by (apply H; simpl; auto).
  rewrite to_s32_id by (destruct (Z.ltb_spec (snd e) a); lia).
  replace (if snd e <? a then snd e else a) with (Z.min a (snd e)) by (destruct (Z.ltb_spec (snd e) a); lia).
  apply IH; [lia|]. intros; apply H; simpl; auto.
Qed.
Lemma calc_lb_ok2 t : 0 <= ts_count t <= Z.of_nat (length (ts_pairs t)) -> (forall e, In e (typemap t) -> INT_MIN <= snd e) ->
  calc_lb t = Ok (fold_left Z.min (disps (typemap t)) INT_MAX).
Proof.
  intros Hc H. unfold calc_lb.
  rewrite (for_loop_pairs t (fun p m => Ok (to_s32 (if tp_disp p <? m then tp_disp p else m)))) by auto.
  rewrite (foldM_typemap t (fun e m => Ok (to_s32 (if snd e <? m then snd e else m)))) by reflexivity.
  apply foldM_min2; auto. unfold INT_MIN, INT_MAX; lia.
Qed.
Lemma C93_gen c t lb ub a : cfg_ok c -> wf_ts c t -> is_lb (typemap t) lb -> is_ub c (typemap t) ub -> is_max a (sizes c (typemap t)) ->
  is_int lb -> ub - lb <= LONG_MAX - 4096 -> ub <= LONG_MAX ->
  exists x, Type_get_true_extent c t = Ok x /\ rounds_up (ub - lb) a x.
Proof.
  intros CO W Hlb Hub Ha Il Fd Fu. assert (Hc : 0 <= ts_count t <= Z.of_nat (length (ts_pairs t))) by (destruct (wf_count _ _ W), (wf_pairs _ _ W); lia).
  pose proof (wf_known _ _ W) as K. unfold is_int in Il.
  assert (B : forall e, In e (typemap t) -> lb <= snd e /\ 1 <= esize c e <= 2048 /\ snd e + esize c e <= ub).
  { intros e He. destruct (known_size c CO e (K e He)). split; [apply (proj2 Hlb); apply in_map; exact He|split; [auto|]]. apply (proj2 Hub). unfold ends. apply (in_map (fun e => snd e + esize c e)). exact He. }
  assert (N : exists e, In e (typemap t) /\ snd e = lb). { destruct Hlb as [Hin _]. apply in_map_iff in Hin. destruct Hin as (e & E & He). eauto. }
  destruct N as (e0 & H0 & E0). assert (NE : typemap t <> []) by (intros X; rewrite X in H0; destruct H0).
  assert (Elb : fold_left Z.min (disps (typemap t)) INT_MAX = lb).
  { destruct (fold_min_spec (disps (typemap t)) INT_MAX) as (A1 & A2 & A3). assert (L1 := A3 lb (proj1 Hlb)). destruct A1 as [A1|A1]; [lia|].
    assert (L2 := proj2 Hlb _ A1). lia. }
  assert (Eub : fold_left Z.max (ends c (typemap t)) INT_MIN = ub).
  { destruct (fold_max_spec (ends c (typemap t)) INT_MIN) as (A1 & A2 & A3). assert (L1 := A3 ub (proj1 Hub)). destruct A1 as [A1|A1]; [destruct (B e0 H0); lia|].
    assert (L2 := proj2 Hub _ A1). lia. }
  assert (Ra : 1 <= a <= 2048).
  { destruct Ha as [Hin _]. apply in_map_iff in Hin. destruct Hin as (e & <- & He). apply (B e He). }
  destruct (padding_wf c t CO W) as (a' & Ep & [[X _]|Ha']); [congruence|]. assert (a' = a) by (eapply is_max_unique; eauto). subst a'.
  assert (Rub : lb < ub) by (destruct (B e0 H0); lia).
  exists (ub - lb + (if Z.rem (ub - lb) a =? 0 then 0 else a - Z.rem (ub - lb) a)).
  assert (RB : 0 <= Z.rem (ub - lb) a < a) by (apply Z.rem_bound_pos; lia).
  split; [|apply rounds_up_calc; lia].
  unfold Type_get_true_extent. rewrite Ep. cbn [bind]. rewrite (calc_ub_ok c CO t Hc); [|intros e He; split; [apply K; auto|destruct (B e He); unfold is_long, LONG_MIN, LONG_MAX, INT_MIN, INT_MAX in *; lia]].
  cbn [bind]. rewrite (calc_lb_ok2 t Hc); [|intros e He; destruct (B e He); lia]. cbn [bind]. rewrite Elb, Eub. unfold INT_MIN, INT_MAX, LONG_MAX in *.
  rewrite chk_long_ok by (unfold LONG_MIN, LONG_MAX; lia). cbn [bind]. unfold crem. destruct (Z.eqb_spec a 0); [lia|]. cbn [bind].
  destruct (Z.eqb_spec (Z.rem (ub - lb) a) 0) as [Z0|Z0].
  - cbn [bind]. rewrite chk_long_ok by (unfold LONG_MIN, LONG_MAX; lia). cbn [bind]. rewrite to_u64_id by (unfold TWO64; lia). reflexivity.
  - rewrite chk_long_ok by (unfold LONG_MIN, LONG_MAX; lia). cbn [bind]. rewrite chk_long_ok by (unfold LONG_MIN, LONG_MAX; lia). cbn [bind]. rewrite to_u64_id by (unfold TWO64; lia). reflexivity.
Qed.
Theorem C93_lemma c t lb ub : cfg_ok c -> wf_ts c t -> is_lb (typemap t) lb -> is_ub c (typemap t) ub ->
  is_int lb -> ub - lb <= LONG_MAX - 4096 -> ub <= LONG_MAX ->
  exists x, Type_get_true_extent c t = Ok x /\ is_extent c (typemap t) x.
Proof.
  intros CO W Hlb Hub Il Fd Fu. destruct (padding_wf c t CO W) as (a & _ & [[X _]|Ha]); [destruct Hlb as [Y _]; rewrite X in Y; destruct Y|].
  destruct (C93_gen c t lb ub a CO W Hlb Hub Ha Il Fd Fu) as (x & E & R). exists x. split; auto. exists lb, ub, a. auto.
Qed.
Theorem C93_partial_lemma c t lb ub a : cfg_ok c -> wf_ts c t -> is_lb (typemap t) lb -> is_ub c (typemap t) ub -> is_max a (sizes c (typemap t)) ->
  is_int lb -> ub - lb <= LONG_MAX - 4096 -> ub <= LONG_MAX -> (Type_get_true_extent c t = Ok (ub - lb) <-> (a | ub - lb)).
Proof.
  intros CO W Hlb Hub Ha Il Fd Fu. destruct (C93_gen c t lb ub a CO W Hlb Hub Ha Il Fd Fu) as (x & E & (k & Ek) & R1 & R2). rewrite E. split.
  - intros X. injection X as X. exists k. congruence.
  - intros (j & Ej). f_equal. specialize (R2 j ltac:(lia)). lia.
Qed.

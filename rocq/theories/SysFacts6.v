(** What is delivered, and datatypes in use. *)
From Verif Require Import Base HandleSpec HandleExact TypeModel TypeSpec TypeProofs TypeCons CopyModel CopySpec CopyProofs CopyFinal SysModel CollModel SysCalls SysSpec SysLog SysReach SysInv SysAbs SysSim SysSim2 SysSim3 SysHist SysFacts SysFacts2 SysFacts3.
Notation elements := CopySpec.elements.

Lemma elements_prefix n k ext tm : 0 <= n -> 0 <= k -> exists r, elements (n + k) ext tm = elements n ext tm ++ r.
Proof. intros H1 H2. unfold elements, copies. rewrite upto_app by auto. rewrite flat_map_app. eexists. reflexivity. Qed.
Lemma layout_prefix c base n k ext tm : 0 <= n -> 0 <= k -> exists r, layout c base (n + k) ext tm = layout c base n ext tm ++ r.
Proof. intros H1 H2. unfold layout. destruct (elements_prefix n k ext tm H1 H2) as (r & ->). rewrite map_app. eexists. reflexivity. Qed.
Lemma layout_len c base n ext tm b' ext' : length (layout c base n ext tm) = length (layout c b' n ext' tm).
Proof.
  unfold layout. rewrite !map_length. apply Nat2Z.inj. unfold elements. rewrite !copies_length. reflexivity.
Qed.
Lemma combine_prefix {A B} : forall (l : list A) r (d : list B), length l = length d -> combine (l ++ r) d = combine l d.
Proof. induction l as [|x l IH]; intros r [|y d] E; try discriminate; cbn; [destruct r; reflexivity|]. rewrite IH; auto. Qed.
Lemma agree_prefix n k t : 0 <= n -> 0 <= k -> types_agree (n + k) t n t.
Proof.
  intros H1 H2 i a b. destruct (elements_prefix n k 0 (typemap t) H1 H2) as (r & ->). intros Ea Eb.
  assert (L : (i < length (elements n 0 (typemap t)))%nat) by (apply nth_error_Some; congruence). rewrite nth_error_app1 in Ea by exact L. congruence.
Qed.
Lemma inside_dec r x : inside r x \/ ~ inside r x. Proof. unfold inside. lia. Qed.
Lemma inside_some x : forall rs : list region, (exists k r, nth_error rs k = Some r /\ inside r x) \/ (forall r, In r rs -> ~ inside r x).
Proof.
  induction rs as [|r rs [(k & r' & E & H)|IH]]; [right; intros ? []|left; exists (S k), r'; auto|].
  destruct (inside_dec r x) as [H|H]; [left; exists 0%nat, r; auto|right; intros r' [<-|H']; auto].
Qed.
Lemma copied_same m m1 m2 S1 S2 D : (length D <= length S1)%nat -> (exists r, S2 = S1 ++ r) -> copied m m1 S1 D -> copied m m2 S2 D -> forall x, m1 x = m2 x.
Proof.
  intros L (r & ->) [A1 A2] [B1 B2] x. destruct (inside_some x D) as [(k & d & Ek & Hi)|H]; [|rewrite A2, B2; auto].
  unfold inside in Hi. destruct (nth_error S1 k) as [s1|] eqn:E1; [|apply nth_error_None in E1; assert (k < length D)%nat by (apply nth_error_Some; congruence); lia].
  replace x with (fst d + (x - fst d)) by lia. rewrite (A1 k s1 d), (B1 k s1 d); auto; try lia. rewrite nth_error_app1; auto. apply nth_error_Some. congruence.
Qed.

Section Facts.
Context {c : cfg} {tj : Z -> tjunk}.
Notation reach := (SysReach.reach c tj).
Notation does := (SysReach.does c tj).

Lemma does_mem s a k o s' a' : does s a k o s' a' -> s_mem s' = a_mem a'.
Proof. intros (_ & _ & R & _). apply (ab_mem (reach_abs _ _ R)). Qed.

Lemma xfer_copy a b n t ts es d nd dt td ed : cfg_ok c -> mem_ok (a_mem a) -> type_at c a t = Some ts -> type_at c a dt = Some td ->
  transfer c n ts es nd td ed -> (type_checking c = true -> types_agree n ts nd td) -> offsets_fit n es (typemap ts) -> offsets_fit nd ed (typemap td) ->
  buffers_ok (a_mem a) (layout c b n es (typemap ts)) (layout c d nd ed (typemap td)) ->
  exists m', xfer_res c a b n t d nd dt = Ok m' /\ same_domain (a_mem a) m' /\ copied (a_mem a) m' (layout c b n es (typemap ts)) (layout c d nd ed (typemap td)).
Proof. intros CO MO E1 E2 T A F1 F2 B. unfold xfer_res. rewrite E1, E2. apply C48_lemma; auto. Qed.

Theorem C31_lemma s a b n t ts es g cm k bf p e td ed : reach s a -> has_handle a -> room a -> comm_at a cm = Some k -> earliest Snd g k bf p e ->
  cfg_ok c -> mem_ok (s_mem s) -> type_at c a t = Some ts -> type_at c a (p_type p) = Some td ->
  transfer c n ts es (p_count p) td ed -> (type_checking c = true -> types_agree n ts (p_count p) td) ->
  offsets_fit n es (typemap ts) -> offsets_fit (p_count p) ed (typemap td) ->
  let S := layout c b n es (typemap ts) in let D := layout c (p_buf p) (p_count p) ed (typemap td) in
  buffers_ok (s_mem s) S D ->
  exists m', same_domain (s_mem s) m' /\ copied (s_mem s) m' S D /\
    (exists h s' a', does s a (KIsend b n t 0 g cm) (VInt h) s' a' /\ s_mem s' = m' /\ paired Snd a cm k (a_clock a) h g bf p e m' a') /\
    (forall K, is_send K -> exists s' a', does s a (K b n t 0 g cm) VUnit s' a' /\ s_mem s' = m' /\ absorbed Snd a cm k (a_clock a) g bf p e m' a').
Proof.
  intros R H Rm Ek Ea CO MO E1 E2 T A F1 F2 S D B. rewrite (ab_mem (reach_abs _ _ R)) in *.
  destruct (xfer_copy a b n t ts es (p_buf p) (p_count p) (p_type p) td ed CO MO E1 E2 T A F1 F2 B) as (m' & Ex & SD & Cp).
  exists m'. split; auto. split; auto. split.
  - destruct (C10_lemma s a b n t g cm k R H Rm Ek) as [X _]. destruct (X _ _ _ _ Ea Ex) as (h & s' & a' & Do & P). exists h, s', a'. split; auto. split; [rewrite (does_mem _ _ _ _ _ _ Do); apply P|exact P].
  - intros K IK. destruct (C20_lemma K s a b n t g cm k IK R H Rm Ek) as [X _]. destruct (X _ _ _ Ea) as [Y _]. destruct (Y _ Ex) as (s' & a' & Do & P). exists s', a'. split; auto. split; [rewrite (does_mem _ _ _ _ _ _ Do); apply P|exact P].
Qed.

(** The two orders compared: the same type on both sides, and no more elements asked for than sent. *)
Lemma C32_copy m src sn t es dst n : cfg_ok c -> mem_ok m -> transfer c sn t es n t es -> n <= sn -> offsets_fit sn es (typemap t) ->
  buffers_ok m (layout c src sn es (typemap t)) (layout c dst n es (typemap t)) ->
  exists m1 m2, Pcopy_data2 c m src n t dst n t = Ok m1 /\ Pcopy_data2 c m src sn t dst n t = Ok m2 /\ (forall x, m1 x = m2 x) /\
    copied m m2 (layout c src sn es (typemap t)) (layout c dst n es (typemap t)).
Proof.
  intros CO MO T Le F B. pose proof (tr_nd _ _ _ _ _ _ _ T) as N0. set (k := sn - n). assert (Es : sn = n + k) by lia.
  destruct (layout_prefix c src n k es (typemap t) N0 ltac:(lia)) as (r & Er). rewrite <- Es in Er.
  assert (Fn : offsets_fit n es (typemap t)).
  { intros e He. apply F. rewrite Es. destruct (elements_prefix n k es (typemap t) N0 ltac:(lia)) as (r' & ->). apply in_app_iff. auto. }
  assert (B' : buffers_ok m (layout c src n es (typemap t)) (layout c dst n es (typemap t))).
  { unfold buffers_ok, reads in *. rewrite Er, combine_prefix in B; [exact B|]. apply layout_len. }
  assert (T' : transfer c n t es n t es).
  { destruct T. constructor; auto; unfold nelems in *; nia. }
  destruct (C48_lemma c CO m src sn t es dst n t es MO T) as (m2 & E2 & _ & C2); auto. { intros _. rewrite Es. apply agree_prefix; lia. }
  destruct (C48_lemma c CO m src n t es dst n t es MO T') as (m1 & E1 & _ & C1); auto. { intros _. replace n with (n + 0) at 1 by lia. apply agree_prefix; lia. }
  exists m1, m2. split; auto. split; auto. split; [|exact C2]. eapply copied_same; [| |exact C1|exact C2]; [|eauto]. rewrite (layout_len c src n es (typemap t) dst es). lia.
Qed.
Theorem C32_lemma s1 a1 s2 a2 src sn dst n so sg rg cm ty t es k1 bf1 p1 e1 k2 bf2 p2 e2 :
  (* the send is pending in the first state, the receive in the second *)
  reach s1 a1 -> reach s2 a2 -> (forall x, s_mem s2 x = s_mem s1 x) -> has_handle a1 -> has_handle a2 -> room a1 -> room a2 ->
  comm_at a1 cm = Some k1 -> earliest Rcv rg k1 bf1 p1 e1 -> p_buf p1 = src -> p_count p1 = sn -> p_type p1 = ty -> p_tag p1 = sg ->
  comm_at a2 cm = Some k2 -> earliest Snd sg k2 bf2 p2 e2 -> p_buf p2 = dst -> p_count p2 = n -> p_type p2 = ty -> p_tag p2 = rg ->
  so = 0 \/ so = MPI_ANY_SOURCE -> type_at c a1 ty = Some t -> type_at c a2 ty = Some t ->
  cfg_ok c -> mem_ok (s_mem s1) -> transfer c sn t es n t es -> n <= sn -> offsets_fit sn es (typemap t) ->
  let S := layout c src sn es (typemap t) in let D := layout c dst n es (typemap t) in
  buffers_ok (s_mem s1) S D ->
  exists h1 s1' a1' h2 s2' a2', does s1 a1 (KIrecv dst n ty so rg cm) (VInt h1) s1' a1' /\ does s2 a2 (KIsend src sn ty 0 sg cm) (VInt h2) s2' a2' /\
    (forall x, s_mem s1' x = s_mem s2' x) /\ copied (s_mem s2) (s_mem s2') S D.
Proof.
  intros R1 R2 M H1 H2 Rm1 Rm2 Ek1 Ea1 P1 P2 P3 P4 Ek2 Ea2 P5 P6 P7 P8 So T1 T2 CO MO T Le F S D B.
  destruct (C32_copy _ src sn t es dst n CO MO T Le F B) as (m1 & m2' & X1 & _ & _ & _).
  assert (MO2 : mem_ok (s_mem s2)) by (intros x; rewrite M; apply MO).
  assert (B2 : buffers_ok (s_mem s2) S D). { destruct B as (B1 & B3 & B4 & B5). split; [intros r x Hr Hx; rewrite M; eapply B1; eauto|]. split; [intros r x Hr Hx; rewrite M; eapply B3; eauto|auto]. }
  destruct (C32_copy _ src sn t es dst n CO MO2 T Le F B2) as (m1' & m2 & _ & X2 & Eq2 & C2).
  destruct (C32_copy _ src sn t es dst n CO MO T Le F B) as (n1 & n2 & Y1 & Y2 & Eq1 & C1).
  rewrite (ab_mem (reach_abs _ _ R1)) in X1, Y1. rewrite (ab_mem (reach_abs _ _ R2)) in X2.
  assert (E1 : xfer_res c a1 (p_buf p1) n ty dst n ty = Ok n1) by (unfold xfer_res; rewrite T1, P1; exact Y1).
  assert (E2 : xfer_res c a2 src sn ty (p_buf p2) (p_count p2) (p_type p2) = Ok m2) by (unfold xfer_res; rewrite P7, T2, P5, P6; exact X2).
  destruct (C09_lemma s1 a1 dst n ty so rg cm k1 R1 H1 Rm1 Ek1 So) as [Z1 _]. destruct (Z1 _ _ _ _ Ea1 E1) as (h1 & s1' & a1' & D1 & Pa1).
  destruct (C10_lemma s2 a2 src sn ty sg cm k2 R2 H2 Rm2 Ek2) as [Z2 _]. destruct (Z2 _ _ _ _ Ea2 E2) as (h2 & s2' & a2' & D2 & Pa2).
  exists h1, s1', a1', h2, s2', a2'. split; auto. split; auto. rewrite (does_mem _ _ _ _ _ _ D1), (does_mem _ _ _ _ _ _ D2), (pr_mem _ _ _ _ _ _ _ _ _ _ _ _ Pa1), (pr_mem _ _ _ _ _ _ _ _ _ _ _ _ Pa2).
  split; [|exact C2]. intros x. rewrite Eq1.
  (* both orders copy from equal memories *)
  revert x. intros x. destruct C1 as [A1 A2]. destruct C2 as [B1' B2']. destruct (inside_some x D) as [(k & d & Ekd & Hi)|Hn]; [|rewrite A2, B2'; auto].
  unfold inside in Hi. destruct (nth_error S k) as [sr|] eqn:E5.
  - replace x with (fst d + (x - fst d)) by lia. rewrite (A1 k sr d), (B1' k sr d); auto; lia.
  - exfalso. apply nth_error_None in E5. assert (k < length D)%nat by (apply nth_error_Some; congruence). destruct (layout_prefix c src n (sn - n) es (typemap t) (tr_nd _ _ _ _ _ _ _ T) ltac:(lia)) as (r & Er).
    replace (n + (sn - n)) with sn in Er by lia. fold S in Er. rewrite Er, app_length in E5. pose proof (layout_len c src n es (typemap t) dst es) as LL. fold D in LL. lia.
Qed.

(** *** C33: an over-receive found by the send. *)
Theorem C33_lemma s a b n t ts es g cm k bf p e td ed : reach s a -> has_handle a -> room a -> comm_at a cm = Some k -> earliest Snd g k bf p e ->
  type_at c a t = Some ts -> type_at c a (p_type p) = Some td -> typed c ts es -> typed c td ed -> ts_committed ts <> 0 -> ts_committed td <> 0 ->
  is_int (nelems n ts) -> is_int (nelems (p_count p) td) -> nelems n ts < nelems (p_count p) td ->
  exec c (KIsend b n t 0 g cm) s = Exit 1 "copy_data: Trying to over-receive" /\
  (forall K, is_send K -> exec c (K b n t 0 g cm) s = Exit 1 "copy_data: Trying to over-receive").
Proof.
  intros R H Rm Ek Ea T1 T2 Y1 Y2 C1 C2 I1 I2 Lt. pose proof (reach_inv _ _ R) as I.
  assert (Ex : xfer_res c a b n t (p_buf p) (p_count p) (p_type p) = Exit 1 "copy_data: Trying to over-receive").
  { unfold xfer_res. rewrite T1, T2. eapply C33_copy_lemma; eauto. }
  split.
  - apply (run_exit (tj := tj) _ _ a); auto; [eapply legal_isend_paired; eauto; rewrite Ex; exact Logic.I|]. apply smap_exit. eapply isend_exit; eauto.
  - intros K IK. destruct (C20_lemma K s a b n t g cm k IK R H Rm Ek) as [X _]. destruct (X _ _ _ Ea) as [_ Y]. apply Y. exact Ex.
Qed.

(** *** C34: MPI_Recv. *)
Theorem C34_lemma s a b n t so g cm x o s' a' : reach s a -> does s a (KRecv b n t so g cm (SAt x)) o s' a' ->
  exists y, o = VStatus (SAt y) /\ MPI_Get_count y t = n /\
    forall ty, type_at c a' t = Some ty -> is_int (n * ts_count ty) -> exists s2, does s' a' (KGetElements y t) (VInt (n * ts_count ty)) s2 a'.
Proof.
  intros R D. pose proof D as (_ & _ & R' & Q & Es & Qo). cbn [spec] in Es. unfold smap, sbind in Es. destruct (s_recv c b n t so g cm a) as [w b'| |]; try discriminate.
  cbn [sret] in Es. assert (Qe : Q = (fun o => exists st', wrote (SAt x) w st' /\ o = VStatus (with_count st' n))) by (unfold sret in Es; injection Es; auto).
  subst Q. destruct Qo as (st' & W & ->).
  assert (X : exists y, st' = SAt y). { destruct w; cbn in W; [eauto|]. destruct W as (y & -> & _). eauto. }
  destruct X as (y & ->). cbn [with_count]. eexists. split; [reflexivity|]. split; [reflexivity|]. intros ty Ty In.
  set (y' := mkStatus _ _ _ _) in *. apply (does_intro (tj := tj) (KGetElements y' t) s' a' (is VInt (n * ts_count ty)) a' (VInt (n * ts_count ty)) R'); auto.
  - exists ty. split; auto. unfold SysSpec.elements. cbn [st_count y']. rewrite chk_int_ok by exact In. exact Logic.I.
  - cbn [spec]. unfold smap, sbind, s_query, SysSpec.elements. rewrite Ty. cbn [st_count y']. rewrite chk_int_ok by exact In. reflexivity.
Qed.

(** *** C44 *)
Theorem C44_send_lemma s a b n t ts g cm k bf p e td : reach s a -> has_handle a -> room a -> comm_at a cm = Some k -> earliest Snd g k bf p e ->
  type_at c a t = Some ts -> type_at c a (p_type p) = Some td -> ts_committed ts = 0 \/ ts_committed td = 0 ->
  exec c (KIsend b n t 0 g cm) s = Exit (-1) "Type not committed" /\ (forall K, is_send K -> exec c (K b n t 0 g cm) s = Exit (-1) "Type not committed").
Proof.
  intros R H Rm Ek Ea T1 T2 C1. pose proof (reach_inv _ _ R) as I.
  assert (Ex : xfer_res c a b n t (p_buf p) (p_count p) (p_type p) = Exit (-1) "Type not committed") by (unfold xfer_res; rewrite T1, T2; apply C44_copy_lemma; auto).
  split.
  - apply (run_exit (tj := tj) _ _ a); auto; [eapply legal_isend_paired; eauto; rewrite Ex; exact Logic.I|]. apply smap_exit. eapply isend_exit; eauto.
  - intros K IK. destruct (C20_lemma K s a b n t g cm k IK R H Rm Ek) as [X _]. destruct (X _ _ _ Ea) as [_ Y]. apply Y. exact Ex.
Qed.
Theorem C44_recv_lemma s a b n t so ty g cm k bf p e : reach s a -> has_handle a -> room a -> comm_at a cm = Some k -> so = 0 \/ so = MPI_ANY_SOURCE -> earliest Rcv g k bf p e ->
  type_at c a t = Some ty -> ts_committed ty = 0 ->
  exec c (KIrecv b n t so g cm) s = Exit (-1) "Type not committed" /\ (forall st, st <> SBad -> exec c (KRecv b n t so g cm st) s = Exit (-1) "Type not committed").
Proof.
  intros R H Rm Ek So Ea T1 C1. pose proof (reach_inv _ _ R) as I.
  assert (Ex : xfer_res c a (p_buf p) n t b n t = Exit (-1) "Type not committed") by (unfold xfer_res; rewrite T1; apply C44_copy_lemma; auto).
  split.
  - apply (run_exit (tj := tj) _ _ a); auto; [eapply legal_irecv_paired; eauto; rewrite Ex; exact Logic.I|]. apply smap_exit. eapply irecv_exit; eauto.
  - intros st Ns. destruct (C21_lemma s a b n t so g cm k st R H Rm Ek So Ns) as [X _]. destruct (X _ _ _ Ea) as [_ Y]. apply Y. exact Ex.
Qed.
(** MPI_Type_commit: exactly that type changes, and only its commit mark. *)
Theorem C44_commit_lemma s a h t : reach s a -> a_obj a h = Some (AType t) ->
  exists s' a' t', does s a (KTypeCommit h) VUnit s' a' /\ a_obj a' h = Some (AType t') /\
    ts_committed t' = 1 /\ ts_count t' = ts_count t /\ ts_ub t' = ts_ub t /\ ts_lb t' = ts_lb t /\ ts_olb t' = ts_olb t /\ ts_oub t' = ts_oub t /\ ts_pairs t' = ts_pairs t /\
    (forall x, x <> h -> a_obj a' x = a_obj a x) /\ a_mem a' = a_mem a /\ a_log a' = a_log a /\
    (ts_committed t = 1 -> forall x, a_obj a' x = a_obj a x).
Proof.
  intros R E. destruct (does_intro (tj := tj) (KTypeCommit h) s a (unit_out tt) (set_obj a h (Some (AType (committed t)))) VUnit R) as (s' & D); auto.
  - exists t. unfold type_at. rewrite E. pose proof (live_pos _ _ _ (reach_inv _ _ R) E). replace (h <? 0) with false by (symmetry; apply Z.ltb_ge; lia). reflexivity.
  - cbn [spec]. unfold smap, sbind, s_type_commit. rewrite E. reflexivity.
  - eexists s', _, (committed t). split; [exact D|]. cbn. rewrite upd_same. repeat (split; [reflexivity|]). split; [intros x N; apply upd_other; auto|]. split; [reflexivity|]. split; [reflexivity|].
    intros Ct x. unfold upd. destruct (Z.eqb_spec x h) as [->|N]; [|reflexivity]. rewrite E. f_equal. f_equal. destruct t; cbn in *. subst. reflexivity.
Qed.
Lemma simple_committed t : In t (simpletypes c) -> ts_committed t = 1.
Proof. intros H. assert (F : forallb (fun t => ts_committed t =? 1) (simpletypes c) = true) by reflexivity. rewrite forallb_forall in F. apply Z.eqb_eq. apply F. exact H. Qed.
Theorem C44_predefined_lemma s a h t : reach s a -> h < 0 -> type_at c a h = Some t ->
  ts_committed t <> 0 /\ exists s', does s a (KTypeCommit h) VUnit s' a.
Proof.
  intros R Hn E. split.
  - unfold type_at in E. apply Z.ltb_lt in Hn. rewrite Hn in E. destruct (predefined c h) as [t'| | | |] eqn:P; try discriminate. injection E as ->. unfold predefined in P. destruct (_ || _); [discriminate|].
    destruct (nth_error (simpletypes c) (Z.to_nat (-1 - h))) as [t'|] eqn:En; [|discriminate]. apply Ok_inj in P. subst t'. apply nth_error_In in En. rewrite (simple_committed _ En). discriminate.
  - apply (does_intro (tj := tj) (KTypeCommit h) s a (unit_out tt) a VUnit R); auto; [exists t; auto|]. cbn [spec]. unfold smap, sbind, s_type_commit.
    destruct (a_obj a h) as [o|] eqn:Eo; [|reflexivity]. pose proof (live_pos _ _ _ (reach_inv _ _ R) Eo). lia.
Qed.

(** *** C45 *)
Theorem C45_lemma s a k o s' a' h t : reach s a -> does s a k o s' a' -> k <> KFinalize -> ~ In h (types_of k) -> type_at c a h = Some t -> type_at c a' h = Some t.
Proof.
  intros R D N Nt E. pose proof (does_kept _ _ _ _ _ _ R D N) as K. unfold type_at in *. destruct (h <? 0); [exact E|].
  destruct (a_obj a h) as [[| |t']|] eqn:Eo; try discriminate. rewrite (kp_type _ _ _ _ _ K _ _ Nt Eo). exact E.
Qed.
(** *** C46 *)
Theorem C46_lemma s a h t : reach s a -> a_obj a h = Some (AType t) -> exists s' a', does s a (KTypeFree h) (VInt h) s' a' /\ released h a a'.
Proof.
  intros R E. destruct (does_intro (tj := tj) (KTypeFree h) s a (is VInt h) (freed_at a h) (VInt h) R) as (s' & D); auto; [exists t; auto|].
  exists s', (freed_at a h). split; auto. apply freed_released.
Qed.
End Facts.
